(** * Lemmas: when an installation succeeds *)

From Coq Require Import List NArith ZArith Bool String Lia.
From Verif Require Import PyBase PyFacts Cache Install Spec_Install InstallFacts InstallEnd Spec_Success.
Import ListNotations.
Open Scope string_scope.
Open Scope list_scope.

(** ** What kind of thing is at a path *)
Definition kind (o : option tree) : nat := match o with None => 0 | Some (TFile _) => 1 | Some (TDir _) => 2 end.
Definition leaf (t : tree) : Prop := match t with TFile _ => True | TDir es => es = [] end.

Lemma tput_kind : forall p t e e', tput p t e = Some e' -> leaf t -> is_dir (tget p e) = false -> forall q, q <> p -> kind (tget q e') = kind (tget q e).
Proof.
  induction p as [|n p IH]; intros t e e' H L D q Nq; [discriminate|]. destruct q as [|m q]; [reflexivity|]. destruct p as [|n2 p].
  - cbn [tput] in H. injection H as <-. rewrite !tget_cons, dget_dset. destruct (str_eqb_spec m n) as [-> | N]; [|reflexivity].
    rewrite tget_cons in D. destruct q as [|m2 q]; [congruence|]. destruct t as [c|es]; cbn [leaf] in L; subst; cbn [tsub tget]; rewrite ?tget_cons; cbn [kind];
      destruct (dget n e) as [[x|y]|]; cbn [tsub is_dir] in D; try discriminate; reflexivity.
  - rewrite tput_cons in H by discriminate. destruct (dget n e) as [[c0|e1]|] eqn:G; try discriminate.
    destruct (tput (n2 :: p) t e1) as [e2|] eqn:P; [|discriminate]. injection H as <-. rewrite tget_cons, G in D.
    rewrite !tget_cons, dget_dset. destruct (str_eqb_spec m n) as [-> | N]; [|reflexivity]. rewrite G. destruct q as [|m2 q]; [reflexivity|].
    cbn [tsub]. apply (IH t e1 e2 P L D). congruence.
Qed.
Lemma tput_here : forall p t e e', tput p t e = Some e' -> tget p e' = Some t.
Proof.
  induction p as [|n p IH]; intros t e e' H; [discriminate|]. destruct p as [|n2 p].
  - cbn [tput] in H. injection H as <-. rewrite tget_cons, dget_dset_same. reflexivity.
  - rewrite tput_cons in H by discriminate. destruct (dget n e) as [[c0|e1]|] eqn:G; try discriminate.
    destruct (tput (n2 :: p) t e1) as [e2|] eqn:P; [|discriminate]. injection H as <-. rewrite tget_cons, dget_dset_same. cbn [tsub]. apply (IH _ _ _ P).
Qed.
Lemma tput_works : forall q n t e es, tget q e = Some (TDir es) -> exists e', tput (q ++ [n]) t e = Some e'.
Proof.
  induction q as [|m q IH]; intros n t e es H; [cbn; eauto|]. cbn [app]. rewrite tput_cons by (destruct q; discriminate). rewrite tget_cons in H.
  destruct (dget m e) as [[c|e1]|]; [destruct q; discriminate | | discriminate].
  assert (X : tget q e1 = Some (TDir es)) by (destruct q; exact H).
  destruct (IH n t e1 es X) as (e2 & ->). eauto.
Qed.

Section Success.
  Variables (z : archive) (top name : pystr).
  Hypothesis PA : plain_archive z top name.
  Hypothesis IN : installable z top.
  Notation T := (target z top).
  Notation ready := (unobstructed z top name).

  Lemma target_top : forall p, T p -> exists n rest, p = top :: n :: rest.
  Proof.
    intros p [-> | (m & I & D & X)]; [eauto|]. destruct (pa_inside _ _ _ PA m I D) as (rest & Y & _).
    apply destination_spec in X. apply destination_spec in Y. assert (p = top :: rest) by congruence. subst p. destruct rest as [|n rest]; [|eauto].
    assert (Z : [py "__github_info__.json"] = []); [|discriminate]. apply (in_apart _ _ IN [top]).
    - right. exists m. split; [exact I|]. split; [exact D|]. apply destination_spec. exact Y.
    - left. reflexivity.
  Qed.
  Lemma top_differs : top <> name.
  Proof. intros X. apply (pa_name _ _ _ PA). congruence. Qed.
  Lemma not_name : forall p q r, T p -> p = q ++ r -> [name] <> q.
  Proof.
    intros p q r Tp E X. subst q. apply target_top in Tp as (n & rest & Tp). rewrite Tp in E. injection E as E _. apply top_differs. congruence.
  Qed.

  Lemma kind_file : forall o, kind o <> 1 <-> forall c, o <> Some (TFile c).
  Proof. intros [[c|es]|]; cbn [kind]; split; intros H; try congruence; try discriminate. intros _. exact (H c eq_refl). Qed.
  Lemma kind_dir : forall o, kind o <> 2 <-> forall es, o <> Some (TDir es).
  Proof. intros [[c|es]|]; cbn [kind]; split; intros H; try congruence; try discriminate. intros _. exact (H es eq_refl). Qed.
  Lemma ready_iff : forall e, ready e <-> (forall p q r, T p -> p = q ++ r -> r <> [] -> kind (tget q e) <> 1) /\ (forall p, T p -> kind (tget p e) <> 2) /\ kind (tget [name] e) <> 1.
  Proof.
    intros e. assert (X : tget [name] e = dget name e) by (rewrite tget_cons; destruct (dget name e); reflexivity). rewrite X. split.
    - intros [A B C]. split; [|split].
      + intros p q r H1 H2 H3. apply kind_file. intros c. eapply A; eauto.
      + intros p H1. apply kind_dir. intros es. apply B, H1.
      + apply kind_file. exact C.
    - intros (A & B & C). constructor.
      + intros p q r c H1 H2 H3. apply (proj1 (kind_file _)). eapply A; eauto.
      + intros p es H1. apply (proj1 (kind_dir _)). apply B, H1.
      + apply (proj1 (kind_file _)). exact C.
  Qed.

  Lemma ready_mkdir : forall p q r e e', T p -> p = q ++ r -> r <> [] -> tget q e = None -> tput q (TDir []) e = Some e' -> ready e -> ready e'.
  Proof.
    intros p q r e e' Tp E Nr G H R. apply ready_iff in R as (A & B & C). apply ready_iff. pose proof (tput_kind q _ e e' H eq_refl) as K. rewrite G in K. specialize (K eq_refl).
    pose proof (tput_here q _ e e' H) as Hq. split; [|split].
    - intros p' q' r' T' E' N'. destruct (path_dec q' q) as [-> | Nq]; [rewrite Hq; discriminate|]. rewrite K by exact Nq. eapply A; eauto.
    - intros p' T'. destruct (path_dec p' q) as [-> | Nq]; [|rewrite K by exact Nq; apply B, T']. destruct Nr. apply (in_apart _ _ IN q); [exact T' | rewrite <- E; exact Tp].
    - rewrite K; [exact C|]. eapply not_name; eauto.
  Qed.
  Lemma ready_write : forall p c e e', T p -> tput p (TFile c) e = Some e' -> ready e -> ready e'.
  Proof.
    intros p c e e' Tp H R. apply ready_iff in R as (A & B & C). apply ready_iff.
    assert (D : is_dir (tget p e) = false) by (specialize (B p Tp); destruct (tget p e) as [[x|y]|]; cbn in *; congruence).
    pose proof (tput_kind p _ e e' H I D) as K. pose proof (tput_here p _ e e' H) as Hp. split; [|split].
    - intros p' q' r' T' E' N'. destruct (path_dec q' p) as [-> | Nq]; [|rewrite K by exact Nq; eapply A; eauto]. destruct N'. apply (in_apart _ _ IN p); [exact Tp | rewrite <- E'; exact T'].
    - intros p' T'. destruct (path_dec p' p) as [-> | Nq]; [rewrite Hp; discriminate|]. rewrite K by exact Nq. apply B, T'.
    - rewrite K; [exact C|]. apply (not_name p p []); [exact Tp | rewrite app_nil_r; reflexivity].
  Qed.

  (** ** All states are unobstructed *)
  Definition stays (e s : entries) : Prop := ready e -> ready s.
  Lemma stays_refl : forall e, stays e e.
  Proof. intros e H. exact H. Qed.
  Lemma stays_trans : forall a b c, stays a b -> stays b c -> stays a c.
  Proof. unfold stays. auto. Qed.

  Lemma stays_makedirs : forall todo done p r, T p -> p = done ++ todo ++ r -> r <> [] -> keeps stays (wmakedirs done todo).
  Proof.
    induction todo as [|n todo IH]; intros done p r Tp E Nr; [apply keeps_ret, stays_refl|]. cbn [wmakedirs].
    assert (E' : p = (done ++ [n]) ++ todo ++ r) by (rewrite E, <- app_assoc; reflexivity).
    intros e. unfold wbind at 1, wget. destruct (tget (done ++ [n]) e) as [[c|es]|] eqn:G.
    - cbn. split; [constructor | apply stays_refl].
    - specialize (IH (done ++ [n]) p r Tp E' Nr e). destruct (wmakedirs (done ++ [n]) todo e) as [[l e2] x]. exact IH.
    - unfold wmkdir, wbind. destruct (tput (done ++ [n]) (TDir []) e) as [e1|] eqn:P; [|cbn; split; [constructor | apply stays_refl]].
      assert (S1 : stays e e1) by (intros R; eapply (ready_mkdir p (done ++ [n]) (todo ++ r)); eauto; destruct todo; [exact Nr | discriminate]).
      specialize (IH (done ++ [n]) p r Tp E' Nr e1). destruct (wmakedirs (done ++ [n]) todo e1) as [[l e2] x]. destruct IH as [I1 I2]. cbn [app]. split; [|eapply stays_trans; eauto].
      constructor; [exact S1|]. eapply Forall_impl; [|exact I1]. intros s Hs. eapply stays_trans; eauto.
  Qed.
  Lemma stays_write : forall p data, T p -> keeps stays (wwrite p data).
  Proof.
    intros p data Tp e. unfold wwrite. assert (X : forall c e', tput p (TFile c) e = Some e' -> stays e e') by (intros c e' H R; eapply ready_write; eauto).
    destruct (tget p e) as [[c|es]|]; [|split; [constructor | apply stays_refl]|]; (destruct (tput p (TFile data) e) as [e'|] eqn:P; [|split; [constructor | apply stays_refl]]);
      (split; [|eapply X; eauto]; apply Forall_app; split; [|constructor; [eapply X; eauto | constructor]]; apply Forall_forall; intros s Is;
       apply in_flat_map in Is as (k & _ & Is); destruct (tput p (TFile (firstn k data)) e) as [y|] eqn:Q; [|destruct Is]; destruct Is as [<- | []]; eapply X; eauto).
  Qed.
  Lemma member_target : forall m, In m (z_members z) -> is_extractable (m_name m) NXDL_file_endings (allowed_parents top) = true -> T (safe_parts (m_name m)).
  Proof.
    intros m J X. right. exists m. split; [exact J|]. split; [apply extractable_spec; [apply PA | exact X] | apply destination_spec; reflexivity].
  Qed.
  Lemma member_file : forall m, In m (z_members z) -> is_extractable (m_name m) NXDL_file_endings (allowed_parents top) = true -> endswith (m_name m) [ch_slash] = false.
  Proof.
    intros m J X. destruct (endswith (m_name m) [ch_slash]) eqn:F; [|reflexivity]. apply endswith_spec in F as (d & E).
    destruct (in_files _ _ IN m d J); [apply extractable_spec; [apply PA | exact X] | exact E].
  Qed.
  Lemma last_split : forall p, T p -> exists q n, p = q ++ [n] /\ removelast p = q.
  Proof. intros p Tp. apply target_top in Tp as (n & rest & ->). exists (removelast (top :: n :: rest)), (last (top :: n :: rest) []). split; [apply app_removelast_last; discriminate | reflexivity]. Qed.

  Lemma stays_extract : forall m, In m (z_members z) -> is_extractable (m_name m) NXDL_file_endings (allowed_parents top) = true ->
    forall data, keeps stays (wextract (m_name m) data).
  Proof.
    intros m J X data. unfold wextract. rewrite (member_file m J X). pose proof (member_target m J X) as Tp. destruct (last_split _ Tp) as (q & n & E & R).
    apply keeps_bind; [apply stays_trans | | intros _; apply stays_write, Tp]. apply (stays_makedirs _ [] (safe_parts (m_name m)) [n]); [exact Tp | rewrite R; exact E | discriminate].
  Qed.
  Lemma stays_extract_all : forall ms count, (forall m, In m ms -> In m (z_members z)) -> keeps stays (extract_all z top count ms).
  Proof.
    induction ms as [|m ms IH]; intros count H; [apply keeps_ret, stays_refl|]. cbn [extract_all]. destruct (is_extractable (m_name m) NXDL_file_endings (allowed_parents top)) eqn:X.
    - apply keeps_bind; [apply stays_trans | apply stays_extract; [apply H; left; reflexivity | exact X] | intros _; apply IH; intros k Ik; apply H; right; exact Ik].
    - apply IH. intros k Ik. apply H. right. exact Ik.
  Qed.

  Lemma ready_name : forall e e', (forall n, n <> name -> dget n e' = dget n e) -> (forall c, dget name e' <> Some (TFile c)) -> ready e -> ready e'.
  Proof.
    intros e e' F N [A B C]. assert (X : forall q r p, T p -> p = q ++ r -> q <> [] -> tget q e' = tget q e).
    { intros q r p Tp E Nq. apply target_top in Tp as (n & rest & Tp). destruct q as [|x q]; [congruence|]. rewrite Tp in E. injection E as <- _. rewrite !tget_cons, F by apply top_differs. reflexivity. }
    constructor; auto.
    - intros p q r c Tp E Nr. destruct q as [|x q]; [discriminate|]. rewrite (X (x :: q) r p Tp E) by discriminate. eapply A; eauto.
    - intros p es Tp. rewrite (X p [] p Tp); [apply B, Tp | rewrite app_nil_r; reflexivity|]. apply target_top in Tp as (n & rest & ->). discriminate.
  Qed.
  Lemma stays_rmtree : keeps stays (wrmtree name).
  Proof.
    intros e. unfold wrmtree. destruct (dget name e) as [[c|es]|] eqn:G; [split; [constructor | apply stays_refl] | | split; [constructor | apply stays_refl]].
    set (ctx := fun o => match o with Some t => dset name t e | None => dremove name e end).
    assert (K : forall s, In s (rm_tree (TDir es) ctx) -> stays e s).
    { intros s H. apply rm_tree_states in H as [-> | (t' & R & ->)]; cbn [ctx]; intros Re; (apply (ready_name e); [| | exact Re]).
      - intros n N. rewrite dget_dremove. destruct (str_eqb_spec n name); congruence.
      - intros c. rewrite dget_dremove, str_eqb_refl. discriminate.
      - intros n N. rewrite dget_dset. destruct (str_eqb_spec n name); congruence.
      - intros c. rewrite dget_dset_same. inversion R; discriminate. }
    split; [apply Forall_forall; exact K|]. rewrite rm_tree_dir, rm_go_last. apply K. rewrite rm_tree_dir. clear. induction es as [|[n t] es IH]; [left; reflexivity|]. cbn [rm_go]. apply in_or_app. right. exact IH.
  Qed.
  Lemma stays_move : keeps stays (wmove top name).
  Proof.
    intros e. unfold wmove. destruct (dget top e) as [t|] eqn:G; [|split; [constructor | apply stays_refl]]. destruct (dget name e); [split; [constructor | apply stays_refl]|].
    assert (S1 : stays e (dset name t (dremove top e))).
    { intros [A B C]. assert (N : dget top (dset name t (dremove top e)) = None).
      { rewrite dget_dset, dget_dremove, str_eqb_refl. destruct (str_eqb_spec top name) as [X | X]; [destruct (top_differs X) | reflexivity]. }
      assert (X : forall q r p, T p -> p = q ++ r -> q <> [] -> tget q (dset name t (dremove top e)) = None).
      { intros q r p Tp E Nq. apply target_top in Tp as (n & rest & Tp). destruct q as [|x q]; [congruence|]. rewrite Tp in E. injection E as <- _. rewrite tget_cons, N. reflexivity. }
      constructor.
      - intros p q r c Tp E Nr. destruct q as [|x q]; [discriminate|]. rewrite (X (x :: q) r p Tp E) by discriminate. discriminate.
      - intros p es Tp. rewrite (X p [] p Tp); [discriminate | rewrite app_nil_r; reflexivity|]. apply target_top in Tp as (n & rest & ->). discriminate.
      - intros c. rewrite dget_dset_same. intros Y. injection Y as ->. apply (A [top; py "__github_info__.json"] [top] [py "__github_info__.json"] c); [left; reflexivity | reflexivity | discriminate|].
        rewrite tget_cons, G. reflexivity. }
    split; [constructor; [exact S1 | constructor] | exact S1].
  Qed.
  Lemma top_is : top_of z = Ok top.
  Proof. destruct (pa_top _ _ _ PA) as (m & rest & Ez & Et). unfold top_of. rewrite Ez, Et. reflexivity. Qed.
  Lemma stays_unpack : keeps stays (unpack name z).
  Proof.
    unfold unpack. rewrite top_is. assert (X : keeps stays (
      wdo count <- extract_all z top 0 (z_members z) ;
      if Nat.ltb count 2 then wraise ValueError
      else wdo text <- wlift (z_info z name) ; wdo _u <- wwrite [top; INFO_FILE_NAME] text ; wdo _u <- wrmtree name ; wmove top name)).
    { apply keeps_bind; [apply stays_trans | apply stays_extract_all; auto|]. intros count. destruct (Nat.ltb count 2); [apply keeps_raise, stays_refl|].
      apply keeps_bind; [apply stays_trans | apply keeps_lift, stays_refl|]. intros text.
      apply keeps_bind; [apply stays_trans | apply stays_write; left; reflexivity|]. intros _.
      apply keeps_bind; [apply stays_trans | apply stays_rmtree|]. intros _. apply stays_move. }
    intros e. specialize (X e). unfold wbind at 1, wlift at 1. destruct (wbind _ _ e) as [[l e2] r]. exact X.
  Qed.
  Lemma visited_ready : forall replace net e s, net 0 = AnArchive z -> ready e -> visited e (snd (download_file_set name replace net e)) s -> ready s.
  Proof.
    intros replace net e s HN R V. unfold download_file_set in V. destruct (dmem name e && negb replace); [destruct V as [-> | [[] | ->]]; exact R|].
    unfold download_archive, GITHUB_RETRY_COUNT in V. cbn [try_rounds] in V. rewrite HN in V. cbn [try_round snd] in V.
    pose proof (stays_unpack e) as K. destruct (unpack name z e) as [[l e2] r]. destruct K as [K1 K2]. destruct V as [-> | [J | ->]]; [exact R | | exact (K2 R)].
    rewrite Forall_forall in K1. exact (K1 s J R).
  Qed.

  (** ** It succeeds *)
  Lemma makedirs_works : forall todo done p r e es, T p -> p = done ++ todo ++ r -> r <> [] -> ready e -> tget done e = Some (TDir es) ->
    exists l e1 es1, wmakedirs done todo e = (l, e1, Ok tt) /\ tget (done ++ todo) e1 = Some (TDir es1).
  Proof.
    induction todo as [|n todo IH]; intros done p r e es Tp E Nr R D; [exists [], e, es; rewrite app_nil_r; auto|]. cbn [wmakedirs]. unfold wbind at 1, wget.
    assert (E' : p = (done ++ [n]) ++ todo ++ r) by (rewrite E, <- app_assoc; reflexivity).
    assert (A : done ++ n :: todo = (done ++ [n]) ++ todo) by (rewrite <- app_assoc; reflexivity). rewrite A.
    destruct (tget (done ++ [n]) e) as [[c|es1]|] eqn:G.
    - destruct (un_parents _ _ _ _ R p (done ++ [n]) (todo ++ r) c Tp E'); [destruct todo; [exact Nr | discriminate] | exact G].
    - destruct (IH (done ++ [n]) p r e es1 Tp E' Nr R G) as (l & e1 & es2 & -> & X). exists l, e1, es2. auto.
    - unfold wmkdir, wbind. destruct (tput_works done n (TDir []) e es D) as (e1 & P). rewrite P.
      assert (R1 : ready e1) by (eapply (ready_mkdir p (done ++ [n]) (todo ++ r)); eauto; destruct todo; [exact Nr | discriminate]).
      destruct (IH (done ++ [n]) p r e1 [] Tp E' Nr R1 (tput_here _ _ _ _ P)) as (l & e2 & es2 & -> & X). exists ([e1] ++ l), e2, es2. auto.
  Qed.

  Definition has_top (e : entries) : Prop := exists es, tget [top] e = Some (TDir es).
  Lemma put_top : forall n rest t e e', tput (top :: n :: rest) t e = Some e' -> has_top e'.
  Proof.
    intros n rest t e e' H. rewrite tput_cons in H by discriminate. destruct (dget top e) as [[c|es]|]; try discriminate. destruct (tput (n :: rest) t es) as [es'|]; [|discriminate].
    injection H as <-. exists es'. rewrite tget_cons, dget_dset_same. reflexivity.
  Qed.
  Lemma write_works : forall p q n data e es, T p -> p = q ++ [n] -> ready e -> tget q e = Some (TDir es) -> exists l e1, wwrite p data e = (l, e1, Ok tt) /\ has_top e1.
  Proof.
    intros p q n data e es Tp E R D. unfold wwrite. destruct (tput_works q n (TFile data) e es D) as (e1 & P). rewrite <- E in P. rewrite P.
    assert (X : has_top e1) by (apply target_top in Tp as (x & rest & ->); eapply put_top; eauto).
    destruct (tget p e) as [[c|es1]|] eqn:G; [eauto | destruct (un_files _ _ _ _ R p es1 Tp G) | eauto].
  Qed.
  Lemma extract_works : forall m data e, In m (z_members z) -> is_extractable (m_name m) NXDL_file_endings (allowed_parents top) = true -> ready e ->
    exists l e1, wextract (m_name m) data e = (l, e1, Ok tt) /\ has_top e1 /\ ready e1.
  Proof.
    intros m data e J X R. pose proof (stays_extract m J X data e) as K. unfold wextract in *. rewrite (member_file m J X) in *. pose proof (member_target m J X) as Tp. destruct (last_split _ Tp) as (q & n & E & Q).
    rewrite Q in *. pose proof (stays_makedirs q [] (safe_parts (m_name m)) [n] Tp E ltac:(discriminate) e) as K1.
    destruct (makedirs_works q [] (safe_parts (m_name m)) [n] e e Tp E ltac:(discriminate) R eq_refl) as (l & e1 & es1 & M & G). unfold wbind in *. rewrite M in *. destruct K1 as [_ K1]. specialize (K1 R). cbn [app] in G.
    destruct (write_works _ q n data e1 es1 Tp E K1 G) as (l2 & e2 & Wr & H). rewrite Wr in *. exists (l ++ l2), e2. split; [reflexivity|]. split; [exact H|]. apply K, R.
  Qed.
  Definition count_of (ms : list member) : nat := List.length (filter (fun m => is_extractable (m_name m) NXDL_file_endings (allowed_parents top)) ms).
  Lemma extract_all_works : forall ms count e, (forall m, In m ms -> In m (z_members z)) -> ready e -> (0 < count -> has_top e) ->
    exists l e1, extract_all z top count ms e = (l, e1, Ok (count + count_of ms)) /\ ready e1 /\ (0 < count + count_of ms -> has_top e1).
  Proof.
    induction ms as [|m ms IH]; intros count e H R Ht.
    - exists [], e. unfold count_of. cbn. rewrite PeanoNat.Nat.add_0_r. auto.
    - assert (H' : forall k, In k ms -> In k (z_members z)) by (intros k Ik; apply H; right; exact Ik).
      cbn [extract_all]. unfold count_of. cbn [filter]. destruct (is_extractable (m_name m) NXDL_file_endings (allowed_parents top)) eqn:X.
      + destruct (extract_works m (getinfo z (m_name m)) e (H m (or_introl eq_refl)) X R) as (l & e1 & W1 & Ht1 & R1). unfold wbind. rewrite W1.
        destruct (IH (S count) e1 H' R1 (fun _ => Ht1)) as (l2 & e2 & W2 & R2 & Ht2). rewrite W2. exists (l ++ l2), e2. cbn [List.length]. rewrite PeanoNat.Nat.add_succ_r. auto.
      + apply IH; auto.
  Qed.
  Lemma two_members : 2 <= count_of (z_members z).
  Proof.
    destruct (in_two _ _ IN) as (a & m & b & m' & c & E & D & D'). unfold count_of. rewrite E, filter_app, app_length. cbn [filter].
    apply extractable_spec in D; [|apply PA]. apply extractable_spec in D'; [|apply PA]. rewrite D. cbn [List.length]. rewrite filter_app, app_length. cbn [filter]. rewrite D'. cbn [List.length]. lia.
  Qed.
  Lemma rmtree_works : forall e, ready e -> has_top e -> exists l e1, wrmtree name e = (l, e1, Ok tt) /\ dget name e1 = None /\ has_top e1.
  Proof.
    intros e R (es & G). unfold wrmtree. destruct (dget name e) as [[c|es1]|] eqn:N.
    - destruct (un_name _ _ _ _ R c N).
    - eexists _, _. split; [reflexivity|]. rewrite rm_tree_dir, rm_go_last. split; [rewrite dget_dremove, str_eqb_refl; reflexivity|].
      exists es. rewrite tget_cons in *. rewrite dget_dremove. destruct (str_eqb_spec top name) as [X | X]; [destruct (top_differs X) | exact G].
    - exists [], e. split; [reflexivity|]. split; [exact N|]. exists es. exact G.
  Qed.
  Lemma unpack_works : forall e text, ready e -> z_info z name = Ok text -> snd (unpack name z e) = Ok tt.
  Proof.
    intros e text R Zi. unfold unpack. rewrite top_is. unfold wbind at 1, wlift at 1.
    destruct (extract_all_works (z_members z) 0 e (fun m J => J) R ltac:(lia)) as (l & e1 & W1 & R1 & Ht1). cbn [plus] in *. unfold wbind at 1. rewrite W1.
    pose proof two_members as Two. destruct (Nat.ltb_spec (count_of (z_members z)) 2) as [X | _]; [lia|]. destruct (Ht1 ltac:(lia)) as (es & G).
    rewrite Zi. unfold wbind at 1, wlift.
    assert (Ti : T [top; INFO_FILE_NAME]) by (left; reflexivity).
    destruct (write_works [top; INFO_FILE_NAME] [top] INFO_FILE_NAME text e1 es Ti eq_refl R1 G) as (l2 & e2 & W2 & Ht2).
    pose proof (stays_write _ text Ti e1) as K. unfold wbind at 1. rewrite W2 in *. destruct K as [_ K]. specialize (K R1).
    destruct (rmtree_works e2 K Ht2) as (l3 & e3 & W3 & N3 & (es3 & G3)). unfold wbind at 1. rewrite W3.
    rewrite tget_cons in G3. unfold wmove. destruct (dget top e3) as [t|]; [|discriminate]. rewrite N3. reflexivity.
  Qed.
  Lemma download_works : forall replace net e text, net 0 = AnArchive z -> ready e -> z_info z name = Ok text -> snd (snd (download_file_set name replace net e)) = Ok tt.
  Proof.
    intros replace net e text HN R Zi. unfold download_file_set. destruct (dmem name e && negb replace); [reflexivity|].
    unfold download_archive, GITHUB_RETRY_COUNT. cbn [try_rounds]. rewrite HN. cbn [try_round snd]. eapply unpack_works; eauto.
  Qed.
End Success.

(** ** Interrupted runs *)
Lemma target_members : forall z z' top p, z_members z' = z_members z -> target z' top p -> target z top p.
Proof. intros z z' top p E [H | (m & J & X)]; [left; exact H|]. right. exists m. rewrite <- E. auto. Qed.
Lemma installable_members : forall z z' top, z_members z' = z_members z -> installable z top -> installable z' top.
Proof.
  intros z z' top E [A B C]. constructor; [rewrite E; exact A | rewrite E; exact B|]. intros p r H1 H2. apply (C p r); eapply target_members; eauto.
Qed.
Lemma unobstructed_members : forall z z' top name e, z_members z' = z_members z -> unobstructed z top name e -> unobstructed z' top name e.
Proof.
  intros z z' top name e E [A B C]. constructor; [| |exact C].
  - intros p q r c H1. eapply A. eapply target_members; eauto.
  - intros p es H1. eapply B. eapply target_members; eauto.
Qed.
Lemma plain_members : forall z z' top name, z_members z' = z_members z -> plain_archive z top name -> plain_archive z' top name.
Proof. intros z z' top name E [A B C D]. constructor; [rewrite E; exact A | exact B | exact C | rewrite E; exact D]. Qed.

Lemma interrupted_ready : forall z top name e s, plain_archive z top name -> installable z top -> interrupted z name e s -> unobstructed z top name e -> unobstructed z top name s.
Proof.
  intros z top name e s PA IN H R. induction H as [e | replace net e s s' _ IH HN V]; [exact R|]. specialize (IH R). destruct (net 0) as [z'| |] eqn:N0.
  2-3: assert (X : s' = s) by (unfold download_file_set, visited in V; destruct (dmem name s && negb replace); [simpl in V; intuition|];
    unfold download_archive, GITHUB_RETRY_COUNT in V; cbn [try_rounds] in V; rewrite N0 in V; simpl in V; intuition); rewrite X; exact IH.
  specialize (HN z' eq_refl). apply (unobstructed_members z' z); [symmetry; exact HN|].
  eapply (visited_ready z' top name); [eapply plain_members; eauto | eapply installable_members; eauto | exact N0 | eapply unobstructed_members; eauto | exact V].
Qed.

(** ** Too few definition files *)
Lemma two_of : forall top ms, 2 <= count_of top ms -> exists before m between m' after, ms = before ++ m :: between ++ m' :: after
  /\ is_extractable (m_name m) NXDL_file_endings (allowed_parents top) = true /\ is_extractable (m_name m') NXDL_file_endings (allowed_parents top) = true.
Proof.
  intros top. assert (O : forall l, 1 <= count_of top l -> exists a m b, l = a ++ m :: b /\ is_extractable (m_name m) NXDL_file_endings (allowed_parents top) = true).
  { induction l as [|m l IH]; unfold count_of in *; cbn [filter]; intros H; [cbn in H; lia|].
    destruct (is_extractable (m_name m) NXDL_file_endings (allowed_parents top)) eqn:X; [exists [], m, l; auto|]. destruct (IH H) as (a & x & b & -> & Hx). exists (m :: a), x, b. auto. }
  induction ms as [|m ms IH]; intros H; [cbn in H; lia|]. destruct (is_extractable (m_name m) NXDL_file_endings (allowed_parents top)) eqn:X.
  - destruct (O ms) as (a & x & b & -> & Hx); [unfold count_of in *; cbn [filter] in H; rewrite X in H; cbn [List.length] in H; lia|]. exists [], m, a, x, b. auto.
  - destruct IH as (a & x & b & y & c & -> & Hx & Hy); [unfold count_of in *; cbn [filter] in H; rewrite X in H; exact H|]. exists (m :: a), x, b, y, c. auto.
Qed.
Lemma extract_all_count : forall z top ms count e l e1 n, extract_all z top count ms e = (l, e1, Ok n) -> n = count + count_of top ms.
Proof.
  intros z top. induction ms as [|m ms IH]; intros count e l e1 n H; unfold count_of in *; cbn [extract_all filter] in *.
  - injection H as _ _ <-. cbn. lia.
  - destruct (is_extractable (m_name m) NXDL_file_endings (allowed_parents top)); [|eapply IH; eauto]. unfold wbind in H. destruct (wextract _ _ e) as [[l1 e2] [x|x]]; [|discriminate].
    specialize (IH (S count) e2). destruct (extract_all z top (S count) ms e2) as [[l2 e3] r]. injection H as _ -> ->. rewrite (IH _ _ _ eq_refl). cbn [List.length]. lia.
Qed.
