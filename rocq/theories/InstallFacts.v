(** * Facts about installing *)

From Coq Require Import List NArith ZArith Bool String Lia.
From Verif Require Import PyBase PyFacts Cache Spec_FileSets CacheSetFacts Install Spec_Install.
Import ListNotations.
Open Scope string_scope.
Open Scope list_scope.

(** ** Paths *)
Lemma path_dec : forall a b : list pystr, {a = b} + {a <> b}.
Proof. exact (list_eq_dec (list_eq_dec N.eq_dec)). Qed.
Ltac dpath := match goal with |- context[path_dec ?a ?b] => destruct (path_dec a b) end.

Definition tsub (p : list pystr) (t : tree) : option tree :=
  match p, t with
  | [], _ => Some t
  | _, TDir e => tget p e
  | _, TFile _ => None
  end.

Lemma tget_cons : forall n p e, tget (n :: p) e = match dget n e with Some t => tsub p t | None => None end.
Proof. intros. cbn [tget]. destruct (dget n e) as [[c|e']|]; destruct p; reflexivity. Qed.

Lemma tput_cons : forall n p t e, p <> [] -> tput (n :: p) t e =
  match dget n e with Some (TDir e') => match tput p t e' with Some e'' => Some (dset n (TDir e'') e) | None => None end | _ => None end.
Proof. intros. destruct p; [congruence | reflexivity]. Qed.

Lemma dget_dset : forall {V} k k' (v : V) d, dget k' (dset k v d) = if str_eqb k' k then Some v else dget k' d.
Proof.
  intros. destruct (str_eqb_spec k' k) as [-> | N]; [apply dget_dset_same | apply dget_dset_other; congruence].
Qed.

Definition is_dir (o : option tree) : bool := match o with Some (TDir _) => true | _ => false end.

Lemma tput_head : forall n p t e e', tput (n :: p) t e = Some e' -> forall m, m <> n -> dget m e' = dget m e.
Proof.
  intros n p t e e' H m Hm. destruct p as [|n2 p].
  - simpl in H. inversion H; subst. rewrite dget_dset. destruct (str_eqb_spec m n); congruence.
  - rewrite tput_cons in H by discriminate. destruct (dget n e) as [[c|e1]|]; try discriminate.
    destruct (tput (n2 :: p) t e1); inversion H; subst. rewrite dget_dset. destruct (str_eqb_spec m n); congruence.
Qed.

(** writing a file changes this file only *)
Lemma tput_file : forall p c e e', tput p (TFile c) e = Some e' -> is_dir (tget p e) = false ->
  forall q, file_at q e' = if path_dec q p then Some c else file_at q e.
Proof.
  unfold file_at. induction p as [|n p IH]; intros c e e' H D q; [discriminate|].
  destruct p as [|n2 p].
  - simpl in H. inversion H; subst. destruct q as [|m q].
    + simpl. dpath; [discriminate | reflexivity].
    + rewrite !tget_cons, dget_dset. destruct (str_eqb_spec m n) as [-> | N].
      * destruct q as [|m2 q].
        -- simpl. dpath; [reflexivity | congruence].
        -- simpl tsub at 1. dpath; [congruence|]. rewrite tget_cons in D. simpl in D.
           destruct (dget n e) as [[c0|e0]|]; [reflexivity | discriminate | reflexivity].
      * dpath; [congruence | reflexivity].
  - rewrite tput_cons in H by discriminate. destruct (dget n e) as [[c0|e1]|] eqn:G; try discriminate.
    destruct (tput (n2 :: p) (TFile c) e1) as [e2|] eqn:P; inversion H; subst.
    rewrite tget_cons, G in D. specialize (IH _ _ _ P D).
    destruct q as [|m q]; [simpl; dpath; [discriminate | reflexivity]|].
    rewrite !tget_cons, dget_dset. destruct (str_eqb_spec m n) as [-> | N].
    + rewrite G. destruct q as [|m2 q]; [simpl; dpath; [discriminate | reflexivity]|].
      specialize (IH (m2 :: q)). cbn [tsub]. rewrite IH.
      destruct (path_dec (m2 :: q) (n2 :: p)) as [E | E]; destruct (path_dec (n :: m2 :: q) (n :: n2 :: p)); congruence.
    + dpath; [congruence | reflexivity].
Qed.

(** making a missing directory changes no file *)
Lemma tput_dir : forall p e e', tput p (TDir []) e = Some e' -> tget p e = None -> forall q, file_at q e' = file_at q e.
Proof.
  unfold file_at. induction p as [|n p IH]; intros e e' H D q; [discriminate|].
  destruct p as [|n2 p].
  - simpl in H. inversion H; subst. destruct q as [|m q]; [reflexivity|].
    rewrite !tget_cons, dget_dset. destruct (str_eqb_spec m n) as [-> | N]; [|reflexivity].
    rewrite tget_cons in D. destruct (dget n e) as [t|]; [simpl in D; discriminate|].
    destruct q; reflexivity.
  - rewrite tput_cons in H by discriminate. destruct (dget n e) as [[c0|e1]|] eqn:G; try discriminate.
    destruct (tput (n2 :: p) (TDir []) e1) as [e2|] eqn:P; inversion H; subst.
    rewrite tget_cons, G in D. specialize (IH _ _ P D).
    destruct q as [|m q]; [reflexivity|]. rewrite !tget_cons, dget_dset. destruct (str_eqb_spec m n) as [-> | N]; [|reflexivity].
    rewrite G. destruct q as [|m2 q]; [reflexivity|]. apply (IH (m2 :: q)).
Qed.

(** ** The info files of a cache directory *)
Definition infos (e : entries) : list (pystr * tree) :=
  flat_map (fun nt => match snd nt with
                      | TDir sub => match dget INFO_FILE_NAME sub with Some i => [(fst nt, i)] | None => [] end
                      | TFile _ => []
                      end) e.

Fixpoint sets_of (rj : json_reader) (cpath : pystr) (acc : dict fileset) (l : list (pystr * tree)) : res (dict fileset) :=
  match l with
  | [] => Ok acc
  | (n, TDir _) :: _ => Exn OSError
  | (n, TFile text) :: rest =>
      match rj text with
      | Exn e => Exn e
      | Ok i => sets_of rj cpath (dset n (mkFS (cpath ++ [ch_slash] ++ n) (cache_label (cpath ++ [ch_slash] ++ n)) i) acc) rest
      end
  end.

Lemma cache_sets_infos : forall rj cpath l acc, cache_sets rj cpath acc l = sets_of rj cpath acc (infos l).
Proof.
  induction l as [|[n [c|sub]] l IH]; intros acc; cbn [cache_sets]; [reflexivity | apply IH|].
  unfold read_info. unfold infos. cbn [flat_map fst snd]. destruct (dget INFO_FILE_NAME sub) as [[text|es]|]; cbn [rbind app].
  - cbn [sets_of]. destruct (rj text); cbn [rbind]; [apply IH | reflexivity].
  - reflexivity.
  - apply IH.
Qed.

Lemma infos_dset_dir : forall n sub sub' e, dget n e = Some (TDir sub) -> dget INFO_FILE_NAME sub' = dget INFO_FILE_NAME sub ->
  infos (dset n (TDir sub') e) = infos e.
Proof.
  intros n sub sub' e. induction e as [|[k t] e IH]; intros G E; [discriminate|].
  rewrite dget_cons in G. unfold dset. cbn [aset]. destruct (str_eqb n k).
  - inversion G; subst. unfold infos. cbn [flat_map fst snd]. rewrite E. reflexivity.
  - unfold infos in *. cbn [flat_map]. f_equal. apply IH; auto.
Qed.

Lemma infos_dset_new : forall n e, dget n e = None -> infos (dset n (TDir []) e) = infos e.
Proof.
  intros n e G. rewrite dset_fresh.
  - unfold infos. rewrite flat_map_app. simpl. apply app_nil_r.
  - destruct (dmem n e) eqn:M; auto. apply dmem_In in M. apply dget_None in G. contradiction.
Qed.

Lemma tput_info : forall p t sub sub', tput p t sub = Some sub' -> hd [] p <> INFO_FILE_NAME -> dget INFO_FILE_NAME sub' = dget INFO_FILE_NAME sub.
Proof.
  intros [|n p] t sub sub' H N; [discriminate|]. eapply tput_head; eauto. 
Qed.

Lemma tput_infos : forall n p t e e', tput (n :: p) t e = Some e' -> p <> [] -> hd [] p <> INFO_FILE_NAME -> infos e' = infos e.
Proof.
  intros n p t e e' H Hp N. rewrite tput_cons in H by auto. destruct (dget n e) as [[c|sub]|] eqn:G; try discriminate.
  destruct (tput p t sub) as [sub'|] eqn:P; inversion H; subst. eapply infos_dset_dir; eauto. eapply tput_info; eauto.
Qed.

(** ** Runs *)
(** all states of a run, and its end, are related to the start *)
Definition keeps {A} (R : entries -> entries -> Prop) (m : W A) : Prop :=
  forall e, let '(l, e2, r) := m e in Forall (R e) l /\ R e e2.

Lemma keeps_ret : forall {A} (R : entries -> entries -> Prop) (a : A), (forall e, R e e) -> keeps R (wret a).
Proof. intros A R a HR e. simpl. auto. Qed.
Lemma keeps_raise : forall {A} (R : entries -> entries -> Prop) x, (forall e, R e e) -> keeps (A := A) R (wraise x).
Proof. intros A R a HR e. simpl. auto. Qed.
Lemma keeps_lift : forall {A} (R : entries -> entries -> Prop) (x : res A), (forall e, R e e) -> keeps R (wlift x).
Proof. intros A R a HR e. simpl. auto. Qed.
Lemma keeps_get : forall (R : entries -> entries -> Prop), (forall e, R e e) -> keeps R wget.
Proof. intros R HR e. simpl. auto. Qed.
Lemma keeps_bind : forall {A B} (R : entries -> entries -> Prop) (m : W A) (f : A -> W B),
  (forall a b c, R a b -> R b c -> R a c) -> keeps R m -> (forall a, keeps R (f a)) -> keeps R (wbind m f).
Proof.
  intros A B R m f HT Hm Hf e. unfold wbind. specialize (Hm e). destruct (m e) as [[l e1] r]. destruct Hm as [H1 H2].
  destruct r as [a|x]; [|auto]. specialize (Hf a e1). destruct (f a e1) as [[l2 e2] r2]. destruct Hf as [H3 H4].
  split; [|eapply HT; eauto]. apply Forall_app. split; auto. eapply Forall_impl; [|exact H3]. intros s Hs. eapply HT; eauto.
Qed.

(** ** Growth of the download directory *)
Section Growth.
  Variable top : pystr.
  (** possible writes: to a path, with these data *)
  Variable P : list pystr -> pystr -> Prop.

  Record grown (e s : entries) : Prop := mkG {
    gr_frame : forall n, n <> top -> dget n s = dget n e;
    gr_new : forall p c, file_at p s = Some c -> file_at p e = Some c \/ exists data, P p data /\ beginning c data;
    gr_old : forall p c, file_at p e = Some c -> file_at p s = Some c \/ exists data, P p data
  }.

  Lemma grown_refl : forall e, grown e e.
  Proof. intros. constructor; auto. Qed.

  Lemma grown_trans : forall a b c, grown a b -> grown b c -> grown a c.
  Proof.
    intros a b c [F1 N1 O1] [F2 N2 O2]. constructor.
    - intros n Hn. rewrite F2, F1; auto.
    - intros p x H. apply N2 in H as [H | H]; auto.
    - intros p x H. apply O1 in H as [H | H]; auto.
  Qed.

  Lemma grown_mkdir : forall rest e e', tput (top :: rest) (TDir []) e = Some e' -> tget (top :: rest) e = None -> grown e e'.
  Proof.
    intros rest e e' H N. constructor.
    - eapply tput_head; eauto.
    - intros p c. rewrite (tput_dir _ _ _ H N p). auto.
    - intros p c. rewrite (tput_dir _ _ _ H N p). auto.
  Qed.

  Lemma grown_write : forall rest data c e e', tput (top :: rest) (TFile c) e = Some e' -> is_dir (tget (top :: rest) e) = false ->
    P (top :: rest) data -> beginning c data -> grown e e'.
  Proof.
    intros rest data c e e' H N HP HB. constructor.
    - eapply tput_head; eauto.
    - intros p x. rewrite (tput_file _ _ _ _ H N p). dpath; [|auto].
      intros E. inversion E; subst. right. eauto.
    - intros p x. rewrite (tput_file _ _ _ _ H N p). dpath; [subst; eauto | auto].
  Qed.
End Growth.

(** ** Which members are extracted *)
Lemma last_occ : forall (c : N) s, In c s -> exists a b, s = a ++ c :: b /\ ~ In c b.
Proof.
  intros c s. induction s as [|x s IH]; intros H; [destruct H|].
  destruct (in_dec N.eq_dec c s) as [I | I].
  - destruct (IH I) as (a & b & -> & N). exists (x :: a), b. auto.
  - destruct H as [-> | H]; [|contradiction]. exists [], s. auto.
Qed.

Lemma suffix_spec : forall name ext, ext <> [] -> ~ In 46%N ext ->
  (path_suffix name = 46%N :: ext <-> exists base, base <> [] /\ name = base ++ 46%N :: ext).
Proof.
  intros name ext He Hd. unfold path_suffix, ch_dot. split.
  - destruct (in_dec N.eq_dec 46%N name) as [I | I].
    + destruct (last_occ _ _ I) as (a & b & -> & N). rewrite (last_part_app _ _ _ N).
      destruct (Nat.leb 2 _) eqn:L; [|discriminate]. destruct (negb _); [|discriminate]. intros E. injection E as ->. exists a. split; auto.
      apply PeanoNat.Nat.leb_le in L. destruct a; [exfalso; cbn [app List.length] in L; lia | discriminate].
    + unfold last_part. rewrite (split_no_sep _ _ I). simpl last. rewrite PeanoNat.Nat.sub_diag. discriminate.
  - intros (base & Hb & ->). rewrite (last_part_app _ _ _ Hd). rewrite app_length. simpl List.length.
    replace (_ + S _ - _) with (S (List.length base)) by lia. destruct base; [congruence|]. simpl Nat.leb.
    destruct (str_eqb_spec ext []); [contradiction | reflexivity].
Qed.

Lemma existsb_In : forall x l, existsb (str_eqb x) l = true <-> In x l.
Proof.
  intros. rewrite existsb_exists. split; [intros (y & H & E); apply str_eqb_eq in E; subst; auto | intros H; exists x; rewrite str_eqb_refl; auto].
Qed.

Lemma split_last : forall {A} (l : list A) d, l <> [] -> l = removelast l ++ [last l d].
Proof. intros. apply app_removelast_last. auto. Qed.

Lemma split_join : forall c l, l <> [] -> Forall (fun w => ~ In c w) l -> split c (join [c] l) = l.
Proof.
  intros c. induction l as [|w l IH]; intros N F; [congruence|]. inversion F as [|? ? F1 F2]; subst.
  destruct l as [|w' l]; [apply split_no_sep; exact F1|].
  change (join [c] (w :: w' :: l)) with (w ++ c :: join [c] (w' :: l)). rewrite split_app_sep by exact F1. rewrite IH; [reflexivity|discriminate|exact F2].
Qed.

Lemma without_filter : forall (bad : pystr -> Prop) f, (forall c, f c = true <-> ~ bad c) -> (forall c, f c = false -> bad c) ->
  forall l p, without bad l p <-> filter f l = p.
Proof.
  intros bad f T Fa. induction l as [|c l IH]; intros p.
  - split; [intros H; inversion H; reflexivity | intros <-; constructor].
  - cbn [filter]. split.
    + intros H. inversion H as [|? ? ? B W|? ? ? B W]; subst.
      * destruct (f c) eqn:X; [apply T in X; contradiction|]. apply IH. exact W.
      * apply T in B. rewrite B. f_equal. apply IH. exact W.
    + destruct (f c) eqn:X; intros <-; [apply wo_keep; [apply T; exact X|] | apply wo_drop; [apply Fa; exact X|]]; apply IH; reflexivity.
Qed.

Lemma components_filter : forall (bad : pystr -> Prop) f, (forall c, f c = true <-> ~ bad c) -> (forall c, f c = false -> bad c) ->
  forall s p, components bad s p <-> filter f (split ch_slash s) = p.
Proof.
  intros bad f T Fa s p. split.
  - intros (l & -> & N & Fo & W). change (py "/") with [ch_slash]. rewrite split_join by assumption. apply (without_filter bad f T Fa). exact W.
  - intros H. exists (split ch_slash s). split; [symmetry; apply join_split|]. split; [apply split_nonnil|].
    split; [apply Forall_forall; intros w; apply split_parts_no_sep | apply (without_filter bad f T Fa); exact H].
Qed.

Lemma parts_spec : forall s p, components no_component s p <-> path_parts s = p.
Proof.
  apply components_filter; intros c; unfold no_component; destruct (str_eqb_spec c []) as [E|N]; destruct (str_eqb_spec c (py ".")) as [E'|N']; simpl; intuition discriminate.
Qed.

Lemma safe_spec : forall s p, components unsafe_component s p <-> safe_parts s = p.
Proof.
  apply components_filter; intros c; unfold unsafe_component; destruct (str_eqb_spec c []) as [E|N]; destruct (str_eqb_spec c (py ".")) as [E'|N'];
    destruct (str_eqb_spec c (py "..")) as [E2|N2]; simpl; intuition discriminate.
Qed.

Lemma destination_spec : forall m p, destination m p <-> safe_parts (m_name m) = p.
Proof. intros. apply safe_spec. Qed.

Lemma extractable_spec : forall item top, top <> [] ->
  (is_extractable item NXDL_file_endings (allowed_parents top) = true <-> definition_file top item).
Proof.
  intros item top Ht. unfold is_extractable, definition_file. rewrite andb_true_iff, !existsb_In. unfold path_name. split.
  - intros [H1 H2]. set (l := path_parts item) in *.
    assert (l <> []) as Nl by (intros E; rewrite E in H1; vm_compute in H1; intuition discriminate).
    assert (removelast l <> []) as Nr.
    { intros E. rewrite E in H2. simpl in H2. destruct H2 as [H | [H | [H | [H | []]]]]; try discriminate H. congruence. }
    assert (exists ext, In ext [py "xsd"; py "xml"; py "xsl"] /\ path_suffix (last l []) = 46%N :: ext) as (ext & Hi & E).
    { destruct H1 as [H | [H | [H | []]]]; rewrite <- H; [exists (py "xsd") | exists (py "xml") | exists (py "xsl")]; (split; [simpl; auto | reflexivity]). }
    assert (ext <> [] /\ ~ In 46%N ext) as [E1 E2].
    { destruct Hi as [<- | [<- | [<- | []]]]; (split; [discriminate | vm_compute; intuition discriminate]). }
    apply (suffix_spec _ _ E1 E2) in E as (base & Hb & E).
    exists (removelast (removelast l)), (last (removelast l) []), base, ext. split; [apply parts_spec; fold l|auto].
    rewrite (split_last l [] Nl) at 1. rewrite (split_last (removelast l) [] Nr) at 1. rewrite E, <- app_assoc. reflexivity.
  - intros (dirs & parent & base & ext & E & Hb & Hi & Hp). apply parts_spec in E. rewrite E.
    assert (ext <> [] /\ ~ In 46%N ext) as [E1 E2].
    { destruct Hi as [<- | [<- | [<- | []]]]; (split; [discriminate | vm_compute; intuition discriminate]). }
    change (dirs ++ [parent; base ++ py "." ++ ext]) with (dirs ++ [parent] ++ [base ++ py "." ++ ext]).
    rewrite app_assoc, last_last, List.removelast_last, last_last. split; auto.
    rewrite (proj2 (suffix_spec _ _ E1 E2)) by eauto.
    destruct Hi as [<- | [<- | [<- | []]]]; vm_compute; auto.
Qed.

(** ** Extraction *)
Section Extract.
  Variable R : entries -> entries -> Prop.
  Hypothesis R_refl : forall e, R e e.
  Hypothesis R_trans : forall a b c, R a b -> R b c -> R a c.

  (** the steps that extracting data to [p] takes are in [R] *)
  Definition steps (p : list pystr) (data : pystr) : Prop :=
    (forall q x e e', p = q ++ x -> q <> [] -> tput q (TDir []) e = Some e' -> tget q e = None -> R e e')
    /\ (forall c e e', beginning c data -> tput p (TFile c) e = Some e' -> is_dir (tget p e) = false -> R e e').

  Lemma keeps_mkdir : forall p e, (forall e', tput p (TDir []) e = Some e' -> R e e') ->
    let '(l, e2, r) := wmkdir p e in Forall (R e) l /\ R e e2.
  Proof. intros p e H. unfold wmkdir. destruct (tput p (TDir []) e) as [e'|]; auto. Qed.

  Lemma keeps_makedirs : forall p data, steps p data -> forall todo done x, p = (done ++ todo) ++ x -> keeps R (wmakedirs done todo).
  Proof.
    intros p data [Hm _]. induction todo as [|n todo IH]; intros done x E; cbn [wmakedirs]; [apply keeps_ret; auto|].
    assert (p = ((done ++ [n]) ++ todo) ++ x) as E' by (rewrite E, <- !app_assoc; reflexivity).
    intros e. unfold wbind, wget at 1. destruct (tget (done ++ [n]) e) as [[c|sub]|] eqn:G.
    - simpl. auto.
    - pose proof (IH _ _ E' e) as K. destruct (wmakedirs (done ++ [n]) todo e) as [[l e2] r]. simpl. exact K.
    - unfold wmkdir. destruct (tput (done ++ [n]) (TDir []) e) as [e1|] eqn:T; [|simpl; auto].
      assert (R e e1) as S.
      { eapply (Hm (done ++ [n]) (todo ++ x)); eauto; [rewrite E', <- !app_assoc; reflexivity | intros X; apply app_eq_nil in X as [_ X]; discriminate]. }
      pose proof (IH _ _ E' e1) as K. destruct (wmakedirs (done ++ [n]) todo e1) as [[l e2] r]. destruct K as [K1 K2]. simpl.
      split; [constructor; auto | eauto]. eapply Forall_impl; [|exact K1]. intros s Hs. eauto.
  Qed.

  Lemma keeps_write : forall p data, (forall c e e', beginning c data -> tput p (TFile c) e = Some e' -> is_dir (tget p e) = false -> R e e') ->
    keeps R (wwrite p data).
  Proof.
    intros p data H e. unfold wwrite.
    assert (is_dir (tget p e) = false -> let '(l, e2, r) :=
      match tput p (TFile data) e with
      | None => ([], e, Exn OSError)
      | Some e' => (flat_map (fun k => match tput p (TFile (firstn k data)) e with Some x => [x] | None => [] end)
                    (seq 0 (List.length data)) ++ [e'], e', Ok tt)
      end in Forall (R e) l /\ R e e2) as K.
    { intros D. destruct (tput p (TFile data) e) as [e'|] eqn:T; [|auto].
      assert (R e e') as S by (apply (H data e e'); auto; exists []; rewrite app_nil_r; reflexivity).
      split; auto. apply Forall_app. split; [|auto]. apply Forall_flat_map. apply Forall_forall. intros k _.
      destruct (tput p (TFile (firstn k data)) e) as [x|] eqn:T2; constructor; auto.
      apply (H (firstn k data) e x); auto. exists (skipn k data). symmetry. apply firstn_skipn. }
    destruct (tget p e) as [[c|sub]|]; try (apply K; reflexivity). auto.
  Qed.

  Lemma keeps_extract : forall name data, steps (safe_parts name) data -> keeps R (wextract name data).
  Proof.
    intros name data S. unfold wextract. set (p := safe_parts name) in *.
    apply keeps_bind; auto.
    - eapply (keeps_makedirs p data S _ [] (match p with [] => [] | _ => [last p []] end)). simpl.
      destruct p as [|a b] eqn:E; [reflexivity|]. apply app_removelast_last. discriminate.
    - intros _. destruct (endswith name [ch_slash]).
      + destruct S as [Hm _]. intros e. unfold wbind, wget at 1. destruct (tget p e) as [[c|sub]|] eqn:G; simpl; auto.
        unfold wmkdir. destruct (tput p (TDir []) e) as [e1|] eqn:T; simpl; auto.
        assert (R e e1) as X. { apply (Hm p []) with (e := e); auto; [rewrite app_nil_r; reflexivity|]. intros X. rewrite X in T. discriminate. }
        auto.
      + apply keeps_write. apply S.
  Qed.

  Lemma keeps_extract_all : forall z top ms, (forall m, In m ms -> is_extractable (m_name m) NXDL_file_endings (allowed_parents top) = true ->
      steps (safe_parts (m_name m)) (getinfo z (m_name m))) ->
    forall count, keeps R (extract_all z top count ms).
  Proof.
    intros z top. induction ms as [|m ms IH]; intros H count; cbn [extract_all]; [apply keeps_ret; auto|].
    destruct (is_extractable _ _ _) eqn:X.
    - apply keeps_bind; auto; [apply keeps_extract; apply H; simpl; auto|]. intros _. apply IH. intros m' I. apply H. right. exact I.
    - apply IH. intros m' I. apply H. right. exact I.
  Qed.
End Extract.

(** the writes that the members may cause *)
Definition from (z : archive) (top : pystr) (ms : list member) (p : list pystr) (data : pystr) : Prop :=
  exists m, In m ms /\ definition_file top (m_name m) /\ destination m p /\ exists m', In m' (z_members z) /\ m_name m' = m_name m /\ data = m_data m'.

Lemma getinfo_In : forall z m, In m (z_members z) -> exists m', In m' (z_members z) /\ m_name m' = m_name m /\ getinfo z (m_name m) = m_data m'.
Proof.
  intros z m I. unfold getinfo. destruct (find _ _) as [m'|] eqn:F.
  - apply find_some in F as [F1 F2]. apply str_eqb_eq in F2. exists m'. rewrite <- in_rev in F1. auto.
  - apply in_rev in I. apply (find_none _ _ F m) in I. rewrite str_eqb_refl in I. discriminate.
Qed.

Lemma getinfo_last : forall z a m b, z_members z = a ++ m :: b -> (forall m', In m' b -> m_name m' <> m_name m) -> getinfo z (m_name m) = m_data m.
Proof.
  intros z a m b E H. unfold getinfo. rewrite E, rev_app_distr. simpl. rewrite <- app_assoc. simpl.
  assert (forall l x y, (forall m', In m' l -> m_name m' <> m_name m) ->
    find (fun m0 => str_eqb (m_name m0) (m_name m)) (l ++ x :: y) = find (fun m0 => str_eqb (m_name m0) (m_name m)) (x :: y)) as K.
  { induction l as [|u l IH]; intros x y HL; [reflexivity|]. simpl app. cbn [find]. destruct (str_eqb_spec (m_name u) (m_name m)) as [Y | _].
    - exfalso. apply (HL u); simpl; auto.
    - apply IH. intros m' I. apply HL. simpl. auto. }
  rewrite K; [cbn [find]; rewrite str_eqb_refl; reflexivity|]. intros m' I. apply H. apply in_rev. exact I.
Qed.

(** the cache directory during extraction *)
Section Inside.
  Variables (z : archive) (top name : pystr).
  Hypothesis PA : plain_archive z top name.

  Lemma top_ok : top_of z = Ok top.
  Proof. destruct PA as [(m & rest & E & ->) _ _ _]. unfold top_of. rewrite E. reflexivity. Qed.

  Lemma extr : forall item, is_extractable item NXDL_file_endings (allowed_parents top) = true <-> definition_file top item.
  Proof. intros. apply extractable_spec. apply (pa_plain _ _ _ PA). Qed.

  Lemma steps_grown : forall ms, incl ms (z_members z) -> forall m, In m ms -> definition_file top (m_name m) ->
    steps (grown top (from z top ms)) (safe_parts (m_name m)) (getinfo z (m_name m)).
  Proof.
    intros ms HI m Hm D. destruct (pa_inside _ _ _ PA m (HI m Hm) D) as (rest & E & NI). apply destination_spec in E. split.
    - intros q x e e' Eq Nq T G. rewrite E in Eq. destruct q as [|q0 q]; [congruence|]. simpl in Eq. injection Eq as <- _.
      eapply grown_mkdir; eauto.
    - intros c e e' B T G. rewrite E in *. destruct (getinfo_In z m (HI m Hm)) as (m' & I' & N' & Ed). eapply grown_write; eauto.
      exists m. split; [auto|]. split; [auto|]. split; [apply destination_spec; exact E|]. exists m'. auto.
  Qed.

  Lemma steps_infos : forall m, In m (z_members z) -> definition_file top (m_name m) -> forall data,
    steps (fun e s => infos s = infos e) (safe_parts (m_name m)) data.
  Proof.
    intros m Hm D data. destruct (pa_inside _ _ _ PA m Hm D) as (rest & E & NI). apply destination_spec in E. split.
    - intros q x e e' Eq Nq T G. rewrite E in Eq. destruct q as [|q0 q]; [congruence|]. simpl in Eq. injection Eq as <- Er.
      destruct q as [|q1 q].
      + simpl in T. inversion T; subst. apply infos_dset_new. rewrite tget_cons in G. destruct (dget top e); [discriminate | reflexivity].
      + eapply tput_infos; eauto; [discriminate|]. simpl. intros ->. apply NI. rewrite Er. left. reflexivity.
    - intros c e e' B T G. rewrite E in *. destruct rest as [|q1 q].
      + simpl in T. inversion T; subst. rewrite tget_cons in G. clear -G.
        induction e as [|[k t] e IH]; [reflexivity|]. rewrite dget_cons in G. unfold dset. cbn [aset]. destruct (str_eqb_spec top k) as [-> | N].
        * destruct t; [reflexivity | discriminate].
        * unfold infos in *. cbn [flat_map]. f_equal. apply IH. exact G.
      + eapply tput_infos; eauto; [discriminate|]. simpl. intros ->. apply NI. left. reflexivity.
  Qed.

  Lemma extract_grown : forall ms count, incl ms (z_members z) -> keeps (grown top (from z top ms)) (extract_all z top count ms).
  Proof.
    intros ms count HI. apply keeps_extract_all; [apply grown_refl | apply grown_trans|]. intros m Hm X. apply steps_grown; auto. apply extr. exact X.
  Qed.

  Lemma extract_infos : forall count, keeps (fun e s => infos s = infos e) (extract_all z top count (z_members z)).
  Proof.
    intros count. apply keeps_extract_all; [reflexivity | congruence|]. intros m Hm X. apply steps_infos; auto. apply extr. exact X.
  Qed.

  (** the last file to a path is there in the end *)
  Lemma write_done : forall p data e l e2, wwrite p data e = (l, e2, Ok tt) -> file_at p e2 = Some data.
  Proof.
    intros p data e l e2 H. unfold wwrite in H.
    assert (is_dir (tget p e) = false /\ tput p (TFile data) e = Some e2) as [D T].
    { destruct (tget p e) as [[c|sub]|]; try discriminate H; destruct (tput p (TFile data) e); inversion H; auto. }
    rewrite (tput_file _ _ _ _ T D p). dpath; congruence.
  Qed.

  Lemma extract_done : forall nm data e l e2, endswith nm [ch_slash] = false -> wextract nm data e = (l, e2, Ok tt) -> file_at (safe_parts nm) e2 = Some data.
  Proof.
    intros nm data e l e2 N H. unfold wextract in H. rewrite N in H. unfold wbind in H.
    destruct (wmakedirs _ _ e) as [[l1 e1] [a|x]]; [|discriminate]. destruct (wwrite _ _ e1) as [[l2 e3] [[]|x]] eqn:X; [|discriminate].
    inversion H; subst. eapply write_done; eauto.
  Qed.

  Lemma extract_complete : forall p data ms count e l e2 c, extract_all z top count ms e = (l, e2, Ok c) -> incl ms (z_members z) ->
    forall a m b, ms = a ++ m :: b -> definition_file top (m_name m) -> endswith (m_name m) [ch_slash] = false -> destination m p ->
    (forall m', In m' b -> definition_file top (m_name m') -> ~ destination m' p) -> getinfo z (m_name m) = data -> file_at p e2 = Some data.
  Proof.
    intros p data. induction ms as [|m0 ms IH]; intros count e l e2 c H HI a m b E D N P L G; [destruct a; discriminate|].
    cbn [extract_all] in H. destruct a as [|a0 a]; simpl in E; injection E as -> ->.
    - rewrite (proj2 (extr _) D) in H. unfold wbind in H. destruct (wextract _ _ e) as [[l1 e1] [[]|x]] eqn:X; [|discriminate].
      apply extract_done in X; auto. apply destination_spec in P. rewrite P, G in X.
      pose proof (extract_grown b (S count) (fun y Hy => HI y (or_intror Hy)) e1) as K.
      destruct (extract_all z top (S count) b e1) as [[l2 e3] r]. inversion H; subst. destruct K as [_ K].
      apply (gr_old _ _ _ _ K) in X as [X | (d & m' & I' & D' & P' & _)]; auto. exfalso. eapply L; eauto.
    - destruct (is_extractable (m_name a0) _ _).
      + unfold wbind in H. destruct (wextract _ _ e) as [[l1 e1] [[]|x]]; [|discriminate].
        destruct (extract_all z top (S count) (a ++ m :: b) e1) as [[l2 e3] r] eqn:Y. inversion H; subst.
        eapply IH; eauto. intros y Hy. apply HI. right. exact Hy.
      + eapply IH; eauto. intros y Hy. apply HI. right. exact Hy.
  Qed.

  Lemma extract_provides : forall p data count e l e2 c, extract_all z top count (z_members z) e = (l, e2, Ok c) ->
    provides z top p data -> file_at p e2 = Some data.
  Proof.
    intros p data count e l e2 c H (a & m & b & E & D & P & N & -> & L).
    eapply extract_complete; eauto using incl_refl.
    - destruct (endswith (m_name m) [ch_slash]) eqn:X; auto. apply endswith_spec in X as [d X]. exfalso. apply N. exists d. exact X.
    - apply (getinfo_last z a m b E). intros m' I' En. apply (L m' I'); [rewrite En; exact D|]. unfold destination in *. rewrite En. exact P.
  Qed.
End Inside.

(** ** Deleting a directory *)
Lemma left_refl : forall es, left_of es es.
Proof. induction es as [|[n t] es IH]; [constructor|]. apply lo_kept; [apply rm_same | exact IH]. Qed.

Lemma left_suffix : forall pre es' es, left_of es' es -> left_of es' (pre ++ es).
Proof. induction pre as [|[n t] pre IH]; intros; [auto|]. simpl. apply lo_gone. auto. Qed.

Fixpoint rm_go (ctx : option tree -> entries) (es : list (pystr * tree)) : list entries :=
  match es with
  | [] => [ctx None]
  | (n, t') :: rest =>
      rm_tree t' (fun o => ctx (Some (TDir (match o with Some t'' => (n, t'') :: rest | None => rest end)))) ++ rm_go ctx rest
  end.
Lemma rm_tree_dir : forall es ctx, rm_tree (TDir es) ctx = rm_go ctx es.
Proof. intros. cbn [rm_tree]. induction es as [|[n t] es IH]; [reflexivity|]. cbn [rm_go]. rewrite <- IH. reflexivity. Qed.

Fixpoint tree_size (t : tree) : nat :=
  match t with
  | TFile _ => 1
  | TDir es => S ((fix go (es : list (pystr * tree)) := match es with [] => 0 | (_, t') :: r => tree_size t' + go r end) es)
  end.

Lemma tree_ind2 : forall P : tree -> Prop, (forall c, P (TFile c)) -> (forall es, (forall n t, In (n, t) es -> P t) -> P (TDir es)) -> forall t, P t.
Proof.
  intros P Hf Hd. assert (forall k t, tree_size t < k -> P t) as K.
  { induction k as [|k IH]; intros t Hk; [lia|]. destruct t as [c|es]; [apply Hf|]. apply Hd. intros n t I. apply IH.
    simpl in Hk. assert (forall l, In (n, t) l -> tree_size t <= (fix go (es : list (pystr * tree)) := match es with [] => 0 | (_, t') :: r => tree_size t' + go r end) l) as Y.
    { clear. induction l as [|[n' t'] l IH]; intros I; [destruct I|]. destruct I as [I | I]; [inversion I; lia | specialize (IH I); lia]. }
    specialize (Y es I). lia. }
  intros t. eapply K. apply PeanoNat.Nat.lt_succ_diag_r.
Qed.

Lemma rm_tree_states : forall t ctx s, In s (rm_tree t ctx) -> s = ctx None \/ exists t', remains t' t /\ s = ctx (Some t').
Proof.
  induction t as [c | es IH] using tree_ind2; intros ctx s H.
  - simpl in H. destruct H as [<- | []]. auto.
  - rewrite rm_tree_dir in H.
    assert (forall pre l, es = pre ++ l -> In s (rm_go ctx l) -> s = ctx None \/ exists t', remains t' (TDir es) /\ s = ctx (Some t')) as K.
    { clear H. intros pre l. revert pre. induction l as [|[n t] l IHl]; intros pre E H; cbn [rm_go] in H.
      - destruct H as [<- | []]. auto.
      - apply in_app_or in H as [H | H].
        + apply (IH n) in H; [|rewrite E; apply in_or_app; right; left; reflexivity]. right. destruct H as [-> | (t' & R & ->)].
          * exists (TDir l). split; auto. apply rm_dir. rewrite E. apply left_suffix. apply lo_gone. apply left_refl.
          * exists (TDir ((n, t') :: l)). split; auto. apply rm_dir. rewrite E. apply left_suffix. apply lo_kept; [exact R | apply left_refl].
        + apply (IHl (pre ++ [(n, t)])); auto. rewrite <- app_assoc. exact E. }
    apply (K [] es); auto.
Qed.

Lemma rm_go_last : forall ctx es d, last (rm_go ctx es) d = ctx None.
Proof.
  intros ctx es d. assert (exists x, rm_go ctx es = x ++ [ctx None]) as [x ->]; [|apply last_last].
  induction es as [|[n t] es [x IH]]; [exists []; reflexivity|]. cbn [rm_go]. rewrite IH.
  exists (rm_tree t (fun o => ctx (Some (TDir match o with Some t'' => (n, t'') :: es | None => es end))) ++ x). rewrite <- app_assoc. reflexivity.
Qed.

(** ** The phases of an installation *)
Lemma dget_dremove : forall {V} k n (d : dict V), dget n (dremove k d) = if str_eqb n k then None else dget n d.
Proof.
  intros V k n d. unfold dremove. induction d as [|[x v] d IH]; [simpl; destruct (str_eqb n k); reflexivity|].
  cbn [filter fst]. destruct (str_eqb_spec x k) as [-> | N]; cbn [negb].
  - rewrite IH, dget_cons. destruct (str_eqb n k); reflexivity.
  - rewrite !dget_cons, IH. destruct (str_eqb_spec n x) as [-> | M]; [|reflexivity]. destruct (str_eqb_spec x k); [contradiction | reflexivity].
Qed.

Lemma beginning_refl : forall c, beginning c c.
Proof. intros. exists []. symmetry. apply app_nil_r. Qed.

Section Phases.
  Variables (z : archive) (top name : pystr) (e : entries).

  Definition extracted (e1 : entries) : Prop := exists l c, extract_all z top 0 (z_members z) e = (l, e1, Ok c).
  (** the info file has content [c] *)
  Definition with_info (e1 : entries) (c : pystr) (s : entries) : Prop :=
    exists sub, dget top e1 = Some (TDir sub) /\ is_dir (dget INFO_FILE_NAME sub) = false
      /\ s = dset top (TDir (dset INFO_FILE_NAME (TFile c) sub)) e1.

  Inductive phase : entries -> Prop :=
  | ph_extract : forall l e1 r s, extract_all z top 0 (z_members z) e = (l, e1, r) -> s = e \/ In s l \/ s = e1 -> phase s
  | ph_info : forall e1 text c s, extracted e1 -> z_info z name = Ok text -> beginning c text -> with_info e1 c s -> phase s
  | ph_rm : forall e1 text e2 es es' s, extracted e1 -> z_info z name = Ok text -> with_info e1 text e2 -> dget name e2 = Some (TDir es) ->
      left_of es' es -> s = dset name (TDir es') e2 -> phase s
  | ph_gone : forall e1 text e2 es s, extracted e1 -> z_info z name = Ok text -> with_info e1 text e2 -> dget name e2 = Some (TDir es) ->
      s = dremove name e2 -> phase s
  | ph_move : forall s, installed s -> phase s
  with installed : entries -> Prop :=
  | inst : forall e1 text e2 e3 t s, extracted e1 -> z_info z name = Ok text -> with_info e1 text e2 ->
      dget name e2 = None /\ e3 = e2 \/ (exists es, dget name e2 = Some (TDir es)) /\ e3 = dremove name e2 ->
      dget top e3 = Some t -> dget name e3 = None -> s = dset name t (dremove top e3) -> installed s.

  Lemma tput_info_inv : forall c e1 s, is_dir (tget [top; INFO_FILE_NAME] e1) = false -> tput [top; INFO_FILE_NAME] (TFile c) e1 = Some s -> with_info e1 c s.
  Proof.
    intros c e1 s D T. rewrite tput_cons in T by discriminate. destruct (dget top e1) as [[x|sub]|] eqn:G; try discriminate.
    cbn [tput] in T. injection T as <-. exists sub. split; auto. split; auto.
    rewrite tget_cons, G in D. cbn [tsub] in D. rewrite tget_cons in D. destruct (dget INFO_FILE_NAME sub); [exact D | reflexivity].
  Qed.

  Lemma unpack_phases : top_of z = Ok top -> let '(l, e2, r) := unpack name z e in
    (forall s, s = e \/ In s l \/ s = e2 -> phase s) /\ (r = Ok tt -> installed e2).
  Proof.
    intros HT. unfold unpack, wbind at 1, wlift at 1. rewrite HT. simpl app.
    unfold wbind at 1. destruct (extract_all z top 0 (z_members z) e) as [[l1 e1] r1] eqn:X.
    assert (forall s, s = e \/ In s l1 \/ s = e1 -> phase s) as P1 by (intros; eapply ph_extract; eauto).
    destruct r1 as [count|x]; [|split; [intros; apply P1; auto | discriminate]].
    assert (extracted e1) as Xe by (exists l1, count; exact X).
    destruct (Nat.ltb count 2). { simpl. rewrite app_nil_r. split; [auto | discriminate]. }
    unfold wbind at 1, wlift at 1. destruct (z_info z name) as [text|x] eqn:Z; [|simpl; rewrite app_nil_r; split; [auto | discriminate]].
    unfold wbind at 1. destruct (wwrite [top; INFO_FILE_NAME] text e1) as [[l2 e2] r2] eqn:WW.
    assert (Forall (fun s => phase s) l2 /\ (r2 = Ok tt -> with_info e1 text e2) /\ (r2 <> Ok tt -> e2 = e1)) as (P2 & P2' & P2'').
    { unfold wwrite in WW.
      assert (is_dir (tget [top; INFO_FILE_NAME] e1) = false -> tput [top; INFO_FILE_NAME] (TFile text) e1 = Some e2 ->
        l2 = flat_map (fun k => match tput [top; INFO_FILE_NAME] (TFile (firstn k text)) e1 with Some x => [x] | None => [] end) (seq 0 (List.length text)) ++ [e2] ->
        Forall (fun s => phase s) l2) as K.
      { intros D T ->. apply Forall_app. split; [apply Forall_flat_map, Forall_forall; intros k _|].
        - destruct (tput [top; INFO_FILE_NAME] (TFile (firstn k text)) e1) as [s|] eqn:T2; constructor; auto.
          eapply ph_info; eauto; [exists (skipn k text); symmetry; apply firstn_skipn | apply tput_info_inv; auto].
        - constructor; auto. eapply ph_info; eauto; [apply beginning_refl | apply tput_info_inv; auto]. }
      destruct (tget [top; INFO_FILE_NAME] e1) as [[c|sub]|] eqn:G.
      - destruct (tput [top; INFO_FILE_NAME] (TFile text) e1) as [e'|] eqn:T; inversion WW; subst; repeat split; auto; try congruence.
        intros _. apply tput_info_inv; auto. rewrite G. reflexivity.
      - inversion WW; subst. repeat split; auto; discriminate.
      - destruct (tput [top; INFO_FILE_NAME] (TFile text) e1) as [e'|] eqn:T; inversion WW; subst; repeat split; auto; try congruence.
        intros _. apply tput_info_inv; auto. rewrite G. reflexivity. }
    rewrite Forall_forall in P2.
    destruct r2 as [[]|x].
    2:{ rewrite (P2'' ltac:(discriminate)) in *. simpl. split; [|discriminate]. intros s [-> | [H | ->]]; auto. apply in_app_or in H as [H | H]; auto. }
    specialize (P2' eq_refl). assert (phase e2) as Pe2 by (eapply ph_info; eauto; apply beginning_refl). clear P2''.
    unfold wbind at 1, wrmtree. destruct (dget name e2) as [[c|es]|] eqn:G.
    - (* a file of that name: the move fails *)
      unfold wmove. rewrite G. destruct (dget top e2); simpl; (split; [|discriminate]);
        (intros s [-> | [H | ->]]; auto; apply in_app_or in H as [H | H]; auto; rewrite app_nil_r in H; auto).
    - set (ctx := fun o => match o with Some t => dset name t e2 | None => dremove name e2 end).
      assert (phase (dremove name e2)) as Pg by (eapply ph_gone; eauto).
      assert (forall s, In s (rm_tree (TDir es) ctx) -> phase s) as P3.
      { intros s H. apply rm_tree_states in H as [-> | (t' & R & ->)]; [exact Pg|].
        inversion R; subst; [eapply ph_rm; eauto using left_refl; reflexivity | eapply ph_rm; eauto; reflexivity]. }
      rewrite rm_tree_dir, rm_go_last in *. cbn [ctx]. unfold wmove. rewrite (dget_dremove name name), str_eqb_refl.
      destruct (dget top (dremove name e2)) as [t|] eqn:GT.
      + assert (installed (dset name t (dremove top (dremove name e2)))) as Pi.
        { eapply inst with (e3 := dremove name e2); eauto. rewrite dget_dremove, str_eqb_refl. reflexivity. }
        simpl. split; auto. intros s [-> | [H | ->]]; auto; [|apply ph_move; auto].
        rewrite !in_app_iff in H. destruct H as [H | [H | [H | [<- | []]]]]; auto. apply ph_move; auto.
      + simpl. split; [|discriminate]. intros s [-> | [H | ->]]; auto. rewrite !in_app_iff in H. destruct H as [H | [H | [H | []]]]; auto.
    - unfold wmove. rewrite G. destruct (dget top e2) as [t|] eqn:GT.
      + assert (installed (dset name t (dremove top e2))) as Pi by (eapply inst with (e3 := e2); eauto).
        simpl. split; auto. intros s [-> | [H | ->]]; auto; [|apply ph_move; auto].
        rewrite !in_app_iff in H. destruct H as [H | [H | [<- | []]]]; auto. apply ph_move; auto.
      + simpl. split; [|discriminate]. intros s [-> | [H | ->]]; auto. rewrite !in_app_iff in H. destruct H as [H | [H | []]]; auto.
  Qed.
End Phases.
