(** * Addresses are unique in files whose link names have no '@' *)

From Coq Require Import List NArith ZArith Bool String Lia Permutation.
From Verif Require Import PyBase PyFacts Regex Utf8 H5 Findings Nxdl Core Catalog Validate Trace CatalogFacts Spec_Run Spec_Catalog PathFacts CatalogRun.
Import ListNotations.

Lemma NoDup_app_disjoint : forall A (l1 l2 : list A), NoDup l1 -> NoDup l2 -> (forall x, In x l1 -> In x l2 -> False) -> NoDup (l1 ++ l2).
Proof.
  induction l1 as [|x l1 IH]; simpl; intros l2 H1 H2 H; auto. inversion H1; subst. constructor.
  - intros X. apply in_app_or in X as [X|X]; auto. eapply H; eauto.
  - apply IH; auto. intros y Hy1 Hy2. eapply H; eauto.
Qed.

Lemma NoDup_map_on : forall A B (g : A -> B) l, NoDup l -> (forall a b, In a l -> In b l -> g a = g b -> a = b) -> NoDup (map g l).
Proof.
  induction l as [|x l IH]; simpl; intros H1 H; constructor; inversion H1; subst.
  - intros X. apply in_map_iff in X as [y [E Hy]]. apply H in E; auto. subst. auto.
  - apply IH; auto.
Qed.

Definition nice (n : pystr) : Prop := link_name n /\ ~ In 64%N n.

Definition addr_of (t : list pystr * option pystr) : pystr :=
  path_text (fst t) ++ match snd t with None => [] | Some k => 64%N :: k end.

Lemma path_text_no_at : forall p, Forall nice p -> ~ In 64%N (path_text p).
Proof.
  intros p H X. destruct p as [|n p]; [simpl in X; intuition discriminate|].
  unfold path_text in X. remember (n :: p) as q. clear Heqq n p.
  induction q as [|n q IH]; simpl in X; auto. inversion H; subst. destruct X as [X|X]; [discriminate|].
  apply in_app_or in X as [X|X]; [|auto]. destruct H2 as [_ Y]. auto.
Qed.

Lemma cut_inj : forall (a b x y : pystr), ~ In 64%N a -> ~ In 64%N b ->
  (x = [] \/ exists t, x = 64%N :: t) -> (y = [] \/ exists t, y = 64%N :: t) -> a ++ x = b ++ y -> a = b /\ x = y.
Proof.
  induction a as [|c a IH]; intros b x y Ha Hb Hx Hy H; destruct b as [|d b]; simpl in H.
  - auto.
  - exfalso. destruct Hx as [->|[t ->]]; [discriminate|]. inversion H; subst. apply Hb. simpl. auto.
  - exfalso. destruct Hy as [->|[t ->]]; [discriminate|]. inversion H; subst. apply Ha. simpl. auto.
  - inversion H; subst. destruct (IH b x y) as [-> ->]; auto; intros Z; [apply Ha | apply Hb]; simpl; auto.
Qed.

Lemma nice_link : forall p, Forall nice p -> Forall link_name p.
Proof. intros p H. eapply Forall_impl; [|exact H]. intros a []. auto. Qed.

Lemma addr_inj : forall t1 t2, Forall nice (fst t1) -> Forall nice (fst t2) -> addr_of t1 = addr_of t2 -> t1 = t2.
Proof.
  intros [p1 o1] [p2 o2] H1 H2 H. simpl in *. unfold addr_of in H. simpl in H.
  apply cut_inj in H as [A B].
  - apply path_text_inj in A; [|apply nice_link; auto|apply nice_link; auto]. subst. destruct o1, o2; congruence.
  - apply path_text_no_at; auto.
  - apply path_text_no_at; auto.
  - destruct o1; eauto.
  - destruct o2; eauto.
Qed.

Definition oaddrs (items : list vitem) : list pystr :=
  flat_map (fun it => match it_addr it with Some a => [a] | None => [] end) items.

Lemma oaddrs_app : forall a b, oaddrs (a ++ b) = oaddrs a ++ oaddrs b.
Proof. intros. apply flat_map_app. Qed.

Lemma oaddrs_unique : forall items, NoDup (oaddrs items) -> forall i j it jt a, nth_error items i = Some it -> nth_error items j = Some jt ->
  it_addr it = Some a -> it_addr jt = Some a -> i = j.
Proof.
  assert (IN : forall items j jt a, nth_error items j = Some jt -> it_addr jt = Some a -> In a (oaddrs items)).
  { intros. unfold oaddrs. apply in_flat_map. exists jt. split; [eapply nth_error_In; eauto|]. rewrite H0. simpl. auto. }
  induction items as [|x items IH]; intros H i j it jt a Hi Hj Ai Aj; [destruct i; discriminate|].
  unfold oaddrs in H. simpl in H. fold (oaddrs items) in H.
  destruct i, j; simpl in *; auto.
  - inversion Hi; subst. rewrite Ai in H. simpl in H. inversion H; subst. exfalso. eauto.
  - inversion Hj; subst. rewrite Aj in H. simpl in H. inversion H; subst. exfalso. eauto.
  - f_equal. eapply IH; eauto. revert H. generalize (oaddrs items). destruct (it_addr x); simpl; intros l H; auto. inversion H; auto.
Qed.

(** the items added between two states have the addresses of [tags] *)
Definition adds (s s' : vstate) (tags : list (list pystr * option pystr)) : Prop :=
  exists x, st_items s' = st_items s ++ x /\ oaddrs x = map addr_of tags.

Lemma adds_nil : forall s, adds s s [].
Proof. intros. exists []. rewrite app_nil_r. auto. Qed.
Lemma adds_app : forall s s1 s2 t1 t2, adds s s1 t1 -> adds s1 s2 t2 -> adds s s2 (t1 ++ t2).
Proof.
  intros s s1 s2 t1 t2 [x [Hx Tx]] [y [Hy Ty]]. exists (x ++ y). split.
  - rewrite Hy, Hx, app_assoc. auto.
  - rewrite oaddrs_app, map_app. congruence.
Qed.

Lemma adds_register : forall it s s' r, register it s = (s', r) -> 
  forall tags, match it_addr it with Some a => [a] | None => [] end = map addr_of tags -> adds s s' tags.
Proof.
  intros it s s' r H tags E. rewrite register_state in H. inversion H; subst. exists [it]. simpl. split; auto.
  unfold oaddrs. simpl. rewrite app_nil_r. auto.
Qed.

Lemma attrs_adds : forall i it p l s s' r, (it_cp it = NON_NEXUS \/ it_addr it = Some (path_text p)) ->
  for_each (fun ka => let* _i := register (attr_item i it (snd ka) (Some (fst ka))) in ret tt) l s = (s', r) ->
  NoDup (map fst l) ->
  exists tags, adds s s' tags /\ NoDup tags /\ Forall (fun t => fst t = p /\ exists k, snd t = Some k /\ In k (map fst l)) tags.
Proof.
  induction l as [|[k v] l IH]; intros s s' r Hp H Hnd.
  - inversion H; subst. exists []. split; [apply adds_nil|]. split; constructor.
  - cbn [for_each fst snd] in H. unfold bind at 1 in H. unfold bind at 1 in H.
    destruct (register (attr_item i it v (Some k)) s) as [s1 [j|e]] eqn:E.
    2: { rewrite register_state in E. inversion E. }
    cbn [ret] in H. simpl in Hnd. inversion Hnd; subst.
    destruct (IH _ _ _ Hp H H3) as [tags [A1 [A2 A3]]].
    assert (A4 : Forall (fun t : list pystr * option pystr => fst t = p /\ (exists k0 : pystr, snd t = Some k0 /\ (k = k0 \/ In k0 (map fst l)))) tags).
    { eapply Forall_impl; [|exact A3]. intros t [B1 [k0 [B2 B3]]]. split; auto. exists k0. auto. }
    destruct (str_eqb (it_cp it) NON_NEXUS) eqn:En.
    + exists tags. split; auto. change tags with ([] ++ tags). eapply adds_app; eauto.
      eapply adds_register; [exact E|]. unfold attr_item. rewrite En. reflexivity.
    + destruct Hp as [Hp|Hp]; [apply str_eqb_neq in En; contradiction|].
      exists ((p, Some k) :: tags). split; [|split].
      * change ((p, Some k) :: tags) with ([(p, Some k)] ++ tags). eapply adds_app; eauto.
        eapply adds_register; [exact E|]. unfold attr_item. rewrite En, Hp. reflexivity.
      * constructor; auto. intros X. rewrite Forall_forall in A3. destruct (A3 _ X) as [_ [k0 [B1 B2]]]. simpl in B1. inversion B1; subst. auto.
      * constructor; auto. simpl. split; auto. exists k. auto.
Qed.

Section Unique.
  Variable u : setup.
  Variable w : world.
  Variable fname : pystr.
  Variable f : h5file.
  Hypothesis Hfile : dget fname w = Some (FHdf5 f).
  Hypothesis Hplain : plain_file f.
  Hypothesis Hdist : distinct_names f.
  Let c := mk_ctx u w fname.

  Lemma subject_adds : forall parent h p s s' r, h_file h = fname -> h_name h = path_text p ->
    get_subject c parent h s = (s', r) ->
    exists tags, adds s s' tags /\ NoDup tags /\ Forall (fun t => fst t = p) tags.
  Proof.
    intros parent h p s s' r Hf Hn H. unfold get_subject in H.
    set (m := match parent with None => _ | Some _ => _ end) in H.
    assert (Hm : forall s, fst (m s) = s).
    { intros z. unfold m. destruct parent; auto. unfold bind, item. destruct (nth_error (st_items z) n); auto. }
    unfold bind at 1 in H. specialize (Hm s). destruct (m s) as [s0 [op|e]]; simpl in Hm; subst s0.
    2: { inversion H; subst. exists []. split; [apply adds_nil|]. split; constructor. }
    unfold bind at 1 in H. unfold lift at 1 in H.
    destruct (node_item (c_env c) (c_world c) op h) as [it|e] eqn:Eit.
    2: { inversion H; subst. exists []. split; [apply adds_nil|]. split; constructor. }
    pose proof (node_item_spec _ _ _ _ _ Eit) as [N1 [N2 [N3 [N4 N5]]]].
    unfold bind at 1 in H. destruct (register it s) as [s1 [i|e]] eqn:E.
    2: { rewrite register_state in E. inversion E. }
    unfold bind at 1 in H.
    destruct (for_each _ (sorted_items (attrs_of (c_world c) h)) s1) as [s2 r2] eqn:E2.
    destruct (attrs_adds i it p _ _ _ _ (or_intror (eq_trans N2 (f_equal Some Hn))) E2) as [tags [A1 [A2 A3]]].
    { assert (X : NoDup (map fst (attrs_of (c_world c) h))).
      { change (c_world c) with w. rewrite (attrs_attributes w fname f Hfile _ Hf). apply Hdist. }
      eapply Permutation_NoDup; [|exact X]. apply Permutation_map. apply Permutation_sym. apply sorted_by_perm. }
    assert (Es : s' = s2) by (destruct r2; inversion H; auto). subst s2.
    exists ((p, None) :: tags). split; [|split].
    - change ((p, None) :: tags) with ([(p, None)] ++ tags). eapply adds_app; eauto.
      eapply adds_register; [exact E|]. rewrite N2, Hn. unfold addr_of. simpl. rewrite app_nil_r. reflexivity.
    - constructor; auto. intros X. rewrite Forall_forall in A3. destruct (A3 _ X) as [_ [k0 [B1 B2]]]. discriminate.
    - constructor; auto. eapply Forall_impl; [|exact A3]. simpl. tauto.
  Qed.

  Lemma catalog_adds : forall n parent g p s s' r, h_file g = fname -> h_name g = path_text p -> Forall link_name p ->
    group_address_catalog n c parent g s = (s', r) ->
    exists tags, adds s s' tags /\ NoDup tags /\ Forall (fun t => exists q, fst t = p ++ q /\ Forall (fun x => exists o l, In (x, l) (members f o)) q) tags.
  Proof.
    induction n as [|n IH]; intros parent g p s s' r Hf Hn Hp H.
    { inversion H; subst. exists []. split; [apply adds_nil|]. split; constructor. }
    rewrite catalog_unfold in H. unfold bind at 1 in H.
    destruct (get_subject c parent g s) as [s1 r1] eqn:E1.
    destruct (subject_adds _ _ _ _ _ _ Hf Hn E1) as [t1 [A1 [A2 A3]]].
    assert (A4 : Forall (fun t : list pystr * option pystr => exists q, fst t = p ++ q /\ Forall (fun x => exists o l, In (x, l) (members f o)) q) t1).
    { eapply Forall_impl; [|exact A3]. simpl. intros t E. exists []. rewrite app_nil_r. split; auto. }
    destruct r1 as [i|e]; [|injection H as <- _; exists t1; auto].
    unfold bind at 1 in H. unfold item at 1 in H. destruct (nth_error (st_items s1) i) as [it|]; [|injection H as <- _; exists t1; auto].
    unfold bind at 1 in H.
    assert (Hl : forall z, fst (last_of_classpath (it_cp it) z) = z).
    { intros z. unfold last_of_classpath. destruct (dget (it_cp it) (st_cp z)); auto. destruct (rev l); auto. }
    specialize (Hl s1). destruct (last_of_classpath (it_cp it) s1) as [s2 [q|e]]; simpl in Hl; subst s2; [|injection H as <- _; exists t1; auto].
    assert (L : forall l s s' r, NoDup l -> (forall x, In x l -> exists k, In (x, k) (members f (h_oid g))) ->
       for_each (step_member n c g q) l s = (s', r) ->
       exists tags, adds s s' tags /\ NoDup tags /\ Forall (fun t => exists x y, fst t = p ++ x :: y /\ In x l /\ Forall (fun x => exists o l, In (x, l) (members f o)) (x :: y)) tags).
    { clear s s1 s' r H E1 A1 A2 A3 A4 t1.
      induction l as [|x l IHl]; intros s s' r Hnd Hm H.
      { inversion H; subst. exists []. split; [apply adds_nil|]. split; constructor. }
      assert (H2 : ~ In x l) by (inversion Hnd; auto). assert (H3 : NoDup l) by (inversion Hnd; auto). cbn [for_each] in H. unfold bind at 1 in H.
      destruct (step_member n c g q x s) as [s1 r1] eqn:E.
      destruct (Hm x (or_introl eq_refl)) as [k Hk]. destruct (Hplain _ _ _ Hk) as [Hx _].
      assert (S : exists tags, adds s s1 tags /\ NoDup tags /\ Forall (fun t => exists y, fst t = p ++ x :: y /\ Forall (fun x => exists o l, In (x, l) (members f o)) y) tags).
      { unfold step_member in E. unfold bind at 1 in E. unfold lift in E.
        destruct (getitem (c_world c) g x) as [h1|e] eqn:Eg.
        2: { injection E as <- _. exists []. split; [apply adds_nil|]. split; constructor. }
        destruct (getitem_member w fname f Hfile Hplain _ _ _ Hf Hx Eg) as [G1 [G2 [G3 G4]]].
        assert (Ht : h_name h1 = path_text (p ++ [x])). { rewrite G3, Hn. apply path_text_snoc; auto. }
        destruct (isHdf5Group (c_world c) h1).
        - destruct (IH _ _ (p ++ [x]) _ _ _ G1 Ht (proj2 (Forall_app _ _ _) (conj Hp (Forall_cons _ Hx (Forall_nil _)))) E) as [tags [B1 [B2 B3]]].
          exists tags. split; auto. split; auto. eapply Forall_impl; [|exact B3]. intros t [y [C1 C2]]. exists y. split; auto. rewrite C1, <- app_assoc. reflexivity.
        - unfold bind at 1 in E. destruct (get_subject c (Some q) h1 s) as [s3 r3] eqn:E3.
          destruct (subject_adds _ _ _ _ _ _ G1 Ht E3) as [tags [B1 [B2 B3]]].
          assert (s3 = s1) by (destruct r3; inversion E; auto). subst s3.
          exists tags. split; auto. split; auto. eapply Forall_impl; [|exact B3]. simpl. intros t C. exists []. auto. }
      destruct S as [ta [S1 [S2 S3]]].
      assert (S4 : Forall (fun t => exists x0 y, fst t = p ++ x0 :: y /\ In x0 (x :: l) /\ Forall (fun x => exists o l, In (x, l) (members f o)) (x0 :: y)) ta).
      { eapply Forall_impl; [|exact S3]. intros t [y [C1 C2]]. exists x, y. split; auto. split; [simpl; auto|]. constructor; eauto. }
      destruct r1 as [[]|e]; [|injection H as <- _; exists ta; auto].
      destruct (IHl _ _ _ H3 (fun z Hz => Hm z (or_intror Hz)) H) as [tb [T1 [T2 T3]]].
      exists (ta ++ tb). split; [eapply adds_app; eauto|]. split.
      - apply NoDup_app_disjoint; auto. intros t Ha Hb. rewrite Forall_forall in S3, T3.
        destruct (S3 _ Ha) as [y [C1 _]]. destruct (T3 _ Hb) as [x' [y' [D1 [D2 _]]]]. rewrite C1 in D1. apply app_inv_head in D1. injection D1 as <- _. auto.
      - apply Forall_app. split; auto. eapply Forall_impl; [|exact T3]. intros t [x0 [y [C1 [C2 C3]]]]. exists x0, y. split; auto. split; simpl; auto. }
    assert (N1 : NoDup (dkeys (links_of (c_world c) g))).
    { change (c_world c) with w. rewrite (links_members w fname f Hfile _ Hf). apply Hdist. }
    assert (N2 : forall x, In x (dkeys (links_of (c_world c) g)) -> exists k, In (x, k) (members f (h_oid g))).
    { intros x Hx. change (c_world c) with w in Hx. rewrite (links_members w fname f Hfile _ Hf) in Hx. unfold dkeys in Hx. apply in_map_iff in Hx as [[x' k] [<- Hx]]. eauto. }
    destruct (L _ _ _ _ N1 N2 H) as [t2 [B1 [B2 B3]]].
    exists (t1 ++ t2). split; [eapply adds_app; eauto|]. split.
    - apply NoDup_app_disjoint; auto. intros t Ha Hb. rewrite Forall_forall in A3, B3. specialize (A3 _ Ha). simpl in A3.
      destruct (B3 _ Hb) as [x [y [C1 _]]]. rewrite A3 in C1. apply (f_equal (@List.length _)) in C1. rewrite app_length in C1. simpl in C1. lia.
    - apply Forall_app. split; auto. eapply Forall_impl; [|exact B3]. intros t [x [y [C1 [C2 C3]]]]. eauto.
  Qed.

  Hypothesis Hat : no_at_names f.

  Lemma catalog_unique : forall cl s r, build_address_catalog c (fresh_state cl) = (s, r) -> NoDup (oaddrs (st_items s)).
  Proof.
    intros cl s r H. unfold build_address_catalog in H.
    destruct (catalog_adds _ _ (c_root c) [] _ _ _ eq_refl eq_refl (Forall_nil _) H) as [tags [[x [A1 A2]] [A3 A4]]].
    simpl in A1. subst x. rewrite A2. apply NoDup_map_on; auto.
    intros t1 t2 H1 H2 E. rewrite Forall_forall in A4.
    assert (X : forall t, In t tags -> Forall nice (fst t)).
    { intros t Ht. destruct (A4 _ Ht) as [q [E1 E2]]. rewrite E1. simpl. eapply Forall_impl; [|exact E2].
      intros a [o [l Hl]]. split; [apply Hplain in Hl; tauto | eapply Hat; eauto]. }
    apply addr_inj; auto.
  Qed.
End Unique.
