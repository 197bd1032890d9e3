(** * Version 2 of the default plot *)

From Coq Require Import List NArith ZArith Bool String Lia Permutation Arith.
From Verif Require Import PyBase PyFacts Regex Utf8 H5 Findings Nxdl Core Catalog ItemName AttributeCheck
  GroupChecks AppDef DefaultPlot Validate Trace CheckFacts CatalogFacts Spec_Run Spec_Catalog Spec_Groups RunFacts AddrRecord GroupRun GroupEnd Spec_Plot PlotFacts.
Import ListNotations.

Section V2.
  Variable c : ctx.
  Variable s0 : vstate.
  Hypothesis HI : cinv c s0.

  (** the parent of an item *)
  Definition up (i : nat) : option nat := match nth_error (st_items s0) i with Some it => it_parent it | None => None end.
  Definition obj_at (i : nat) : option hobj := option_map it_obj (nth_error (st_items s0) i).
  Definition addr0 (i : nat) : option pystr := match nth_error (st_items s0) i with Some it => it_addr it | None => None end.
  Definition on_dataset (i : nat) : bool :=
    match up i with Some p => match obj_at p with Some o => hobj_isdataset (c_world c) o | None => false end | None => false end.
  Definition is_one (i : nat) : bool := match obj_at i with Some o => str_eqb (hobj_str o) (py "1") | None => false end.
  (** the address of the group of a field with @signal=1 *)
  Definition sfa (i : nat) : option (option pystr) :=
    if on_dataset i && is_one i then match up i with Some p => match up p with Some g => Some (addr0 g) | None => None end | None => None end else None.

  Lemma parent0 : forall i p, up i = Some p -> p < i /\ exists pit, nth_error (st_items s0) p = Some pit.
  Proof.
    intros i p H. unfold up in H. destruct (nth_error (st_items s0) i) as [it|] eqn:Hi; [|discriminate].
    assert (HL : i < List.length (st_items s0)) by (apply nth_error_Some; congruence).
    assert (G : p < i).
    { destruct (ci_origin _ _ HI _ _ Hi) as [H1 H2 H3|q qit hp h name H1 H2 H3 H4 H5 H6|q qit h k v H1 H2 H3 H4 H5].
      - congruence.
      - apply node_item_spec in H6 as [_ [_ [_ [H6 _]]]]. rewrite H in H6. simpl in H6. inversion H6; subst. auto.
      - subst it. destruct (attr_item_spec q qit v (Some k)) as [_ [_ [H6 _]]]. rewrite H in H6. inversion H6; subst. auto. }
    split; auto. destruct (nth_error (st_items s0) p) eqn:E; [eauto|]. apply nth_error_None in E. lia.
  Qed.

  Lemma parent_run : forall s i it s1 pit, ext s0 s -> i < List.length (st_items s0) -> nth_error (st_items s) i = Some it -> parent_item it s = (s1, Ok pit) ->
    s1 = s /\ exists p pit0, up i = Some p /\ p < i /\ nth_error (st_items s0) p = Some pit0 /\ nth_error (st_items s) p = Some pit /\ skel pit = skel pit0.
  Proof.
    intros s i it s1 pit X HL Hi H. apply parent_ok' in H as [-> [p [H1 H2]]]. split; auto.
    destruct (nth_error (st_items s0) i) as [it0|] eqn:E0; [|apply nth_error_None in E0; lia].
    destruct (ext_item _ _ _ _ X E0) as [it' [A1 A2]]. rewrite Hi in A1. inversion A1; subst it'.
    assert (U : up i = Some p). { unfold up. rewrite E0. apply skel_eq in A2 as [A2 _]. congruence. }
    destruct (parent0 _ _ U) as [U1 [pit0 U2]]. destruct (ext_item _ _ _ _ X U2) as [pit' [B1 B2]]. rewrite H2 in B1. inversion B1; subst pit'.
    exists p, pit0. auto 10.
  Qed.

  (** ** One @signal *)
  Definition v2_kind (i : nat) (fs : list finding) : Prop :=
    if on_dataset i then exists a o, addr0 i = Some a /\ obj_at i = Some o /\
      fs = [if is_one i then mkF (Some a) signal_1_test OK (py "found field with @signal=1: " ++ a)
            else mkF (Some a) signal_not_1_test WARN (py "found field with @signal!=1: " ++ a ++ py "=" ++ hobj_str o)] else fs = [].
  Definition review_add (i : nat) (r : list (option pystr * list nat)) : list (option pystr * list nat) :=
    match sfa i with
    | Some a => aset ostr_eqb a ((match aget ostr_eqb a r with Some l => l | None => [] end) ++ [i]) r
    | None => r
    end.
  (** a field with @signal=1 that was accepted is in a group *)
  Definition grouped (i : nat) : Prop := on_dataset i && is_one i = true -> exists a, sfa i = Some a.

  Lemma item_skel : forall s i it, ext s0 s -> i < List.length (st_items s0) -> nth_error (st_items s) i = Some it ->
    obj_at i = Some (it_obj it) /\ addr0 i = it_addr it.
  Proof.
    intros s i it X HL Hi. destruct (nth_error (st_items s0) i) as [it0|] eqn:E0; [|apply nth_error_None in E0; lia].
    destruct (ext_item _ _ _ _ X E0) as [it' [A1 A2]]. rewrite Hi in A1. inversion A1; subst it'. unfold obj_at, addr0. rewrite E0. simpl.
    apply skel_eq in A2 as [_ [A2 [_ [A3 _]]]]. split; congruence.
  Qed.

  Lemma v2_item_run : forall r i s s' r', ext s0 s -> i < List.length (st_items s0) -> v2_item c r i s = (s', Ok r') ->
    (exists fs, rec_run s fs s' /\ v2_kind i fs) /\ r' = review_add i r /\ grouped i.
  Proof.
    intros r i s s' r' X HL H. unfold v2_item in H.
    apply bind_ok in H as [it [s1 [H1 H]]]. apply item_ok in H1 as [-> Hi]. destruct (item_skel _ _ _ X HL Hi) as [O1 O2].
    apply bind_ok in H as [pit [s1 [H1 H]]]. apply (parent_run _ _ _ _ _ X HL Hi) in H1 as [-> [p [pit0 [U [Up [Hp0 [Hp Sp]]]]]]].
    assert (HLp : p < List.length (st_items s0)) by lia.
    destruct (item_skel _ _ _ X HLp Hp) as [P1 _].
    assert (OD : on_dataset i = hobj_isdataset (c_world c) (it_obj pit)). { unfold on_dataset. rewrite U, P1. reflexivity. }
    assert (IO : is_one i = str_eqb (hobj_str (it_obj it)) (py "1")). { unfold is_one. rewrite O1. reflexivity. }
    rewrite <- OD in H. unfold v2_kind, grouped, review_add.
    assert (NS : on_dataset i = false \/ is_one i = false -> sfa i = None).
    { unfold sfa. intros [-> | ->]; [reflexivity|]. rewrite andb_false_r. reflexivity. }
    destruct (on_dataset i) eqn:ED.
    2: { apply ret_ok in H as [-> <-]. split; [exists []; split; [apply rec_run_nil|reflexivity]|]. rewrite NS; auto. split; auto. discriminate. }
    apply bind_ok in H as [ad [s1 [H1 H]]]. apply lift_ok in H1 as [-> H1].
    assert (A0 : addr0 i = Some ad). { rewrite O2. destruct (it_addr it); cbn [need_text] in H1; congruence. }
    assert (At : addr_at s i (Some ad)) by (exists it; split; auto; congruence). rewrite <- IO in H. destruct (is_one i) eqn:E1.
    - apply bind_ok in H as [u [s1 [H2 H]]]. destruct (record_run _ _ _ _ _ _ _ _ H2 At) as [R1 _].
      apply bind_ok in H as [gp [s2 [H3 H]]]. pose proof (ext_trans _ _ _ X (rec_run_ext _ _ _ R1)) as X1. apply ret_ok in H as [-> <-].
      destruct (ext_item _ _ _ _ (rec_run_ext _ _ _ R1) Hp) as [pit1 [Hp1 Sp1]].
      assert (EP : parent_item pit1 s1 = (s2, Ok gp)). { unfold parent_item in *. apply skel_eq in Sp1 as [-> _]. exact H3. }
      apply (parent_run _ _ _ _ _ X1 HLp Hp1) in EP as [-> [g [gp0 [Ug [_ [Hg0 [Hg Sg]]]]]]].
      assert (SF : sfa i = Some (it_addr gp)). { unfold sfa. rewrite ED, E1. simpl. rewrite U, Ug. unfold addr0. rewrite Hg0. rewrite (skel_addr _ _ Sg). reflexivity. }
      split; [eexists; split; [exact R1|]; exists ad, (it_obj it); auto|]. rewrite SF. split; eauto.
    - apply bind_ok in H as [u [s1 [H2 H]]]. destruct (record_run _ _ _ _ _ _ _ _ H2 At) as [R1 _]. apply ret_ok in H as [-> <-].
      split; [eexists; split; [exact R1|]; exists ad, (it_obj it); auto|]. rewrite NS; auto. split; auto. discriminate.
  Qed.

  Lemma v2_collect_run : forall l r s s' r', ext s0 s -> Forall (fun i => i < List.length (st_items s0)) l -> v2_collect c r l s = (s', Ok r') ->
    (exists fss, rec_run s (List.concat fss) s' /\ Forall2 v2_kind l fss) /\ r' = fold_left (fun r i => review_add i r) l r /\ Forall grouped l.
  Proof.
    induction l as [|i l IH]; intros r s s' r' X HL H; cbn [v2_collect] in H.
    - apply ret_ok in H as [-> <-]. split; [exists []; split; [apply rec_run_nil|constructor]|]. auto.
    - apply bind_ok in H as [r1 [s1 [H1 H]]]. pose proof (Forall_inv HL) as Hi. apply Forall_inv_tail in HL.
      destruct (v2_item_run _ _ _ _ _ X Hi H1) as [[fs1 [R1 K1]] [-> G1]]. destruct (IH _ _ _ _ (ext_trans _ _ _ X (rec_run_ext _ _ _ R1)) HL H) as [[fss [R2 K2]] [-> G2]].
      split; [exists (fs1 :: fss); split; [simpl; eapply rec_run_app; eauto|constructor; auto]|]. split; auto.
  Qed.

  (** ** The review *)
  Definition in_group (a : option pystr) (i : nat) : bool := match sfa i with Some b => ostr_eqb a b | None => false end.
  Definition group_of (a : option pystr) (l : list nat) : list nat := filter (in_group a) l.
  Definition alone (l : list nat) (i : nat) : bool := match sfa i with Some a => Nat.eqb (List.length (group_of a l)) 1 | None => false end.
  Definition single (x : option pystr * list nat) : list nat := match snd x with [i] => [i] | _ => [] end.

  Record reviewed (l : list nat) (r : list (option pystr * list nat)) : Prop := mkReviewed {
    rv_keys : NoDup (map fst r);
    rv_in : forall a li, In (a, li) r -> li = group_of a l /\ li <> [];
    rv_all : forall i a, In i l -> sfa i = Some a -> In a (map fst r);
    rv_singles : flat_map single r = filter (alone l) l
  }.

  Lemma in_group_iff : forall a i, in_group a i = true <-> sfa i = Some a.
  Proof. intros. unfold in_group. destruct (sfa i); [|split; discriminate]. rewrite ostr_eqb_eq. split; congruence. Qed.

  Lemma group_snoc : forall a l i, group_of a (l ++ [i]) = group_of a l ++ (if in_group a i then [i] else []).
  Proof. intros. unfold group_of. rewrite filter_app. reflexivity. Qed.

  Lemma filter_filter_ext : forall (p q r : nat -> bool) l, (forall x, In x l -> r x = p x && q x) -> filter r l = filter p (filter q l).
  Proof.
    induction l as [|x l IH]; intros H; simpl; auto. rewrite (H x (or_introl eq_refl)), IH by (intros; apply H; right; auto).
    destruct (p x) eqn:E1, (q x) eqn:E2; simpl; rewrite ?E1; auto.
  Qed.

  Lemma singles_aset : forall a v r, 1 < List.length v -> NoDup (map fst r) -> (forall b li j, In (b, li) r -> In j li -> sfa j = Some b) -> In a (map fst r) ->
    flat_map single (aset ostr_eqb a v r) = filter (fun j => negb (in_group a j)) (flat_map single r).
  Proof.
    intros a v r Hv. induction r as [|[b li] r IH]; intros ND HS HA; [destruct HA|]. simpl in ND. apply NoDup_cons_iff in ND as [N1 N2]. cbn [aset].
    assert (S1 : forall b li, (forall j, In j li -> sfa j = Some b) -> b <> a -> filter (fun j => negb (in_group a j)) (single (b, li)) = single (b, li)).
    { intros b' l' H' Hn. apply filter_all. apply Forall_forall. intros j Hj. unfold single in Hj. simpl in Hj. destruct l' as [|x [|y l']]; [destruct Hj| |destruct Hj].
      destruct Hj as [<-|[]]. destruct (in_group a x) eqn:G; auto. apply in_group_iff in G. rewrite (H' x (or_introl eq_refl)) in G. congruence. }
    destruct (ostr_eqb a b) eqn:E.
    - apply ostr_eqb_eq in E. subst b. cbn [flat_map]. rewrite filter_app.
      assert (E1 : single (a, v) = []). { unfold single. simpl. destruct v as [|x [|y v]]; simpl in Hv; try lia; auto. }
      assert (E2 : filter (fun j => negb (in_group a j)) (single (a, li)) = []).
      { apply filter_none. apply Forall_forall. intros j Hj. unfold single in Hj. simpl in Hj. destruct li as [|x [|y l']]; [destruct Hj| |destruct Hj].
        destruct Hj as [<-|[]]. rewrite (proj2 (in_group_iff a x)); auto. apply (HS a [x]); [left; auto|left; auto]. }
      rewrite E1, E2. simpl.
      assert (REST : forall r, ~ In a (map fst r) -> (forall b li j, In (b, li) r -> In j li -> sfa j = Some b) ->
        flat_map single r = filter (fun j => negb (in_group a j)) (flat_map single r)).
      { clear - S1. induction r as [|[b' l'] r IH]; intros N HS; auto. cbn [flat_map]. rewrite filter_app. rewrite S1.
        - rewrite <- IH; auto.
          + intros H. apply N. right. auto.
          + intros b li j H Hj. apply (HS b li j); auto. right. auto.
        - intros j Hj. apply (HS b' l' j); auto. left. auto.
        - intros ->. apply N. left. auto. }
      apply REST; auto. intros b li0 j H Hj. apply (HS b li0 j); auto. right. auto.
    - assert (Hb : b <> a) by (intros ->; rewrite (proj2 (ostr_eqb_eq a a) eq_refl) in E; discriminate).
      cbn [flat_map]. rewrite filter_app, S1; auto.
      + rewrite IH; auto. { intros b' l' j H Hj. apply (HS b' l' j); auto. right. auto. } destruct HA as [HA|HA]; auto. simpl in HA. congruence.
      + intros j Hj. apply (HS b li j); auto. left. auto.
  Qed.

  Lemma reviewed_step : forall l r i, reviewed l r -> reviewed (l ++ [i]) (review_add i r).
  Proof.
    intros l r i [R1 R2 R3 R4]. unfold review_add. destruct (sfa i) as [a|] eqn:Ei.
    2: { assert (N : forall b, group_of b (l ++ [i]) = group_of b l).
         { intros b. rewrite group_snoc. unfold in_group. rewrite Ei. apply app_nil_r. }
         constructor; auto.
         - intros b li H. rewrite N. apply R2. auto.
         - intros j b Hj Hs. apply in_app_or in Hj as [Hj|[<-|[]]]; [eauto|congruence].
         - rewrite filter_app. simpl. unfold alone at 2. rewrite Ei, app_nil_r, R4. apply filter_ext. intros j. unfold alone. destruct (sfa j); auto. rewrite N. reflexivity. }
    assert (NA : forall b, b <> a -> group_of b (l ++ [i]) = group_of b l).
    { intros b Hb. rewrite group_snoc. unfold in_group. rewrite Ei. destruct (ostr_eqb b a) eqn:E; [apply ostr_eqb_eq in E; congruence|]. apply app_nil_r. }
    assert (YA : group_of a (l ++ [i]) = group_of a l ++ [i]).
    { rewrite group_snoc. unfold in_group. rewrite Ei. rewrite (proj2 (ostr_eqb_eq a a) eq_refl). reflexivity. }
    assert (GA : match aget ostr_eqb a r with Some x => x | None => [] end = group_of a l).
    { destruct (aget ostr_eqb a r) as [x|] eqn:E.
      - apply aget_In in E; [|apply ostr_eqb_eq]. apply R2 in E as [E _]. exact E.
      - apply aget_None in E; [|apply ostr_eqb_eq]. symmetry. apply filter_none. apply Forall_forall. intros j Hj. destruct (in_group a j) eqn:G; auto.
        apply in_group_iff in G. destruct E. eauto. }
    rewrite GA. constructor.
    - apply aset_NoDup; auto. apply ostr_eqb_eq.
    - intros b li H. assert (ND : NoDup (map fst (aset ostr_eqb a (group_of a l ++ [i]) r))) by (apply aset_NoDup; auto; apply ostr_eqb_eq).
      apply (In_aget_NoDup ostr_eqb ostr_eqb_eq) in H; auto. destruct (ostr_eqb b a) eqn:E.
      + apply ostr_eqb_eq in E. subst b. rewrite aget_aset_same in H by apply ostr_eqb_eq. inversion H. split; [symmetry; exact YA|]. destruct (group_of a l); discriminate.
      + assert (Hb : b <> a) by (intros ->; rewrite (proj2 (ostr_eqb_eq a a) eq_refl) in E; discriminate).
        rewrite aget_aset_other in H; [|apply ostr_eqb_eq|auto]. apply aget_In in H; [|apply ostr_eqb_eq]. rewrite NA; auto.
    - intros j b Hj Hs. apply (In_keys_aset ostr_eqb ostr_eqb_eq). apply in_app_or in Hj as [Hj|[<-|[]]]; [right; eauto|left; congruence].
    - rewrite filter_app. simpl. unfold alone at 2. rewrite Ei, YA. rewrite app_length. simpl.
      destruct (amem ostr_eqb a r) eqn:EM.
      + apply (amem_In ostr_eqb ostr_eqb_eq) in EM. assert (NE : group_of a l <> []).
        { apply in_map_iff in EM as [[a' li] [Ea EM]]. simpl in Ea. subst a'. apply R2 in EM as [-> EM]. exact EM. }
        assert (L2 : 1 <= List.length (group_of a l)) by (destruct (group_of a l); simpl; [congruence|lia]).
        rewrite singles_aset; auto; [|rewrite app_length; simpl; lia|].
        2: { intros b li j H Hj. apply R2 in H as [-> _]. apply filter_In in Hj as [_ Hj]. apply in_group_iff. auto. }
        rewrite R4. destruct (Nat.eqb_spec (List.length (group_of a l) + 1) 1); [lia|]. rewrite app_nil_r. symmetry. apply filter_filter_ext.
        intros j _. unfold alone, in_group. destruct (sfa j) as [b|]; auto. destruct (ostr_eqb a b) eqn:E.
        * apply ostr_eqb_eq in E. subst b. rewrite YA, app_length. simpl. apply Nat.eqb_neq. lia.
        * simpl. rewrite NA; auto. intros ->. rewrite (proj2 (ostr_eqb_eq a a) eq_refl) in E. discriminate.
      + rewrite aset_fresh by auto. rewrite flat_map_app, R4.
        assert (NE : group_of a l = []).
        { apply filter_none. apply Forall_forall. intros j Hj. destruct (in_group a j) eqn:G; auto. apply in_group_iff in G.
          apply (R3 _ _ Hj) in G. apply (amem_In ostr_eqb ostr_eqb_eq) in G. congruence. }
        rewrite NE. simpl. f_equal. apply filter_ext_in. intros j Hj. unfold alone. destruct (sfa j) as [b|] eqn:Eb; auto. rewrite NA; auto. intros ->.
        apply (R3 _ _ Hj) in Eb. apply (amem_In ostr_eqb ostr_eqb_eq) in Eb. congruence.
  Qed.

  Lemma reviewed_all : forall l2 l1 r, reviewed l1 r -> reviewed (l1 ++ l2) (fold_left (fun r i => review_add i r) l2 r).
  Proof.
    induction l2 as [|i l2 IH]; intros l1 r H; simpl; [rewrite app_nil_r; auto|]. change (i :: l2) with ([i] ++ l2). rewrite app_assoc. apply IH. apply reviewed_step. auto.
  Qed.
  Lemma reviewed_nil : reviewed [] [].
  Proof. constructor; simpl; auto; try constructor; try (intros; contradiction). Qed.

  (** ** The decision *)
  Definition multi_test : pystr := several_test.
  Definition decision (x : option pystr * list nat) (fs : list finding) : Prop :=
    match snd x with
    | [] => fs = []
    | [i] => exists a, addr0 i = Some a /\ fs = [mkF (Some a) v2_test OK (py "found plottable data: " ++ a)]
    | _ => exists f, fs = [f] /\ f_addr f = fst x /\ several_finding f
    end.
  Definition field_addr (i : nat) : option pystr := match up i with Some p => addr0 p | None => None end.

  Lemma v2_decide_run : forall r a s s' res, ext s0 s -> (forall b li j, In (b, li) r -> In j li -> sfa j = Some b) ->
    v2_decide a r s = (s', Ok res) ->
    (exists fss, rec_run s (List.concat fss) s' /\ Forall2 decision r fss) /\ res = fold_left (fun _ i => field_addr i) (flat_map single r) a.
  Proof.
    induction r as [|[b li] r IH]; intros a s s' res X HS H; cbn [v2_decide] in H.
    - apply ret_ok in H as [-> <-]. split; auto. exists []. split; [apply rec_run_nil|constructor].
    - assert (HS' : forall b li j, In (b, li) r -> In j li -> sfa j = Some b) by (intros; eapply HS; eauto; right; eauto).
      assert (HB : forall j, In j li -> sfa j = Some b) by (intros; eapply HS; eauto; left; eauto).
      assert (LEN : forall j, sfa j = Some b -> j < List.length (st_items s0)).
      { intros j Hj. unfold sfa, on_dataset, up in Hj. destruct (nth_error (st_items s0) j) eqn:E; [|discriminate]. apply nth_error_Some. congruence. }
      destruct li as [|i [|i2 li]].
      + destruct (IH _ _ _ _ X HS' H) as [[fss [R1 R2]] R3]. split; auto. exists ([] :: fss). split; auto. constructor; auto. reflexivity.
      + pose proof (LEN i (HB i (or_introl eq_refl))) as HL.
        apply bind_ok in H as [it [s1 [H1 H]]]. apply item_ok in H1 as [-> Hi]. destruct (item_skel _ _ _ X HL Hi) as [O1 O2].
        apply bind_ok in H as [pit [s1 [H1 H]]]. apply (parent_run _ _ _ _ _ X HL Hi) in H1 as [-> [p [pit0 [U [Up [Hp0 [Hp Sp]]]]]]].
        apply bind_ok in H as [ad [s1 [H1 H]]]. apply lift_ok in H1 as [-> H1].
        assert (A0 : addr0 i = Some ad). { rewrite O2. destruct (it_addr it); cbn [need_text] in H1; congruence. }
        assert (At : addr_at s i (Some ad)) by (exists it; split; auto; congruence).
        apply bind_ok in H as [u [s1 [H2 H]]]. destruct (record_run _ _ _ _ _ _ _ _ H2 At) as [R1 _].
        destruct (IH _ _ _ _ (ext_trans _ _ _ X (rec_run_ext _ _ _ R1)) HS' H) as [[fss [R2 R3]] R4]. split.
        * exists ([mkF (Some ad) v2_test OK (py "found plottable data: " ++ ad)] :: fss). split; [exact (rec_run_app _ _ _ _ _ R1 R2)|]. constructor; auto. exists ad. auto.
        * rewrite R4. simpl. unfold field_addr. rewrite U. unfold addr0. rewrite Hp0. rewrite (skel_addr _ _ Sp). reflexivity.
      + pose proof (HB i (or_introl eq_refl)) as SI. pose proof (LEN i SI) as HL.
        apply bind_ok in H as [it [s1 [H1 H]]]. apply item_ok in H1 as [-> Hi]. destruct (item_skel _ _ _ X HL Hi) as [O1 O2].
        apply bind_ok in H as [pit [s1 [H1 H]]]. apply (parent_run _ _ _ _ _ X HL Hi) in H1 as [-> [p [pit0 [U [Up [Hp0 [Hp Sp]]]]]]].
        apply bind_ok in H as [gn [s1 [H1 H]]]. apply lift_ok in H1 as [-> H1]. assert (EB : b = Some gn) by (destruct b; cbn [need_text] in H1; congruence).
        apply bind_ok in H as [gi [s1 [H2 H]]].
        assert (EG : s1 = s /\ it_parent pit = Some gi). { destruct (it_parent pit); [|discriminate]. apply ret_ok in H2 as [-> ->]. auto. }
        destruct EG as [-> EG]. clear H2.
        assert (UG : up p = Some gi). { unfold up. rewrite Hp0. apply skel_eq in Sp as [Sp _]. congruence. }
        destruct (parent0 _ _ UG) as [UL [gt0 Hg0]].
        assert (AG : addr0 gi = b). { unfold sfa in SI. rewrite U, UG in SI. destruct (on_dataset i && is_one i); [|discriminate]. inversion SI. reflexivity. }
        assert (At : addr_at s gi b). { destruct (ext_item _ _ _ _ X Hg0) as [gt [G1 G2]]. exists gt. split; auto. rewrite (skel_addr _ _ G2). unfold addr0 in AG. rewrite Hg0 in AG. auto. }
        apply bind_ok in H as [u [s1 [H2 H]]]. destruct (record_run _ _ _ _ _ _ _ _ H2 At) as [R1 _].
        destruct (IH _ _ _ _ (ext_trans _ _ _ X (rec_run_ext _ _ _ R1)) HS' H) as [[fss [R2 R3]] R4]. split.
        * eexists (_ :: fss). split; [exact (rec_run_app _ _ _ _ _ R1 R2)|]. constructor; auto. eexists. split; [reflexivity|]. split; [reflexivity|]. exists gn. rewrite EB. reflexivity.
        * rewrite R4. reflexivity.
  Qed.

  (** ** The whole of version 2 *)
  Lemma signals_lt : forall i, In i (signal_items (st_cp s0)) -> i < List.length (st_items s0).
  Proof.
    intros i H. unfold signal_items in H. apply in_flat_map in H as [[k l] [H1 H2]]. simpl in H2. destruct (endswith k _); [|destruct H2].
    destruct (ci_cpof _ _ HI _ _ _ H1 H2) as [it [H3 _]]. apply nth_error_Some. congruence.
  Qed.

  Lemma v2_run : forall s s' r, ext s0 s -> default_plot_v2 c s = (s', Ok r) ->
    exists fs1 fs2 rv, let l := signal_items (st_cp s0) in
      rec_run s (List.concat fs1 ++ List.concat fs2) s' /\ Forall2 v2_kind l fs1 /\ Forall grouped l /\ reviewed l rv /\ Forall2 decision rv fs2
      /\ r = fold_left (fun _ i => field_addr i) (filter (alone l) l) None.
  Proof.
    intros s s' r X H. unfold default_plot_v2 in H. apply bind_ok in H as [sx [s1 [H1 H]]]. apply get_ok in H1 as [-> ->].
    apply bind_ok in H as [rv [s1 [H1 H]]]. pose proof X as [lg T]. rewrite (tr_cp _ _ _ T) in H1.
    destruct (v2_collect_run _ _ _ _ _ X (proj2 (Forall_forall _ _) signals_lt) H1) as [[fs1 [R1 K1]] [-> G1]].
    pose proof (reviewed_all (signal_items (st_cp s0)) [] [] reviewed_nil) as RV. simpl in RV.
    destruct (v2_decide_run _ _ _ _ _ (ext_trans _ _ _ X (rec_run_ext _ _ _ R1)) (fun b li j Hb Hj => proj1 (in_group_iff b j) (proj2 (proj1 (filter_In _ _ _) (eq_ind li (fun q => In j q) Hj _ (proj1 (rv_in _ _ RV b li Hb)))))) H) as [[fs2 [R2 K2]] ->].
    exists fs1, fs2. eexists. cbv zeta. split; [eapply rec_run_app; eauto|]. split; auto. split; auto. split; [exact RV|]. split; auto. rewrite (rv_singles _ _ RV). reflexivity.
  Qed.
End V2.
