(** * The minOccurs that the group checks leave behind *)

From Coq Require Import List NArith ZArith Bool String Lia Permutation.
From Verif Require Import PyBase PyFacts Regex Utf8 H5 Findings Nxdl Core Catalog ItemName AttributeCheck
  GroupChecks AppDef DefaultPlot Validate Trace CheckFacts CatalogFacts Spec_Run Spec_Catalog CatalogRun CatalogEnd RunFacts NameRun
  AddrRecord PathFacts CatalogTerm PresenceFacts Spec_Groups GroupRun GroupEnd SimFacts HistoryFacts Spec_Plot PlotLink Spec_Number NumberFacts Spec_Verdict.
Import ListNotations.
Local Open Scope nat_scope.

(** ** Operations that leave the classes alone *)
Definition quiet {A} (m : M A) : Prop := forall s, st_classes (fst (m s)) = st_classes s.

Lemma quiet_ret : forall A (a : A), quiet (ret a).
Proof. intros A a s. reflexivity. Qed.
Lemma quiet_bind : forall A B (m : M A) (f : A -> M B), quiet m -> (forall a, quiet (f a)) -> quiet (bind m f).
Proof. intros A B m f Hm Hf s. unfold bind. specialize (Hm s). destruct (m s) as [s1 [a|e]]; auto. simpl in *. rewrite Hf. auto. Qed.
Lemma quiet_for_each : forall A (f : A -> M unit) l, (forall x, In x l -> quiet (f x)) -> quiet (for_each f l).
Proof. induction l; simpl; intros; [apply quiet_ret|]. apply quiet_bind; auto. Qed.
Lemma quiet_item : forall i, quiet (item i).
Proof. intros i s. unfold item. destruct (nth_error _ _); reflexivity. Qed.
Lemma quiet_address : forall a, quiet (address_item a).
Proof. intros a s. unfold address_item. destruct (aget _ _ _); reflexivity. Qed.
Lemma quiet_last : forall k, quiet (last_of_classpath k).
Proof. intros k s. unfold last_of_classpath. destruct (dget _ _) as [l|]; [destruct (rev l)|]; reflexivity. Qed.
Lemma quiet_regexp : forall k p, quiet (cached_regexp k p).
Proof. intros k p s. unfold cached_regexp. destruct (dget _ _); [reflexivity|]. destruct (re_compile p); reflexivity. Qed.
Lemma quiet_record : forall i k st cm, quiet (record_finding i k st cm).
Proof. intros i k st cm s. unfold record_finding, bind, item. destruct (nth_error _ _); reflexivity. Qed.

Ltac qt_step :=
  match goal with
  | |- quiet (bind _ _) => apply quiet_bind; [|intros]
  | |- quiet (for_each _ _) => apply quiet_for_each; intros
  | |- quiet (ret _) => apply quiet_ret
  | |- quiet (raise _) => intros ?; reflexivity
  | |- quiet (lift _) => intros ?; reflexivity
  | |- quiet get => intros ?; reflexivity
  | |- quiet (item _) => apply quiet_item
  | |- quiet (address_item _) => apply quiet_address
  | |- quiet (classpath_list _) => intros ?; reflexivity
  | |- quiet (last_of_classpath _) => apply quiet_last
  | |- quiet (new_item _) => intros ?; reflexivity
  | |- quiet (cached_regexp _ _) => apply quiet_regexp
  | |- quiet (record_finding _ _ _ _) => apply quiet_record
  | |- quiet (match ?x with _ => _ end) => destruct x
  | |- quiet (let '(_, _) := ?x in _) => destruct x
  end.
Ltac qt := repeat qt_step.

Lemma first_match_quiet : forall c o l, quiet (first_match c o l).
Proof. induction l as [|[k p] l IH]; cbn [first_match]; qt; auto. Qed.
Lemma match_key_quiet : forall c o, quiet (validItemName_match_key c o).
Proof. intros. unfold validItemName_match_key. qt. apply first_match_quiet. Qed.
Lemma target_parts_quiet : forall c i parts addr, quiet (target_parts c i addr parts).
Proof. induction parts; intros; cbn [target_parts]; qt; auto; apply match_key_quiet. Qed.
Lemma check_item_quiet : forall c i, quiet (check_item c i).
Proof.
  intros. unfold check_item, item_name_verify, handle_NX_class, handle_any_attribute, handle_groups_and_fields, match_key_name, match_key_text,
    attribute_verify, nxclass_handler, target_handler, signal_handler, axes_handler, generic_handler, axis_check, parent_item.
  qt; try apply match_key_quiet; try apply first_match_quiet; try apply target_parts_quiet.
Qed.
Lemma check_definition_quiet : forall c i, quiet (check_definition c i).
Proof. intros. unfold check_definition, application_definition_verify. qt. unfold ad_field. qt. Qed.
Lemma v3_loop_quiet : forall c l a n, quiet (v3_loop c a n l).
Proof. induction l as [|i l IH]; intros; cbn [v3_loop]; qt; auto. unfold v3_item. qt. Qed.
Lemma v2_collect_quiet : forall c l r, quiet (v2_collect c r l).
Proof. induction l as [|i l IH]; intros; cbn [v2_collect]; qt; auto. unfold v2_item, parent_item. qt. Qed.
Lemma v2_decide_quiet : forall l a, quiet (v2_decide a l).
Proof. induction l as [|[g l'] l IH]; intros; cbn [v2_decide]; qt; auto; unfold parent_item; qt. Qed.
Lemma default_plot_quiet : forall c, quiet (default_plot_verify c).
Proof.
  intros. unfold default_plot_verify. qt. cbn [try_methods]. unfold default_plot_v3, default_plot_v2, default_plot_v1.
  qt; try apply v3_loop_quiet; try apply v2_collect_quiet; try apply v2_decide_quiet.
Qed.
Lemma quiet_run : forall A (m : M A) s s' r, quiet m -> m s = (s', r) -> st_classes s' = st_classes s.
Proof. intros A m s s' r H E. specialize (H s). rewrite E in H. exact H. Qed.

(** ** The group "data" of NXentry *)
Section Cell.
  Variables (c : ctx) (g0 : nxgroup) (keys0 : list pystr).
  Hypothesis ND : NoDup keys0.

  (** the class is as it was, but for minOccurs, which is [m] for "data" *)
  Definition cell (m : option Z) (s : vstate) : Prop :=
    exists d g, dget (py "NXentry") (st_classes s) = Some d /\ map fst (d_groups d) = keys0 /\ dget (py "data") (d_groups d) = Some g
      /\ g_attrs g = g_attrs g0 /\ g_minOccurs g = m.

  Lemma cell_same : forall m s s', st_classes s' = st_classes s -> cell m s -> cell m s'.
  Proof. intros m s s' E [d [g H]]. exists d, g. rewrite E. exact H. Qed.

  Lemma keys_dset : forall V n (g g' : V) l, dget n l = Some g -> map fst (dset n g' l) = map fst l.
  Proof. intros V n g g' l H. apply aset_keys_mem. unfold amem. unfold dget in H. rewrite H. reflexivity. Qed.

  Lemma cell_store : forall t n z m s s' u, store_minOccurs t n z s = (s', Ok u) -> cell m s ->
    cell (if str_eqb t (py "NXentry") && str_eqb n (py "data") then Some z else m) s'.
  Proof.
    intros t n z m s s' u H (d & g & H1 & H2 & H3 & H4 & H5).
    assert (E : st_classes s' = store t n z (st_classes s)) by (inversion H; reflexivity). unfold store in E.
    destruct (str_eqb_spec t (py "NXentry")) as [->|NT]; cbn [andb].
    - rewrite H1 in E. destruct (str_eqb_spec n (py "data")) as [->|NN].
      + rewrite H3 in E. eexists. exists (set_minOccurs z g). split; [rewrite E; apply dget_dset_same|]. unfold set_d_groups. cbn [d_groups].
        split; [rewrite (keys_dset _ _ _ _ _ H3); auto|]. split; [apply dget_dset_same|]. split; [destruct g; exact H4|apply g_minOccurs_set].
      + destruct (dget n (d_groups d)) as [g1|] eqn:E1; [|exists d, g; rewrite E; auto].
        eexists. exists g. split; [rewrite E; apply dget_dset_same|]. unfold set_d_groups. cbn [d_groups].
        split; [rewrite (keys_dset _ _ _ _ _ E1); auto|]. split; [rewrite dget_dset_other; auto|]. auto.
    - exists d, g. split; [|auto]. rewrite E. destruct (dget t (st_classes s)) as [d1|]; [|auto]. destruct (dget n (d_groups d1)); [|auto].
      rewrite dget_dset_other; auto.
  Qed.

  Lemma cell_base_group : forall i it cls ng m s s' u, base_group c i it cls ng s = (s', Ok u) -> cell m s ->
    exists z, minOccurs_of (c_env c) (snd ng) = Ok z /\ cell (if str_eqb cls (py "NXentry") && str_eqb (fst ng) (py "data") then Some z else m) s'.
  Proof.
    intros i it cls ng m s s' u H C. unfold base_group in H.
    apply bind_ok in H as [b [s1 [H1 H]]]. apply lift_ok in H1 as [-> H1].
    apply bind_ok in H as [ad [s1 [H2 H]]]. apply lift_ok in H2 as [-> H2].
    apply bind_ok in H as [u1 [s1 [H3 H]]]. apply (quiet_run _ _ _ _ _ (quiet_record _ _ _ _)) in H3.
    apply bind_ok in H as [z [s2 [H4 H]]]. apply lift_ok in H4 as [-> H4]. exists z. split; auto.
    eapply cell_store; [exact H|]. eapply cell_same; eauto.
  Qed.

  (** other groups, or another class *)
  Lemma cell_groups_other : forall i it cls l m s s' u, for_each (base_group c i it cls) l s = (s', Ok u) -> cell m s ->
    (cls <> py "NXentry" \/ ~ In (py "data") (map fst l)) -> cell m s'.
  Proof.
    induction l as [|ng l IH]; intros m s s' u H C N; cbn [for_each] in H.
    - apply ret_ok in H as [-> _]. exact C.
    - apply bind_ok in H as [u1 [s1 [H1 H]]]. destruct (cell_base_group _ _ _ _ _ _ _ _ H1 C) as [z [_ C1]].
      assert (E : str_eqb cls (py "NXentry") && str_eqb (fst ng) (py "data") = false).
      { apply andb_false_iff. destruct N as [N|N]; [left|right]; apply not_true_iff_false; rewrite str_eqb_eq; auto. intros X. apply N. left. auto. }
      rewrite E in C1. eapply IH; eauto. destruct N as [N|N]; [left; auto|right; intros X; apply N; right; auto].
  Qed.

  Lemma cell_groups_data : forall i it l m s s' u g, for_each (base_group c i it (py "NXentry")) l s = (s', Ok u) -> cell m s ->
    NoDup (map fst l) -> In (py "data", g) l -> exists z, minOccurs_of (c_env c) g = Ok z /\ cell (Some z) s'.
  Proof.
    induction l as [|ng l IH]; intros m s s' u g H C N I; [destruct I|]. cbn [for_each] in H.
    apply bind_ok in H as [u1 [s1 [H1 H]]]. destruct (cell_base_group _ _ _ _ _ _ _ _ H1 C) as [z [Z C1]]. cbn [map] in N. inversion N as [|x l' N1 N2 E]; subst.
    destruct I as [->|I].
    - cbn [fst snd] in *. rewrite !str_eqb_refl in C1. cbn [andb] in C1. exists z. split; auto. eapply cell_groups_other; eauto.
    - eapply IH; eauto.
  Qed.

  Lemma minOccurs_attrs : forall a b, g_attrs a = g_attrs b -> minOccurs_of (c_env c) a = minOccurs_of (c_env c) b.
  Proof. intros a b H. unfold minOccurs_of. rewrite H. reflexivity. Qed.

  Lemma cell_validate_group : forall i it m s s' u, nth_error (st_items s) i = Some it -> validate_group c i s = (s', Ok u) -> cell m s ->
    (it_cp it <> NON_NEXUS /\ group_class it = Ok (py "NXentry") /\ exists z, minOccurs_of (c_env c) g0 = Ok z /\ cell (Some z) s')
    \/ ((it_cp it = NON_NEXUS \/ exists cls, group_class it = Ok cls /\ cls <> py "NXentry") /\ cell m s').
  Proof.
    intros i it m s s' u Hi H C. unfold validate_group in H.
    apply bind_ok in H as [it' [s1 [H1 H]]]. apply item_ok in H1 as [-> H1]. rewrite Hi in H1. inversion H1; subst it'. clear H1.
    destruct (str_eqb_spec (it_cp it) NON_NEXUS) as [E0|N0].
    { right. split; [left; exact E0|]. eapply cell_same; [|exact C]. eapply quiet_run; [|exact H]. apply quiet_record. }
    apply bind_ok in H as [cls [s1 [H1 H]]]. apply lift_ok in H1 as [-> Hcls].
    apply bind_ok in H as [u1 [s1 [H1 H]]].
    assert (C1 : cell m s1). { eapply cell_same; [|exact C]. eapply quiet_run; [|exact H1]. unfold validate_NX_class_attribute. qt. }
    apply bind_ok in H as [sx [s3 [G H]]]. apply get_ok in G as [-> ->].
    destruct (dget cls (st_classes s1)) as [d|] eqn:Ecls.
    2: { assert (C2 : cell m s') by (eapply cell_same; [|exact C1]; eapply quiet_run; [|exact H]; apply quiet_record).
         right. split; auto. right. exists cls. split; auto. intros X. destruct C1 as (d & g & D & _). congruence. }
    apply bind_ok in H as [u3 [s3 [H3 H]]].
    assert (C3 : cell m s3). { eapply cell_same; [|exact C1]. eapply quiet_run; [|exact H3]. unfold verify_group_attributes, group_attribute, child_exists. qt. }
    apply bind_ok in H as [u4 [s4 [H4 H]]].
    assert (C4 : cell m s4). { eapply cell_same; [|exact C3]. eapply quiet_run; [|exact H4]. unfold verify_group_children, group_child. qt. }
    apply bind_ok in H as [u5 [s5 [H5 H]]]. apply (quiet_run _ _ _ _ _ (quiet_record _ _ _ _)) in H.
    unfold base_class_items_verify in H5. apply bind_ok in H5 as [it' [s6 [G H5]]]. apply item_ok in G as [-> G].
    apply bind_ok in H5 as [u6 [s6 [H6 H5]]].
    assert (C6 : cell m s6). { eapply cell_same; [|exact C4]. eapply quiet_run; [|exact H6]. unfold base_field. qt. }
    destruct (str_eqb_spec cls (py "NXentry")) as [->|NC].
    - left. split; auto. split; auto. destruct C1 as (d' & g & D & K & G1 & A & _). rewrite Ecls in D. inversion D; subst d'.
      destruct (cell_groups_data _ _ _ _ _ _ _ g H5 C6) as [z [Z C7]].
      + eapply Permutation_NoDup; [|rewrite <- K in ND; exact ND]. apply Permutation_map, Permutation_sym, sorted_by_perm.
      + eapply Permutation_in; [apply Permutation_sym, sorted_by_perm|]. apply dget_In. exact G1.
      + exists z. split; [rewrite <- (minOccurs_attrs _ _ A); exact Z|]. eapply cell_same; eauto.
    - right. split; [right; exists cls; auto|]. eapply cell_same; [exact H|]. eapply cell_groups_other; eauto.
  Qed.

  Definition isgroup (it : vitem) : bool := hobj_isgroup (c_world c) (it_obj it) || hobj_isfile (it_obj it).
  Definition entry_group (it : vitem) : Prop := isgroup it = true /\ it_cp it <> NON_NEXUS /\ group_class it = Ok (py "NXentry").
  Definition other_group (it : vitem) : Prop := isgroup it = true -> it_cp it = NON_NEXUS \/ exists cls, group_class it = Ok cls /\ cls <> py "NXentry".
  Lemma isgroup_skel : forall a b, skel a = skel b -> isgroup a = isgroup b.
  Proof. intros a b H. apply skel_eq in H. unfold isgroup. destruct H as [_ [-> _]]. reflexivity. Qed.
  Lemma entry_skel : forall a b, skel a = skel b -> entry_group a -> entry_group b.
  Proof.
    intros a b H (H1 & H2 & H3). pose proof (skel_eq _ _ H) as [_ [_ [_ [_ [SC _]]]]]. split; [rewrite <- (isgroup_skel _ _ H); auto|].
    split; [congruence|]. rewrite <- (group_class_skel _ _ H). auto.
  Qed.
  Lemma other_skel : forall a b, skel a = skel b -> other_group a -> other_group b.
  Proof.
    intros a b H O G. rewrite <- (isgroup_skel _ _ H) in G. pose proof (skel_eq _ _ H) as [_ [_ [_ [_ [SC _]]]]]. rewrite <- SC, <- (group_class_skel _ _ H). auto.
  Qed.

  Lemma cell_check_groups : forall l m s s' u, (forall i, In i l -> exists it, nth_error (st_items s) i = Some it) ->
    for_each (check_group c) l s = (s', Ok u) -> cell m s ->
    ((exists i it, In i l /\ nth_error (st_items s) i = Some it /\ entry_group it) /\ exists z, minOccurs_of (c_env c) g0 = Ok z /\ cell (Some z) s')
    \/ ((forall i it, In i l -> nth_error (st_items s) i = Some it -> other_group it) /\ cell m s').
  Proof.
    induction l as [|i l IH]; intros m s s' u HI H C; cbn [for_each] in H.
    - apply ret_ok in H as [-> _]. right. split; auto. intros i it [].
    - apply bind_ok in H as [u1 [s1 [H1 H]]]. destruct (HI i (or_introl eq_refl)) as [it Hi].
      destruct (logs_run _ _ _ _ _ _ _ (check_group_logs c i) H1) as [lg [T _]].
      assert (FW : forall j x, nth_error (st_items s) j = Some x -> exists y, nth_error (st_items s1) j = Some y /\ skel y = skel x).
      { intros j x Hj. apply (trace_item _ _ _ _ _ T Hj). }
      assert (ONE : (entry_group it /\ exists z, minOccurs_of (c_env c) g0 = Ok z /\ cell (Some z) s1) \/ (other_group it /\ cell m s1)).
      { unfold check_group in H1. apply bind_ok in H1 as [it' [sx [G H1]]]. apply item_ok in G as [-> G]. rewrite Hi in G. inversion G; subst it'. clear G.
        fold (isgroup it) in H1. destruct (isgroup it) eqn:EG.
        - destruct (cell_validate_group _ _ _ _ _ _ Hi H1 C) as [(A1 & A2 & A3)|(A1 & A2)].
          + left. split; auto. split; auto.
          + right. split; auto. intros _. exact A1.
        - apply ret_ok in H1 as [-> _]. right. split; auto. intros X. congruence. }
      assert (HI1 : forall j, In j l -> exists x, nth_error (st_items s1) j = Some x).
      { intros j Hj. destruct (HI j (or_intror Hj)) as [x Hx]. destruct (FW _ _ Hx) as [y [Hy _]]. eauto. }
      destruct ONE as [[EG [z [Z C1]]]|[OG C1]].
      + left. split; [exists i, it; simpl; auto|]. destruct (IH _ _ _ _ HI1 H C1) as [[_ X]|[_ X]]; [exact X|exists z; auto].
      + destruct (IH _ _ _ _ HI1 H C1) as [[(j & x & Hj & Hx & EX) X]|[O X]].
        * left. split; auto. destruct (HI j (or_intror Hj)) as [x0 Hx0]. destruct (FW _ _ Hx0) as [y [Hy SY]]. rewrite Hx in Hy. inversion Hy; subst y.
          exists j, x0. split; [right; auto|]. split; auto. eapply entry_skel; eauto.
        * right. split; auto. intros j x [<-|Hj] Hx; [rewrite Hi in Hx; inversion Hx; subst x; exact OG|]. destruct (FW _ _ Hx) as [y [Hy SY]]. eapply other_skel; [exact SY|eapply O; eauto].
  Qed.
End Cell.

(** ** The whole run *)
Lemma run_minimum : forall u w v fname v', validate u w v fname = (v', Ok tt) ->
  forall d g, dget (py "NXentry") (st_classes (v_st v)) = Some d -> NoDup (map fst (d_groups d)) -> dget (py "data") (d_groups d) = Some g ->
  exists d' g', dget (py "NXentry") (st_classes (v_st v')) = Some d' /\ dget (py "data") (d_groups d') = Some g'
    /\ ((file_has (u_env u) w v' (py "NXentry") /\ exists z, minOccurs_of (u_env u) g = Ok z /\ g_minOccurs g' = Some z)
        \/ (~ file_has (u_env u) w v' (py "NXentry") /\ g_minOccurs g' = g_minOccurs g)).
Proof.
  intros u w v fname v' H d g HD ND HG. destruct (validate_decompose _ _ _ _ _ H) as [_ [_ [_ [s1 [s2 [s3 [s4 [l1 [l2 [l3 [l4 R]]]]]]]]]]].
  destruct R. set (c := mk_ctx u w fname) in *. set (s5 := v_st v') in *.
  assert (C1 : cell g (map fst (d_groups d)) (g_minOccurs g) s1) by (exists d, g; rewrite ro_cl; auto).
  assert (C2 : cell g (map fst (d_groups d)) (g_minOccurs g) s2).
  { eapply cell_same; [|exact C1]. eapply quiet_run; [|exact ro_step1]. apply quiet_for_each. intros. apply check_item_quiet. }
  assert (X12 : ext s1 s2) by (exists l1; auto).
  assert (X25 : ext s2 s5). { eapply ext_trans; [exists l2; exact ro_t2|]. eapply ext_trans; [exists l3; exact ro_t3|exists l4; exact ro_t4]. }
  assert (EA : st_addr s5 = st_addr s2) by (rewrite (tr_addr _ _ _ ro_t4), (tr_addr _ _ _ ro_t3), (tr_addr _ _ _ ro_t2); auto).
  assert (EA1 : st_addr s2 = st_addr s1) by exact (tr_addr _ _ _ ro_t1).
  assert (FIN : forall m, cell g (map fst (d_groups d)) m s3 -> exists d' g', dget (py "NXentry") (st_classes s5) = Some d' /\ dget (py "data") (d_groups d') = Some g' /\ g_minOccurs g' = m).
  { intros m C. assert (C5 : cell g (map fst (d_groups d)) m s5).
    { eapply cell_same; [eapply quiet_run; [apply default_plot_quiet|exact ro_step4]|]. eapply cell_same; [|exact C].
      eapply quiet_run; [|exact ro_step3]. apply quiet_for_each. intros. apply check_definition_quiet. }
    destruct C5 as (d' & g' & A1 & _ & A2 & _ & A3). eauto. }
  assert (HI : forall i, In i (dvals (st_addr s2)) -> exists it, nth_error (st_items s2) i = Some it).
  { intros i Hi. apply in_map_iff in Hi as [[a j] [E Hi]]. cbn [snd] in E. subst j. rewrite EA1 in Hi.
    destruct (ci_addrof _ _ ro_inv _ _ Hi) as [it0 [Hi0 _]]. destruct (ext_item _ _ _ _ X12 Hi0) as [it1 [Hi1 _]]. eauto. }
  destruct (cell_check_groups c g (map fst (d_groups d)) ND _ _ _ _ _ HI ro_step2 C2) as [[(i & it & Hi & Hit & EG) [z [Z C3]]]|[O C3]];
    destruct (FIN _ C3) as (d' & g' & A1 & A2 & A3); exists d', g'; (split; [exact A1|]); (split; [exact A2|]); [left|right].
  - split; [|exists z; auto]. apply in_map_iff in Hi as [[a j] [E Hi]]. cbn [snd] in E. subst j.
    pose proof Hi as Hi'. rewrite EA1 in Hi'. destruct (ci_addrof _ _ ro_inv _ _ Hi') as [it0 [Hi0 Ha0]].
    destruct (ext_item _ _ _ _ X12 Hi0) as [it1 [Hi1 S1]]. rewrite Hit in Hi1. inversion Hi1; subst it1.
    destruct (ext_item _ _ _ _ X25 Hit) as [it5 [Hi5 S5]].
    assert (EG0 : entry_group c it0) by (eapply entry_skel; [exact S1|exact EG]). destruct EG0 as (G1 & G2 & G3).
    destruct (it_obj it0) as [h|x] eqn:Eo; [|unfold isgroup in G1; rewrite Eo in G1; discriminate].
    assert (HC : has_class (u_env u) w it0 h (py "NXentry")).
    { change (u_env u) with (c_env c). change w with (c_world c). eapply class_of_group; eauto. unfold isgroup in G1. rewrite Eo in G1. exact G1. }
    exists i, it5, h. pose proof (skel_eq _ _ S1) as [_ [SO1 [_ [SA1 _]]]]. pose proof (skel_eq _ _ S5) as [_ [SO5 [_ [SA5 _]]]].
    split; [split; [|split; [|split]]|].
    + fold s5. rewrite EA, SA5, SA1, Ha0. exact Hi.
    + exact Hi5.
    + congruence.
    + unfold isgroup in G1. rewrite Eo in G1. cbn [hobj_isgroup hobj_isfile] in G1. change (c_world c) with w in G1. unfold isHdf5Group, isHdf5FileObject in G1.
      destruct (h_isfile h) eqn:EF; [|rewrite orb_false_r, andb_true_r in G1; exact G1].
      exfalso. destruct HC as [[_ X]|[N1 _]]; [apply (f_equal (@List.length N)) in X; vm_compute in X; discriminate|].
      destruct (ci_origin _ _ ro_inv _ _ Hi0) as [O1 O2 O3|p pit hp h' name O1 O2 O3 O4 O5 O6|p pit h' k x O1 O2 O3 O4 O5].
      * destruct (node_item_spec _ _ _ _ _ O3) as [EO _]. apply N1. unfold node_item in O3.
        destruct (determine_NeXus_classpath _ _ _ _ _) as [[cp nc]|] eqn:ED; [|discriminate]. cbn [rbind] in O3.
        destruct (identify_object_type _ _ _); [|discriminate]. cbn [rbind] in O3. inversion O3; subst it0. cbn [it_cp fst snd].
        unfold determine_NeXus_classpath in ED. match type of ED with (if ?b then _ else _) = _ => destruct b end; [inversion ED; reflexivity|discriminate].
      * destruct (node_item_spec _ _ _ _ _ O6) as [EO _]. rewrite Eo in EO. inversion EO; subst h'. rewrite (getitem_notfile _ _ _ _ O5) in EF. discriminate.
      * subst. rewrite (proj1 (attr_item_spec _ _ _ _)) in Eo. discriminate.
    + eapply has_class_skel; [|exact HC]. congruence.
  - split; [|exact A3]. intros (i & it5 & h & (B1 & B2 & B3 & B4) & HC). fold s5 in B1, B2. rewrite EA in B1.
    pose proof B1 as B1'. rewrite EA1 in B1'. destruct (ci_addrof _ _ ro_inv _ _ B1') as [it0 [Hi0 Ha0]].
    destruct (ext_item _ _ _ _ X12 Hi0) as [it1 [Hi1 S1]]. destruct (ext_item _ _ _ _ X25 Hi1) as [itx [Hix S5]]. rewrite B2 in Hix. inversion Hix; subst itx.
    assert (S50 : skel it5 = skel it0) by congruence. pose proof (skel_eq _ _ S50) as [_ [SO [_ [_ [SC _]]]]].
    assert (G : isgroup c it0 = true).
    { unfold isgroup. rewrite <- SO, B3. cbn [hobj_isgroup hobj_isfile]. change (c_world c) with w. unfold isHdf5Group, isHdf5FileObject. rewrite B4.
      destruct (h_isfile h); reflexivity. }
    assert (OG : other_group c it0).
    { eapply other_skel; [exact S1|]. eapply O; [|exact Hi1]. unfold dvals. change i with (snd (it_addr it5, i)). apply in_map. exact B1. }
    destruct (OG G) as [X|[cls [X1 X2]]].
    + eapply has_class_nexus; [exact HC|]. rewrite SC. exact X.
    + apply X2. eapply has_class_fun; [|exact HC]. eapply (has_class_skel _ _ it0 it5); [congruence|].
      change (u_env u) with (c_env c). change w with (c_world c). eapply class_of_group; eauto.
      * congruence.
      * unfold isgroup in G. rewrite <- SO, B3 in G. exact G.
      * rewrite <- SC. eapply has_class_nexus. exact HC.
Qed.

Lemma minimum_of : forall E g z, minOccurs_of E g = Ok z -> declared_minimum E g z.
Proof.
  intros E g z H. unfold minOccurs_of in H. destruct (dget (py "minOccurs") (g_attrs g)) as [[a|s]|] eqn:EM.
  - discriminate.
  - right. exists s. split; auto. apply int_number. exact H.
  - left. split; [|congruence]. intros I. apply (proj2 (dmem_In _ (py "minOccurs") (g_attrs g))) in I. unfold dmem, amem in I. unfold dget in EM. rewrite EM in I. discriminate.
Qed.

Lemma verdict_missing : forall u w v fname v', validate u w v fname = (v', Ok tt) ->
  ~ v3_found (u_env u) w v' -> ~ v2_found w v' ->
  forall d g, dget (py "NXentry") (st_classes (v_st v)) = Some d -> NoDup (map fst (d_groups d)) -> dget (py "data") (d_groups d) = Some g -> g_minOccurs g = None ->
  exists f, of_test v' (py "NeXus default plot") = [f] /\ missing_plot (file_has (u_env u) w v' (py "NXentry")) (declared_minimum (u_env u) g) f.
Proof.
  intros u w v fname v' H N3 N2 d g HD ND HG HM. destruct (verdict_final _ _ _ _ _ H) as [f [F PV]]. exists f. split; [exact F|].
  destruct (run_minimum _ _ _ _ _ H d g HD ND HG) as (d' & g' & D' & G' & X).
  destruct PV as [a A|a A B|st A B C]; [contradiction|contradiction|].
  split; [reflexivity|]. split; [reflexivity|]. cbn [f_status].
  assert (ND' : needs_data (st_classes (v_st v')) <-> match g_minOccurs g' with Some z => (0 < z)%Z | None => True end).
  { unfold needs_data. split; [intros (d1 & g1 & X1 & X2 & X3)|intros X3; exists d', g'; auto]. rewrite D' in X1. inversion X1; subst d1. rewrite G' in X2. inversion X2; subst g1. auto. }
  rewrite ND' in C. destruct X as [[FH [z [Z MZ]]]|[FH MZ]].
  - rewrite MZ in C. apply minimum_of in Z. destruct C as [[-> C]|[-> C]]; [right; split; [auto|right; eauto]|left].
    split; auto. split; auto. exists z. split; auto. lia.
  - rewrite MZ, HM in C. destruct C as [[-> _]|[-> C]]; [right; auto|tauto].
Qed.
