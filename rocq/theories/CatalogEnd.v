(** * The catalogue at the end of validate() *)

From Coq Require Import List NArith ZArith Bool String Lia Permutation.
From Verif Require Import PyBase PyFacts Regex Utf8 H5 Findings Nxdl Core Catalog ItemName AttributeCheck
  GroupChecks AppDef DefaultPlot Validate Trace CheckFacts CatalogFacts Spec_Run RunFacts NameRun Spec_Catalog PathFacts CatalogRun AddressFacts.
Import ListNotations.

(** ** Items at the end and after cataloguing *)
Section End.
  Variable u : setup.
  Variable w : world.
  Variable v : validator.
  Variable fname : pystr.
  Variable v' : validator.
  Variable r : res unit.
  Variable f : h5file.
  Hypothesis Hfile : dget fname w = Some (FHdf5 f).
  Hypothesis Hval : validate u w v fname = (v', r).
  Let c := mk_ctx u w fname.

  Lemma listed_in : forall s1 log i it, trace s1 log (v_st v') -> cinv c s1 -> listed v' i it ->
    exists it0, nth_error (st_items s1) i = Some it0 /\ skel it = skel it0.
  Proof.
    intros s1 log i it T HI [Hi [k [l [Hk Hl]]]]. rewrite (tr_cp _ _ _ T) in Hk.
    destruct (ci_cpof _ _ HI _ _ _ Hk Hl) as [it0 [H1 H2]]. exists it0. split; auto.
    destruct (trace_item _ _ _ _ _ T H1) as [it2 [H3 H4]]. congruence.
  Qed.

  Lemma listed_out : forall s1 log i it0, trace s1 log (v_st v') -> cinv c s1 -> nth_error (st_items s1) i = Some it0 ->
    exists it, listed v' i it /\ skel it = skel it0.
  Proof.
    intros s1 log i it0 T HI Hi. destruct (trace_item _ _ _ _ _ T Hi) as [it' [H1 H2]]. exists it'. split; auto. split; auto.
    rewrite (tr_cp _ _ _ T).
    assert (Hin : In i (List.concat (dvals (st_cp s1)))).
    { eapply Permutation_in; [apply Permutation_sym; apply (ci_cpperm _ _ HI)|]. apply in_seq. split; [lia|]. simpl. apply nth_error_Some. congruence. }
    apply in_concat in Hin as [l [Hl Hil]]. unfold dvals in Hl. apply in_map_iff in Hl as [[k l'] [Hkl Hin]].
    simpl in Hkl. subst. eauto.
  Qed.

  Lemma addr_in : forall s1 log a i, trace s1 log (v_st v') -> cinv c s1 -> In (a, i) (st_addr (v_st v')) ->
    exists it, listed v' i it /\ it_addr it = a.
  Proof.
    intros s1 log a i T HI H. rewrite (tr_addr _ _ _ T) in H. destruct (ci_addrof _ _ HI _ _ H) as [it0 [H1 H2]].
    destruct (listed_out _ _ _ _ T HI H1) as [it [L S]]. exists it. split; auto. rewrite (skel_addr _ _ S). auto.
  Qed.

  Lemma addr_all : forall i it, listed v' i it -> In (it_addr it) (map fst (st_addr (v_st v'))).
  Proof.
    intros i it L. destruct (validate_trace _ _ _ _ _ _ _ Hfile Hval) as [s1 [rb [log [Eb [T [HI _]]]]]].
    destruct (listed_in _ _ _ _ T HI L) as [it0 [H1 H2]]. rewrite (skel_addr _ _ H2), (tr_addr _ _ _ T). eapply ci_addrall; eauto.
  Qed.

  Lemma index_agree : forall a i, In (a, i) (st_addr (v_st v')) -> exists it l, nth_error (st_items (v_st v')) i = Some it
    /\ it_addr it = a /\ In (it_cp it, l) (st_cp (v_st v')) /\ In i l.
  Proof.
    intros a i H. destruct (validate_trace _ _ _ _ _ _ _ Hfile Hval) as [s1 [rb [log [Eb [T [HI _]]]]]].
    destruct (addr_in _ _ _ _ T HI H) as [it [L Ha]]. exists it. destruct L as [Hi [k [l [Hk Hl]]]].
    rewrite (tr_cp _ _ _ T) in Hk. destruct (ci_cpof _ _ HI _ _ _ Hk Hl) as [it0 [H1 H2]].
    destruct (trace_item _ _ _ _ _ T H1) as [it2 [H3 H4]]. assert (it2 = it) by congruence. subst it2.
    apply skel_eq in H4 as [_ [_ [_ [_ [H4 _]]]]]. exists l. split; auto. split; auto. rewrite H4, H2, (tr_cp _ _ _ T). auto.
  Qed.

  Lemma classpath_agree : forall k l i, In (k, l) (st_cp (v_st v')) -> In i l ->
    exists it, nth_error (st_items (v_st v')) i = Some it /\ it_cp it = k.
  Proof.
    intros k l i Hk Hl. destruct (validate_trace _ _ _ _ _ _ _ Hfile Hval) as [s1 [rb [log [Eb [T [HI _]]]]]].
    rewrite (tr_cp _ _ _ T) in Hk. destruct (ci_cpof _ _ HI _ _ _ Hk Hl) as [it0 [H1 H2]].
    destruct (trace_item _ _ _ _ _ T H1) as [it2 [H3 H4]]. exists it2. split; auto.
    apply skel_eq in H4 as [_ [_ [_ [_ [H4 _]]]]]. congruence.
  Qed.

  Lemma addr_unique : plain_file f -> distinct_names f -> no_at_names f -> forall i it a, listed v' i it -> it_addr it = Some a ->
    In (Some a, i) (st_addr (v_st v')) /\ forall j jt, listed v' j jt -> it_addr jt = Some a -> j = i.
  Proof.
    intros Hp Hd Hn i it a L Ha. destruct (validate_trace _ _ _ _ _ _ _ Hfile Hval) as [s1 [rb [log [Eb [T [HI _]]]]]].
    pose proof (catalog_unique u w fname f Hfile Hp Hd Hn _ _ _ Eb) as ND.
    assert (U : forall j jt, listed v' j jt -> it_addr jt = Some a -> j = i).
    { intros j jt Lj Hj. destruct (listed_in _ _ _ _ T HI L) as [it0 [H1 H2]]. destruct (listed_in _ _ _ _ T HI Lj) as [jt0 [H3 H4]].
      eapply oaddrs_unique; eauto; [rewrite <- (skel_addr _ _ H4) | rewrite <- (skel_addr _ _ H2)]; eauto. }
    split; auto. pose proof (addr_all _ _ L) as X. rewrite Ha in X. apply in_map_iff in X as [[a' j] [E X]]. simpl in E. subst a'.
    destruct (addr_in _ _ _ _ T HI X) as [jt [Lj Hj]]. rewrite <- (U _ _ Lj Hj). auto.
  Qed.

  (** ** Class paths *)
  Lemma last_not_slash : forall a, a <> slash -> last_part ch_slash a <> slash.
  Proof.
    intros a H E. pose proof (last_component_spec a) as X. destruct (str_eqb_spec a slash) as [Z|Z]; [contradiction|].
    destruct X as [[X _]|[_ [X _]]]; [contradiction|]. apply X. rewrite E. simpl. auto.
  Qed.

  Lemma classpath_child : forall E pcp h name cp nc, determine_NeXus_classpath E w (Some pcp) h name = Ok (cp, nc) -> name <> slash ->
    child_class E (isHdf5Group w h = true) (attrs_of w h) name pcp cp.
  Proof.
    intros E pcp h name cp nc Ed Hn. unfold determine_NeXus_classpath in Ed.
    rewrite (proj2 (str_eqb_neq name slash)) in Ed by auto.
    destruct (str_eqb_spec pcp NON_NEXUS) as [En|En].
    { inversion Ed; subst. apply cc_inherit. auto. }
    destruct (endswith pcp slash) eqn:Es.
    { inversion Ed; subst. apply cc_slash; auto. apply endswith_spec in Es. auto. }
    assert (Hs : ~ ends_with_slash pcp). { intros Z. apply (endswith_spec _ slash) in Z. congruence. }
    destruct (isHdf5Group w h) eqn:Eg.
    - destruct (dget (py "NX_class") (attrs_of w h)) as [v0|] eqn:Ev.
      + destruct (decode_byte_string E v0) as [d|e] eqn:Edec; [|discriminate]. cbn [rbind] in Ed.
        assert (Hno : (forall s0, d <> VStr s0) -> forall cls, ~ nexus_class E (attrs_of w h) cls).
        { intros Hd cls [v1 [t [Z1 [Z2 Z3]]]]. rewrite Ev in Z1. inversion Z1; subst v1. rewrite Edec in Z2. inversion Z2; subst. eapply Hd; eauto. }
        destruct d as [s0| | | | | | | | |]; try (inversion Ed; subst; apply cc_other; auto; apply Hno; intros; discriminate).
        destruct (startswith s0 (py "NX")) eqn:Ex.
        * inversion Ed; subst. apply cc_group; auto. apply startswith_spec in Ex as [t ->]. exists v0, t. auto.
        * inversion Ed; subst. apply cc_other; auto. intros cls [v1 [t [Z1 [Z2 Z3]]]]. rewrite Ev in Z1. inversion Z1; subst v1.
          rewrite Edec in Z2. inversion Z2; subst. discriminate Ex.
      + cbn [rbind] in Ed. inversion Ed; subst. apply cc_other; auto. intros cls [v1 [t [Z1 _]]]. congruence.
    - injection Ed as <- <-. apply cc_field; auto; discriminate.
  Qed.

  Lemma node_class : forall E p pit h it, node_item E w (Some (p, pit)) h = Ok it ->
    (h_name h = slash /\ it_cp it = []) \/
    (h_name h <> slash /\ exists name, it_name it = Some name /\ last_component (h_name h) name /\
       child_class E (isHdf5Group w h = true) (attrs_of w h) name (it_cp pit) (it_cp it)).
  Proof.
    intros E p pit h it H. unfold node_item in H. pose proof (last_component_spec (h_name h)) as LC.
    destruct (str_eqb_spec (h_name h) slash) as [Z|Z]; cbn [option_map snd] in H.
    - left. split; auto. unfold determine_NeXus_classpath in H. change (str_eqb slash slash) with true in H. cbv iota in H. cbn [rbind] in H.
      destruct (identify_object_type _ _ _); [|discriminate]. cbn [rbind] in H. inversion H. reflexivity.
    - right. split; auto. exists (last_part ch_slash (h_name h)).
      destruct (determine_NeXus_classpath _ _ _ _ _) as [[cp nc]|e] eqn:Ed; [|discriminate].
      cbn [rbind] in H. destruct (identify_object_type _ _ _); [|discriminate]. cbn [rbind] in H. inversion H; subst it. simpl.
      split; auto. split; auto. eapply classpath_child; [exact Ed|]. apply last_not_slash. auto.
  Qed.

  Lemma root_class : forall E it, node_item E w None (open_root fname) = Ok it -> it_cp it = [].
  Proof.
    intros E it H. unfold node_item in H. change (str_eqb (h_name (open_root fname)) slash) with true in H. cbv iota in H.
    unfold determine_NeXus_classpath in H. change (str_eqb slash slash) with true in H. cbv iota in H. cbn [rbind] in H.
    destruct (identify_object_type _ _ _); [|discriminate]. cbn [rbind] in H. inversion H. reflexivity.
  Qed.

  Lemma cinv_item_class : forall s, cinv c s -> forall i it, nth_error (st_items s) i = Some it ->
    item_class (u_env u) w (st_items s) it.
  Proof.
    intros s HI i it Hi.
    destruct (ci_origin _ _ HI _ _ Hi) as [H1 H2 H3|p pit hp h name H1 H2 H3 H4 H5 H6|p pit h k v0 H1 H2 H3 H4 H5].
    - pose proof (node_item_spec _ _ _ _ _ H3) as [N1 [N2 [N3 [N4 N5]]]]. eapply ic_root with (file := fname); auto. eapply root_class; eauto.
    - pose proof (node_item_spec _ _ _ _ _ H6) as [N1 [N2 [N3 [N4 N5]]]].
      assert (SF : stands_for (st_items s) p pit hp).
      { destruct H2 as [A1 A2|q qit v0 k A1 A2 A3 A4 A5 A6]; split; auto. right. exists q, qit, v0.
        destruct (attr_item_spec q qit v0 (Some k)) as [B1 [B2 [B3 _]]]. subst pit. auto 10. }
      destruct (node_class _ _ _ _ _ H6) as [[X1 X2]|[X1 [nm [X2 [X3 X4]]]]].
      + eapply ic_other_root; eauto; [split; eauto|]. rewrite N2, X1. reflexivity.
      + eapply ic_object with (p := p) (pit := pit) (g := hp) (n := name); eauto; try (split; assumption).
    - assert (Ha : it_addr pit = Some (h_name h)).
      { destruct (ci_origin _ _ HI _ _ H2) as [_ _ Z|? ? ? ? ? _ _ _ _ _ Z|? ? ? ? ? _ _ _ _ Z].
        - apply node_item_spec in Z as [Z1 [Z2 _]]. rewrite Z1 in H3. inversion H3; subst. auto.
        - apply node_item_spec in Z as [Z1 [Z2 _]]. rewrite Z1 in H3. inversion H3; subst. auto.
        - subst pit. destruct (attr_item_spec p0 pit0 v1 (Some k0)) as [A _]. congruence. }
      subst it. unfold attr_item in *. destruct (str_eqb_spec (it_cp pit) NON_NEXUS) as [En|En].
      + eapply ic_other_attribute with (p := p) (k := k) (val := v0); simpl; eauto.
      + eapply ic_attribute with (p := p) (k := k) (val := v0); simpl; eauto. simpl. rewrite Ha. reflexivity.
  Qed.

  Lemma stands_for_skel : forall s1 log s2 p pit g, trace s1 log s2 -> stands_for (st_items s1) p pit g ->
    exists pit', stands_for (st_items s2) p pit' g /\ it_cp pit' = it_cp pit.
  Proof.
    intros s1 log s2 p pit g T [H1 H2]. destruct (trace_item _ _ _ _ _ T H1) as [pit' [H3 H4]].
    apply skel_eq in H4 as [A1 [A2 [A3 [A4 [A5 A6]]]]]. exists pit'. split; auto. split; auto.
    destruct H2 as [H2|[q [qit [val [B1 [B2 [B3 [B4 B5]]]]]]]]; [left; congruence|right].
    destruct (trace_item _ _ _ _ _ T B1) as [qit' [H5 H6]]. apply skel_eq in H6 as [C1 [C2 [C3 [C4 [C5 C6]]]]].
    exists q, qit', val. repeat split; congruence.
  Qed.

  Lemma item_class_skel : forall E s1 log s2 it it', trace s1 log s2 -> item_class E w (st_items s1) it -> skel it' = skel it ->
    item_class E w (st_items s2) it'.
  Proof.
    intros E s1 log s2 it it' T H S. apply skel_eq in S as [A1 [A2 [A3 [A4 [A5 A6]]]]].
    destruct H as [file H1 H2 H3 H4|p pit g n h name H1 H2 H3 H4 H5 H6 H7 H8|p pit g n h H1 H2 H3 H4 H5 H6 H7|p pit h k val H1 H2 H3 H4 H5 H6 H7 H8 H9|p pit h k val H1 H2 H3 H4 H5 H6 H7 H8 H9].
    - eapply ic_root with (file := file); congruence.
    - destruct (stands_for_skel _ _ _ _ _ _ T H2) as [pit' [B1 B2]]. eapply ic_object; try eassumption; try congruence.
    - destruct (stands_for_skel _ _ _ _ _ _ T H2) as [pit' [B1 B2]]. eapply ic_other_root; try eassumption; congruence.
    - destruct (trace_item _ _ _ _ _ T H2) as [qit' [B1 B2]]. apply skel_eq in B2 as [C1 [C2 [C3 [C4 [C5 C6]]]]].
      eapply ic_attribute; try eassumption; congruence.
    - destruct (trace_item _ _ _ _ _ T H2) as [qit' [B1 B2]]. apply skel_eq in B2 as [C1 [C2 [C3 [C4 [C5 C6]]]]].
      eapply ic_other_attribute; try eassumption; congruence.
  Qed.

  Lemma final_item_class : forall i it, listed v' i it -> item_class (u_env u) w (st_items (v_st v')) it.
  Proof.
    intros i it L. destruct (validate_trace _ _ _ _ _ _ _ Hfile Hval) as [s1 [rb [log [Eb [T [HI _]]]]]].
    destruct (listed_in _ _ _ _ T HI L) as [it0 [H1 H2]]. eapply item_class_skel; eauto. eapply cinv_item_class; eauto.
  Qed.

  (** ** Groups *)
  Lemma cinv_group_class : forall s, cinv c s -> forall i it h, nth_error (st_items s) i = Some it -> it_obj it = ONode h ->
    (isHdf5Group w h = true \/ h = open_root fname) -> kept_name (it_cp it).
  Proof.
    intros s HI. induction i as [i IH] using lt_wf_ind. intros it h Hi Ho Hg.
    destruct (ci_origin _ _ HI _ _ Hi) as [H1 H2 H3|p pit hp h' name H1 H2 H3 H4 H5 H6|p pit h' k v0 H1 H2 H3 H4 H5].
    - left. eapply root_class; eauto.
    - pose proof (node_item_spec _ _ _ _ _ H6) as [N1 _]. rewrite N1 in Ho. inversion Ho; subst h'.
      destruct Hg as [Hg|Hg]; [|subst h; apply getitem_notfile in H5; discriminate].
      assert (K : kept_name (it_cp pit)).
      { destruct H2 as [A1 A2|q qit v0 k A1 A2 A3 A4 A5 A6].
        - eapply IH; eauto. destruct H3; [right|left]; auto.
        - right. right. subst pit. unfold attr_item. rewrite A5, str_eqb_refl. reflexivity. }
      destruct (node_class _ _ _ _ _ H6) as [[X1 X2]|[X1 [nm [X2 [X3 X4]]]]]; [left; auto|].
      destruct X4 as [Z|cls Z1 Z2 Z3 [v0 [t [Z4 [Z5 Z6]]]]|Z1 Z2 Z3 Z4|Z1 Z2 Z3|Z1 Z2].
      + right. right. auto.
      + right. left. destruct K as [K|[[t' K]|K]]; [| |contradiction].
        * exists t. rewrite K, Z6. reflexivity.
        * exists (t' ++ 47%N :: cls). rewrite K, <- app_assoc. reflexivity.
      + right. right. auto.
      + contradiction.
      + auto.
    - subst it. destruct (attr_item_spec p pit v0 (Some k)) as [A _]. congruence.
  Qed.

  Lemma final_group_class : forall i it h, listed v' i it -> it_obj it = ONode h -> (isHdf5Group w h = true \/ h = open_root fname) -> kept_name (it_cp it).
  Proof.
    intros i it h L Ho Hg. destruct (validate_trace _ _ _ _ _ _ _ Hfile Hval) as [s1 [rb [log [Eb [T [HI _]]]]]].
    destruct (listed_in _ _ _ _ T HI L) as [it0 [H1 H2]]. apply skel_eq in H2 as [A1 [A2 [A3 [A4 [A5 A6]]]]].
    rewrite A5. eapply cinv_group_class; eauto. congruence.
  Qed.

  Lemma catalogued_ok : forall s1 rb, build_address_catalog c (fresh_state (st_classes (v_st v))) = (s1, rb) -> catalogued v' r -> rb = Ok tt.
  Proof.
    intros s1 rb Eb H. destruct (validate_trace _ _ _ _ _ _ _ Hfile Hval) as [s1' [rb' [log [Eb' [T [HI [He [Hr Hf]]]]]]]].
    fold c in Eb'. rewrite Eb in Eb'. inversion Eb'; subst s1' rb'. destruct rb as [[]|e]; auto. destruct (He e eq_refl) as [X1 X2].
    destruct H as [H|H]; [congruence|]. rewrite X2 in H. contradiction.
  Qed.

  (** ** Paths *)
  Hypothesis Hplain : plain_file f.

  Lemma keys_sound : forall a i, In (Some a, i) (st_addr (v_st v')) ->
    exists it p o, nth_error (st_items (v_st v')) i = Some it /\ it_addr it = Some a /\ leads f 0 p o /\ Forall link_name p /\
    ((exists h, it_obj it = ONode h /\ h_file h = fname /\ h_oid h = o /\ a = path_text p) \/
     (exists k val, it_obj it = OVal val /\ In (k, val) (attributes f o) /\ a = path_text p ++ 64%N :: k)).
  Proof.
    intros a i H. destruct (validate_trace _ _ _ _ _ _ _ Hfile Hval) as [s1 [rb [log [Eb [T [HI _]]]]]].
    destruct (addr_in _ _ _ _ T HI H) as [it [L Ha]]. destruct (listed_in _ _ _ _ T HI L) as [it0 [H1 H2]].
    apply skel_eq in H2 as [A1 [A2 [A3 [A4 [A5 A6]]]]].
    exists it. destruct (it_obj it) as [h|val] eqn:Eo.
    - destruct (catalog_paths u w fname f Hfile Hplain _ HI _ _ h H1) as [p [P1 [P2 [P3 [P4 [P5 _]]]]]]; [congruence|].
      exists p, (h_oid h). split; [apply L|]. split; auto. split; auto. split; auto. left. exists h. split; auto. split; auto. split; auto. congruence.
    - destruct (proj2 (cinv_sound _ _ HI _ _ H1) val) as [p [pit [h [k [B1 [B2 [B3 [B4 B5]]]]]]]]; [congruence|].
      destruct (catalog_paths u w fname f Hfile Hplain _ HI _ _ h B1 B2) as [q [P1 [P2 [P3 [P4 [P5 _]]]]]].
      exists q, (h_oid h). split; [apply L|]. split; auto. split; auto. split; auto. right. exists k, val. split; auto.
      rewrite <- (attrs_attributes w fname f Hfile _ P1). split; auto.
      rewrite Ha in A4. subst it0. unfold attr_item in A4. destruct (str_eqb (it_cp pit) NON_NEXUS); simpl in A4; [discriminate|].
      rewrite P5 in A4. injection A4 as ->. reflexivity.
  Qed.

  Lemma paths_catalogued : catalogued v' r -> forall p o, leads f 0 p o ->
    exists i it h, listed v' i it /\ it_obj it = ONode h /\ h_oid h = o /\ h_file h = fname /\ it_addr it = Some (path_text p)
      /\ In (Some (path_text p)) (map fst (st_addr (v_st v')))
      /\ forall k val, In (k, val) (attributes f o) -> exists j jt, listed v' j jt /\ it_obj jt = OVal val /\ it_parent jt = Some i /\ it_name jt = Some k.
  Proof.
    intros Hc p o Hp. destruct (validate_trace _ _ _ _ _ _ _ Hfile Hval) as [s1 [rb [log [Eb [T [HI [He [Hr Hf]]]]]]]].
    pose proof (catalogued_ok _ _ Eb Hc) as ->.
    destruct (path_below w fname f Hfile Hplain) with (p := p) (o := o) as [h [B1 [B2 [B3 [B4 B5]]]]]; auto.
    { intros h name Hb Hin. unfold build_address_catalog in Eb. eapply (catalog_total _ c); eauto. }
    destruct (build_spec _ _ _ _ Eb) as [_ [_ X]]. destruct (X eq_refl h B1) as [i [it0 [R1 [R2 R3]]]].
    destruct (listed_out _ _ _ _ T HI R1) as [it [L S]]. pose proof S as S'. apply skel_eq in S' as [A1 [A2 [A3 [A4 [A5 A6]]]]].
    destruct (catalog_paths u w fname f Hfile Hplain _ HI _ _ h R1 R2) as [q [P1 [P2 [P3 [P4 [P5 _]]]]]].
    assert (Ha : it_addr it = Some (path_text p)) by congruence.
    exists i, it, h. split; auto. split; [congruence|]. split; auto. split; auto. split; auto. split; [rewrite <- Ha; eapply addr_all; eauto|].
    intros k val Hk. destruct (R3 k val) as [j Hj].
    { assert (Z : In (k, val) (attrs_of w h)) by (rewrite (attrs_attributes w fname f Hfile _ P1), B2; auto). exact Z. }
    destruct (listed_out _ _ _ _ T HI Hj) as [jt [Lj Sj]]. apply skel_eq in Sj as [C1 [C2 [C3 [C4 [C5 C6]]]]].
    destruct (attr_item_spec i it0 val (Some k)) as [D1 [D2 [D3 [D4 D5]]]]. exists j, jt. split; auto. split; [congruence|]. split; congruence.
  Qed.

  Lemma final_class_path : forall i it h, listed v' i it -> it_obj it = ONode h ->
    exists p, it_addr it = Some (path_text p) /\ Forall link_name p /\ leads f 0 p (h_oid h) /\ class_path (u_env u) f p (it_cp it).
  Proof.
    intros i it h L Ho. destruct (validate_trace _ _ _ _ _ _ _ Hfile Hval) as [s1 [rb [log [Eb [T [HI _]]]]]].
    destruct (listed_in _ _ _ _ T HI L) as [it0 [H1 H2]]. apply skel_eq in H2 as [A1 [A2 [A3 [A4 [A5 A6]]]]].
    destruct (catalog_paths u w fname f Hfile Hplain _ HI _ _ h H1) as [q [P1 [P2 [P3 [P4 [P5 [P6 [P7 [P8 P9]]]]]]]]]; [congruence|].
    exists q. split; [congruence|]. split; auto. split; auto. rewrite A5. auto.
  Qed.

  Lemma child_class_fun : forall E grp attrs n pcp a b, child_class E grp attrs n pcp a -> child_class E grp attrs n pcp b -> a = b.
  Proof.
    intros E grp attrs n pcp a b Ha Hb.
    destruct Ha as [A1|cls A1 A2 A3 A4|A1 A2 A3 A4|A1 A2 A3|A1 A2]; destruct Hb as [B1|cls' B1 B2 B3 B4|B1 B2 B3 B4|B1 B2 B3|B1 B2];
      try reflexivity; try contradiction.
    - destruct A4 as [v1 [t1 [Z1 [Z2 Z3]]]], B4 as [v2 [t2 [Y1 [Y2 Y3]]]]. congruence.
    - exfalso. eapply B4; eauto.
    - exfalso. eapply A4; eauto.
  Qed.

  Lemma class_path_fun : forall E p a, class_path E f p a -> forall b, class_path E f p b -> a = b.
  Proof.
    intros E p a H. induction H as [|p pcp n o cp H1 IH H2 H3]; intros b Hb.
    - inversion Hb as [|p' ? ? ? ? _ _ _ E0]; auto. apply app_eq_nil in E0 as [_ E0]. discriminate.
    - inversion Hb as [E0|p' pcp' n' o' cp' K1 K2 K3 E0]; [exfalso; symmetry in E0; apply app_eq_nil in E0 as [_ E0]; discriminate|].
      apply app_inj_tail in E0 as [-> ->]. subst cp'. pose proof (IH _ K1) as ->. pose proof (leads_fun _ _ _ _ H2 _ K2) as ->.
      eapply child_class_fun; eauto.
  Qed.

  Lemma non_nexus_below : forall E p, class_path E f p non_nexus -> forall q cp, class_path E f (p ++ q) cp -> cp = non_nexus.
  Proof.
    intros E p Hp q. induction q as [|n q IH] using rev_ind; intros cp H.
    - rewrite app_nil_r in H. eapply class_path_fun; eauto.
    - rewrite app_assoc in H. inversion H as [E0|p' pcp' n' o' cp' K1 K2 K3 E0]; [exfalso; symmetry in E0; apply app_eq_nil in E0 as [_ E0]; discriminate|].
      apply app_inj_tail in E0 as [-> ->]. apply IH in K1. subst. inversion K3; auto; contradiction.
  Qed.

  Lemma final_non_nexus : forall i it h p, listed v' i it -> it_obj it = ONode h -> Forall link_name p -> it_addr it = Some (path_text p) -> it_cp it = non_nexus ->
    forall j jt h' q, listed v' j jt -> it_obj jt = ONode h' -> Forall link_name (p ++ q) -> it_addr jt = Some (path_text (p ++ q)) ->
    it_cp jt = non_nexus /\ forall k kt, listed v' k kt -> it_parent kt = Some j -> (exists val, it_obj kt = OVal val) -> it_cp kt = non_nexus /\ it_addr kt = None.
  Proof.
    intros i it h p L Ho Hp Ha Hc j jt h' q Lj Hj Hq Hb.
    assert (E : it_cp jt = non_nexus).
    { destruct (final_class_path _ _ _ L Ho) as [p1 [P1 [P2 [P3 P4]]]]. destruct (final_class_path _ _ _ Lj Hj) as [p2 [Q1 [Q2 [Q3 Q4]]]].
      assert (p1 = p) by (apply path_text_inj; auto; congruence). assert (p2 = p ++ q) by (apply path_text_inj; auto; congruence). subst.
      rewrite Hc in P4. eapply non_nexus_below; eauto. }
    split; auto. intros k kt Lk Hk [val Hv].
    destruct (final_item_class _ _ Lk) as [file H1 H2 H3 H4|p0 pit g n h0 name H1 H2 H3 H4 H5 H6 H7 H8|p0 pit g n h0 H1 H2 H3 H4 H5 H6 H7|p0 pit h0 k0 val0 H1 H2 H3 H4 H5 H6 H7 H8 H9|p0 pit h0 k0 val0 H1 H2 H3 H4 H5 H6 H7 H8 H9]; try congruence; auto.
    exfalso. assert (p0 = j) by congruence. subst p0. destruct Lj as [X _]. assert (pit = jt) by congruence. congruence.
  Qed.
End End.
