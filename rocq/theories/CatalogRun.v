(** * The catalogue of a validation *)

From Coq Require Import List NArith ZArith Bool String Lia Permutation.
From Verif Require Import PyBase PyFacts Regex Utf8 H5 Findings Nxdl Core Catalog ItemName AttributeCheck
  GroupChecks AppDef DefaultPlot Validate Trace CheckFacts CatalogFacts Spec_Run Spec_Catalog PathFacts.
Import ListNotations.

(** ** From cataloguing to the end *)
Lemma steps_trace : forall c s, exists log, trace s log (fst ((step1 c ;;; step2 c ;;; step3 c ;;; default_plot_verify c) s)).
Proof.
  intros c s.
  assert (H : logs c (fun _ => True) (step1 c ;;; step2 c ;;; step3 c ;;; default_plot_verify c)).
  { apply logs_bind; [|intros; apply logs_bind; [|intros; apply logs_bind; [|intros]]].
    - unfold step1. apply logs_bind; [apply logs_get|intros]. eapply logs_weaken; [|apply step1_logs]. auto.
    - unfold step2. apply logs_bind; [apply logs_get|intros]. eapply logs_weaken; [|apply step2_logs]. auto.
    - unfold step3. apply logs_bind; [apply logs_get|intros]. eapply logs_weaken; [|apply step3_logs]. auto.
    - eapply logs_weaken; [|apply default_plot_verify_logs]. auto. }
  destruct (H s) as [log [T _]]. eauto.
Qed.

Lemma validate_trace : forall u w v fname v' r f, dget fname w = Some (FHdf5 f) -> validate u w v fname = (v', r) ->
  exists s1 rb log, build_address_catalog (mk_ctx u w fname) (fresh_state (st_classes (v_st v))) = (s1, rb)
    /\ trace s1 log (v_st v') /\ cinv (mk_ctx u w fname) s1
    /\ (forall e, rb = Exn e -> r = Exn e /\ v_st v' = s1) /\ (r = Ok tt -> rb = Ok tt)
    /\ st_find s1 = [].
Proof.
  intros u w v fname v' r f Hf H. unfold validate in H. rewrite Hf in H.
  set (c := mk_ctx u w fname) in *. set (s0 := fresh_state (st_classes (v_st v))) in *.
  destruct (validate_open c s0) as [s r'] eqn:E. inversion H; subst; clear H. simpl.
  unfold validate_open in E. unfold bind at 1 in E.
  destruct (build_address_catalog c s0) as [s1 rb] eqn:Eb. pose proof (build_spec _ _ _ _ Eb) as [HI [HG _]].
  assert (Hfind : st_find s1 = []) by apply HG.
  destruct rb as [u0|e].
  - destruct (steps_trace c s1) as [log T]. exists s1, (Ok u0), log.
    rewrite E in T. split; auto. split; auto. split; auto. split; [discriminate|]. split; auto. destruct u0; auto.
  - inversion E; subst. exists s, (Exn e), []. split; auto. split; [apply trace_nil|].
    split; [assumption|]. split; [|split; [discriminate|assumption]].
    intros e' X. inversion X; subst. auto.
Qed.

(** ** Every member can be opened when cataloguing completes *)
Lemma catalog_total : forall n c parent group s s', group_address_catalog n c parent group s = (s', Ok tt) ->
  forall h name, below (c_world c) group h -> In name (dkeys (links_of (c_world c) h)) ->
  exists h', getitem (c_world c) h name = Ok h'.
Proof.
  induction n as [|n IH]; intros c parent group s s' H h name Hb Hin; [inversion H|].
  rewrite catalog_unfold in H.
  apply bind_ok in H as [i [s1 [_ H]]]. apply bind_ok in H as [it [s2 [_ H]]]. apply bind_ok in H as [p [s3 [_ H]]].
  assert (L : forall l s s', for_each (step_member n c group p) l s = (s', Ok tt) -> forall nm, In nm l ->
     exists h1 sa sb, getitem (c_world c) group nm = Ok h1 /\ step_member n c group p nm sa = (sb, Ok tt)).
  { induction l as [|x l IHl]; intros sa sb Hl nm Hnm; [destruct Hnm|].
    cbn [for_each] in Hl. apply bind_ok in Hl as [[] [sc [Hx Hl]]]. destruct Hnm as [->|Hnm].
    - pose proof Hx as Hx'. unfold step_member in Hx. apply bind_ok in Hx as [h1 [sd [He _]]]. apply lift_ok in He as [_ He]. eauto 10.
    - eapply IHl; eauto. }
  inversion Hb as [x|g nm h1 h2 Hin1 Hget1 Hb1]; subst.
  - destruct (L _ _ _ H _ Hin) as [h1 [_ [_ [X _]]]]. eauto.
  - destruct (L _ _ _ H _ Hin1) as [h1' [sa [sb [X Hs]]]]. rewrite Hget1 in X. inversion X; subst h1'.
    unfold step_member in Hs. apply bind_ok in Hs as [h1' [sd [He Hs]]]. apply lift_ok in He as [_ He].
    rewrite Hget1 in He. inversion He; subst h1'.
    destruct (isHdf5Group (c_world c) h1) eqn:Eg.
    + eapply IH; eauto.
    + apply below_nongroup in Hb1; auto; [|eapply getitem_notfile; eauto]. subst h.
      exfalso. clear -Eg Hin Hget1. unfold isHdf5Group in Eg. rewrite (getitem_notfile _ _ _ _ Hget1) in Eg.
      rewrite andb_true_r in Eg. unfold is_group_obj, links_of in *. destruct (obj_of (c_world c) h1) as [o|]; [|inversion Hin].
      destruct (ob_kind o); [discriminate|inversion Hin|inversion Hin].
Qed.

(** ** Paths and class paths *)
Section Paths.
  Variable u : setup.
  Variable w : world.
  Variable fname : pystr.
  Variable f : h5file.
  Hypothesis Hfile : dget fname w = Some (FHdf5 f).
  Hypothesis Hplain : plain_file f.
  Let c := mk_ctx u w fname.

  Lemma catalog_paths : forall s, cinv c s -> forall i it h, nth_error (st_items s) i = Some it -> it_obj it = ONode h ->
    exists p, h_file h = fname /\ Forall link_name p /\ leads f 0 p (h_oid h) /\ h_name h = path_text p
      /\ it_addr it = Some (path_text p) /\ (p = [] <-> i = 0) /\ (i = 0 -> h = open_root fname) /\ (i <> 0 -> h_isfile h = false)
      /\ class_path (u_env u) f p (it_cp it).
  Proof.
    intros s HI. induction i as [i IH] using lt_wf_ind. intros it h Hi Ho.
    destruct (ci_origin _ _ HI _ _ Hi) as [H1 H2 H3|p pit hp h' name H1 H2 H3 H4 H5 H6|p pit h' k v H1 H2 H3 H4 H5].
    - pose proof (node_item_spec _ _ _ _ _ H3) as [N1 [N2 [N3 [N4 N5]]]]. rewrite N1 in Ho. inversion Ho; subst h.
      exists []. split; auto. split; auto. split; [constructor|]. split; auto. split; auto. split; [tauto|]. split; auto. split; [tauto|].
      unfold node_item in H3. change (str_eqb (h_name (c_root c)) slash) with true in H3. cbv iota in H3.
      change (determine_NeXus_classpath (c_env c) (c_world c) (option_map (fun p : nat * vitem => it_cp (snd p)) None) (c_root c) slash)
        with (Ok (A := pystr * option pystr) ([], None)) in H3. cbn [rbind] in H3.
      destruct (identify_object_type _ _ _); [|discriminate H3]. cbn [rbind] in H3. inversion H3. simpl. constructor.
    - pose proof (node_item_spec _ _ _ _ _ H6) as [N1 [N2 [N3 [N4 N5]]]]. rewrite N1 in Ho. inversion Ho; subst h'.
      assert (Hcar : exists q qit, q < i /\ nth_error (st_items s) q = Some qit /\ it_obj qit = ONode hp /\ it_cp qit = it_cp pit).
      { destruct H2 as [A1 A2|q qit v k A1 A2 A3 A4 A5 A6]; [exists p, pit; auto|].
        exists q, qit. split; [lia|]. split; auto. split; auto. subst pit. unfold attr_item. rewrite A5, str_eqb_refl. reflexivity. }
      destruct Hcar as [q [qit [Q1 [Q2 [Q3 Q4]]]]].
      destruct (IH q Q1 _ _ Q2 Q3) as [pp [P1 [P2 [P3 [P4 [P5 [P6 [P7 [P8 P9]]]]]]]]].
      assert (Hn : link_name name).
      { change (c_world c) with w in H4. rewrite (links_members w fname f Hfile _ P1) in H4. unfold dkeys in H4.
        apply in_map_iff in H4 as [[n l] [<- H4]]. apply Hplain in H4. tauto. }
      destruct (getitem_member w fname f Hfile Hplain _ _ _ P1 Hn H5) as [G1 [G2 [G3 G4]]].
      assert (Hlead : leads f 0 (pp ++ [name]) (h_oid h)) by (apply leads_app; eauto).
      assert (Htext : h_name h = path_text (pp ++ [name])) by (rewrite G3, P4; apply path_text_snoc; auto).
      exists (pp ++ [name]). split; auto. split; [apply Forall_app; auto|]. split; auto. split; auto.
      split; [congruence|]. split.
      { split; intros E; [apply app_eq_nil in E as [_ E]; discriminate | lia]. }
      split; [lia|]. split; auto.
      econstructor; [exact P9 | exact Hlead |]. rewrite Q4.
      (* the class path of a member *)
      assert (Hlast : (if str_eqb (h_name h) slash then slash else last_part ch_slash (h_name h)) = name).
      { rewrite G3. unfold child_path. destruct (str_eqb (h_name hp) slash) eqn:E1.
        - assert (X : str_eqb (slash ++ name) slash = false). { apply str_eqb_neq. destruct Hn as [Y _]. destruct name; [congruence|discriminate]. }
          rewrite X. apply (last_part_app ch_slash [] name). apply Hn.
        - assert (X : str_eqb (h_name hp ++ slash ++ name) slash = false).
          { apply str_eqb_neq. intros X. apply (f_equal (@List.length N)) in X. rewrite !app_length in X. simpl in X.
            destruct Hn as [Y _]. destruct name; [congruence|]. simpl in X. lia. }
          rewrite X. apply last_part_app. apply Hn. }
      unfold node_item in H6. rewrite Hlast in H6.
      destruct (determine_NeXus_classpath _ _ _ _ _) as [[cp nc]|e] eqn:Ed; [|discriminate].
      cbn [rbind] in H6. destruct (identify_object_type _ _ _); [|discriminate]. inversion H6; subst it. simpl.
      unfold determine_NeXus_classpath in Ed.
      assert (X : str_eqb name slash = false). { apply str_eqb_neq. intros ->. destruct Hn as [_ [Y _]]. apply Y. simpl. auto. }
      rewrite X in Ed. cbn [option_map snd] in Ed.
      destruct (str_eqb_spec (it_cp pit) NON_NEXUS) as [En|En].
      { inversion Ed; subst. apply cc_inherit. auto. }
      destruct (endswith (it_cp pit) slash) eqn:Es.
      { inversion Ed; subst. apply cc_slash; auto. apply endswith_spec in Es. auto. }
      assert (Hs : ~ ends_with_slash (it_cp pit)).
      { intros Z. apply (endswith_spec _ slash) in Z. congruence. }
      change (c_world c) with w in Ed. change (c_env c) with (u_env u) in Ed.
      destruct (isHdf5Group w h) eqn:Eg.
      + assert (Hg : is_group f (h_oid h)) by (apply (group_is w fname f Hfile); auto).
        rewrite (attrs_attributes w fname f Hfile _ G1) in Ed.
        destruct (dget (py "NX_class") (attributes f (h_oid h))) as [v|] eqn:Ev.
        * destruct (decode_byte_string (u_env u) v) as [d|e] eqn:Edec; [|discriminate]. cbn [rbind] in Ed.
          assert (Hno : (forall s0, d <> VStr s0) -> forall cls, ~ nexus_class (u_env u) (attributes f (h_oid h)) cls).
          { intros Hd cls [v' [t [Z1 [Z2 Z3]]]]. rewrite Ev in Z1. inversion Z1; subst v'. rewrite Edec in Z2. inversion Z2; subst. eapply Hd; eauto. }
          destruct d as [s0| | | | | | | | |]; try (inversion Ed; subst; apply cc_other; auto; apply Hno; intros; discriminate).
          destruct (startswith s0 (py "NX")) eqn:Ex.
          -- inversion Ed; subst. apply cc_group; auto. apply startswith_spec in Ex as [t ->]. exists v, t. auto.
          -- inversion Ed; subst. apply cc_other; auto. intros cls [v' [t [Z1 [Z2 Z3]]]]. rewrite Ev in Z1. inversion Z1; subst v'.
             rewrite Edec in Z2. inversion Z2; subst. discriminate Ex.
        * cbn [rbind] in Ed. inversion Ed; subst. apply cc_other; auto.
          intros cls [v' [t [Z1 _]]]. congruence.
      + injection Ed as <- <-. apply cc_field; auto. intros Hg. apply (group_is w fname f Hfile h G1 G4) in Hg. congruence.
    - subst it. destruct (attr_item_spec p pit v (Some k)) as [A _]. congruence.
  Qed.
End Paths.
