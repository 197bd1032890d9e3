(** * Application definitions: the run *)

From Coq Require Import List NArith ZArith Bool String Lia Permutation.
From Verif Require Import PyBase PyFacts Regex Utf8 H5 Findings Nxdl Core Catalog ItemName AttributeCheck
  GroupChecks AppDef DefaultPlot Validate Trace CheckFacts CatalogFacts PathFacts PresenceFacts Spec_Run Spec_Catalog Spec_Attributes RunFacts AddrRecord AttrRun GroupRun GroupEnd Spec_AppDef Spec_Plot AppFacts.
Import ListNotations.

Lemma strip_known : forall cl cl' name d, strip_classes cl = strip_classes cl' -> dget name cl = Some d ->
  exists d', dget name cl' = Some d' /\ d_category d' = d_category d /\
    forall k entry rest, d_groups d = (k, entry) :: rest -> exists entry' rest', d_groups d' = (k, entry') :: rest' /\ g_fields entry' = g_fields entry.
Proof.
  intros cl cl' name d H Hd. pose proof (strip_get _ _ name H) as E. rewrite Hd in E. destruct (dget name cl') as [d'|]; [|discriminate]. exists d'. split; auto.
  simpl in E. assert (E' : strip_def d = strip_def d') by congruence. split; [symmetry; apply (strip_def_eq _ _ E')|].
  assert (G : map (fun ng => (fst ng, strip_group (snd ng))) (d_groups d) = map (fun ng => (fst ng, strip_group (snd ng))) (d_groups d')) by (apply (f_equal d_groups) in E'; exact E').
  intros k entry rest Hg. rewrite Hg in G. destruct (d_groups d') as [|[k' entry'] rest']; [discriminate|]. cbn [map fst snd] in G.
  assert (G1 : k = k') by congruence. assert (G2 : strip_group entry = strip_group entry') by congruence. subst k'. exists entry', rest'. split; auto.
  destruct entry, entry'; simpl in *. congruence.
Qed.

Lemma strip_unknown : forall cl cl' name, strip_classes cl = strip_classes cl' -> dget name cl = None -> dget name cl' = None.
Proof. intros cl cl' name H Hd. pose proof (strip_get _ _ name H) as E. rewrite Hd in E. destruct (dget name cl'); [discriminate|auto]. Qed.

Lemma field_report_skel : forall E w mo ad it it' h ns l, skel it = skel it' -> field_report E w mo ad it h ns l -> field_report E w mo ad it' h ns l.
Proof.
  intros E w mo ad it it' h ns l S [fh [f [e [H1 [H2 [H3 H4]]]]]]. exists fh, f, e. split; auto. split; auto. unfold field_finding, missing_address in *.
  apply skel_eq in S as [_ [_ [_ [S1 [S2 _]]]]]. rewrite <- S1, <- S2. auto.
Qed.

Lemma definition_report_same : forall E w mo cl cl' it it' fs, strip_classes cl = strip_classes cl' -> skel it = skel it' ->
  definition_report E w mo cl it fs -> definition_report E w mo cl' it' fs.
Proof.
  intros E w mo cl cl' it it' fs HC S H. pose proof (skel_eq _ _ S) as [_ [S0 [_ [S1 _]]]]. destruct H as [h name H1 H2 H3|h name d k entry rest st cm fss H1 H2 H3 H4 H5 H6].
  - rewrite S1. eapply dr_unknown; eauto; [congruence|]. eapply strip_unknown; eauto.
  - destruct (strip_known _ _ _ _ HC H3) as [d' [D1 [D2 D3]]]. destruct (D3 _ _ _ H4) as [entry' [rest' [D4 D5]]].
    rewrite S1. eapply dr_known; eauto; [congruence|rewrite D2; auto|]. rewrite D5. clear - H6 S.
    induction H6; constructor; auto. eapply field_report_skel; eauto.
Qed.

Definition app_tests : list pystr := [definition_test; py "NXDL field"; py "NXDL field enumerations"].

Lemma Forall2_imp : forall A B (P Q : A -> B -> Prop) l m, (forall x y, P x y -> Q x y) -> Forall2 P l m -> Forall2 Q l m.
Proof. induction 2; constructor; auto. Qed.

Section Run.
  Variables (u : setup) (w : world) (v : validator) (fname : pystr) (v' : validator).
  Hypothesis Hrun : validate u w v fname = (v', Ok tt).

  Lemma definitions_run_of : forall s1 s2 s3 s4 l1 l2 l3 l4, run_ok (mk_ctx u w fname) (st_classes (v_st v)) s1 s2 s3 s4 (v_st v') l1 l2 l3 l4 ->
    exists fss, Forall2 (fun i fs => exists pit, found_in v' i pit /\ definition_report (u_env u) w (u_field_minOccurs u) (st_classes (v_st v)) pit fs) (definition_items v') fss
      /\ recs l3 = List.concat fss.
  Proof.
    intros s1 s2 s3 s4 l1 l2 l3 l4 R. set (c := mk_ctx u w fname) in *.
    pose proof (ro_t1 _ _ _ _ _ _ _ _ _ _ _ R) as T1. pose proof (ro_t2 _ _ _ _ _ _ _ _ _ _ _ R) as T2. pose proof (ro_t3 _ _ _ _ _ _ _ _ _ _ _ R) as T3. pose proof (ro_t4 _ _ _ _ _ _ _ _ _ _ _ R) as T4.
    assert (X3 : ext s3 (v_st v')) by (eapply ext_trans; [exists l3; exact T3|exists l4; exact T4]).
    assert (C3 : strip_classes (st_classes s3) = strip_classes (st_classes (v_st v))).
    { rewrite (proj2 (ro_r2 _ _ _ _ _ _ _ _ _ _ _ R)), (proj2 (ro_r1 _ _ _ _ _ _ _ _ _ _ _ R)), (ro_cl _ _ _ _ _ _ _ _ _ _ _ R). reflexivity. }
    set (I := fun s => ext s3 s /\ st_classes s = st_classes s3).
    set (Q := fun i fs => exists it p pit, nth_error (st_items s3) i = Some it /\ it_parent it = Some p /\ nth_error (st_items s3) p = Some pit /\ definition_report (c_env c) (c_world c) (c_field_minOccurs c) (st_classes (v_st v)) pit fs).
    assert (STEP : forall i t1 t2 u0, In i (definitions_of s3) -> I t1 -> check_definition c i t1 = (t2, Ok u0) -> I t2 /\ exists fs, rec_run t1 fs t2 /\ Q i fs).
    { intros i t1 t2 u0 Hin [XI CI] H. unfold check_definition in H. apply bind_ok in H as [it [t3 [H0 H]]]. apply item_ok in H0 as [-> H0].
      destruct (it_parent it) as [p|] eqn:Ep; [|discriminate]. destruct (nth_error (st_items t1) p) as [pit|] eqn:Epi.
      - destruct (verify_run _ _ _ _ _ _ Epi H) as [C [fs [RR DR]]]. split; [split; [eapply ext_trans; [exact XI|exact (rec_run_ext _ _ _ RR)]|congruence]|].
        exists fs. split; auto.
        assert (B : forall j jt, (j = i \/ j = p) -> nth_error (st_items t1) j = Some jt -> exists jt0, nth_error (st_items s3) j = Some jt0 /\ skel jt = skel jt0).
        { intros j jt Hj Hjt. assert (L : exists jt0, nth_error (st_items s3) j = Some jt0).
          { assert (XS : ext s1 s3) by (eapply ext_trans; [exists l1; exact T1|exists l2; exact T2]).
            assert (Li : exists it0, nth_error (st_items s1) i = Some it0).
            { unfold definitions_of in Hin. apply in_flat_map in Hin as [k [_ Hk]]. destruct (dget k (st_cp s3)) as [l|] eqn:Ek; [|destruct Hk]. apply dget_In in Ek.
              rewrite (tr_cp _ _ _ T2), (tr_cp _ _ _ T1) in Ek. destruct (ci_cpof _ _ (ro_inv _ _ _ _ _ _ _ _ _ _ _ R) _ _ _ Ek Hk) as [it0 [Z _]]. eauto. }
            destruct Li as [it0 Li]. destruct (ext_item _ _ _ _ (ext_trans _ _ _ XS XI) Li) as [it0' [Z1 Z2]]. assert (it0' = it) by congruence. subst it0'.
            apply skel_eq in Z2 as [Zp _]. assert (Lp : exists pit0, nth_error (st_items s1) p = Some pit0).
            { destruct (ci_origin _ _ (ro_inv _ _ _ _ _ _ _ _ _ _ _ R) _ _ Li) as [Y1 Y2 Y3|q qit hp h name Y1 Y2 Y3 Y4 Y5 Y6|q qit h k val Y1 Y2 Y3 Y4 Y5].
              - congruence.
              - apply node_item_spec in Y6 as [_ [_ [_ [Y6 _]]]]. simpl in Y6. assert (q = p) by congruence. subst q. destruct Y2; eauto.
              - destruct (attr_item_spec q qit val (Some k)) as [_ [_ [Y6 _]]]. rewrite <- Y5 in Y6. assert (q = p) by congruence. subst q. eauto. }
            destruct Hj as [->| ->]; [destruct (ext_item _ _ _ _ XS Li) as [z [Z _]]; eauto|]. destruct Lp as [pit0 Lp]. destruct (ext_item _ _ _ _ XS Lp) as [z [Z _]]; eauto. }
          destruct L as [jt0 L]. exists jt0. split; auto. destruct (ext_item _ _ _ _ XI L) as [z [Z1 Z2]]. congruence. }
        destruct (B i it (or_introl eq_refl) H0) as [it0 [I1 I2]]. destruct (B p pit (or_intror eq_refl) Epi) as [pit0 [P1 P2]].
        exists it0, p, pit0. split; auto. split; [apply skel_eq in I2 as [I2 _]; congruence|]. split; auto.
        eapply definition_report_same; [|exact P2|exact DR]. congruence.
      - unfold application_definition_verify in H. apply bind_ok in H as [it0 [t3 [H1 _]]]. apply item_ok in H1 as [_ H1]. congruence. }
    assert (I0 : I s3) by (split; [apply ext_refl|reflexivity]).
    destruct (for_each_run _ _ I Q _ _ _ _ STEP I0 (ro_step3 _ _ _ _ _ _ _ _ _ _ _ R)) as [_ [fss [R3 F3]]].
    exists fss. split.
    - assert (ED : definitions_of s3 = definition_items v').
      { unfold definitions_of, definition_items, items_at. rewrite (tr_cp _ _ _ T4), (tr_cp _ _ _ T3). simpl. rewrite app_nil_r. reflexivity. }
      rewrite <- ED. eapply Forall2_imp; [|exact F3]. intros i fs [it [p [pit [A1 [A2 [A3 A4]]]]]].
      destruct (ext_item _ _ _ _ X3 A1) as [it' [B1 B2]]. destruct (ext_item _ _ _ _ X3 A3) as [pit' [B3 B4]].
      exists pit'. split; [exists it', p; split; auto; split; auto; apply skel_eq in B2 as [B2 _]; congruence|].
      eapply definition_report_same; [reflexivity|symmetry; exact B4|exact A4].
    - pose proof (tr_find _ _ _ T3) as F3'. destruct R3 as [l3' [T3' <-]]. pose proof (tr_find _ _ _ T3') as Z. rewrite F3' in Z. apply app_inv_head in Z. auto.
  Qed.

  Lemma definitions_run : exists fss, Forall2 (fun i fs => exists pit, found_in v' i pit /\ definition_report (u_env u) w (u_field_minOccurs u) (st_classes (v_st v)) pit fs) (definition_items v') fss
    /\ exists before after, st_find (v_st v') = before ++ List.concat fss ++ after /\ Forall (fun f => ~ In (f_test f) app_tests) (before ++ after).
  Proof.
    destruct (validate_decompose _ _ _ _ _ Hrun) as [_ [_ [_ [s1 [s2 [s3 [s4 [l1 [l2 [l3 [l4 R]]]]]]]]]]]. destruct (definitions_run_of _ _ _ _ _ _ _ _ R) as [fss [F E3]].
    pose proof (ro_t1 _ _ _ _ _ _ _ _ _ _ _ R) as T1. pose proof (ro_t2 _ _ _ _ _ _ _ _ _ _ _ R) as T2. pose proof (ro_t3 _ _ _ _ _ _ _ _ _ _ _ R) as T3. pose proof (ro_t4 _ _ _ _ _ _ _ _ _ _ _ R) as T4.
    exists fss. split; auto.
    - pose proof (tr_find _ _ _ T1) as F1. pose proof (tr_find _ _ _ T2) as F2. pose proof (tr_find _ _ _ T3) as F3'. pose proof (tr_find _ _ _ T4) as F4.
      rewrite (ro_find _ _ _ _ _ _ _ _ _ _ _ R) in F1. exists (recs l1 ++ recs l2), (recs l4).
      split; [rewrite F4, F3', F2, F1, E3; cbn [app]; rewrite <- !app_assoc; reflexivity|].
      assert (KK : forall K log, Forall (with_key_new K) log -> (forall t, In t app_tests -> K t = false) -> Forall (fun f => ~ In (f_test f) app_tests) (recs log)).
      { intros K log HK Hk. apply recs_keys in HK. eapply Forall_impl; [|exact HK]. intros f Hf Ht. cbv beta in Hf. rewrite (Hk _ Ht) in Hf. discriminate. }
      apply Forall_app. split; [apply Forall_app; split|];
        [apply (KK _ _ (with_key_new_of _ _ (ro_k1 _ _ _ _ _ _ _ _ _ _ _ R)))|apply (KK _ _ (with_key_new_of _ _ (ro_k2 _ _ _ _ _ _ _ _ _ _ _ R)))|apply (KK _ _ (with_key_new_of _ _ (ro_k4 _ _ _ _ _ _ _ _ _ _ _ R)))];
        intros t Ht; repeat (destruct Ht as [<-|Ht]; [reflexivity|]); destruct Ht.
  Qed.

  (** ** The test "NXDL field" *)
  Lemma field_report_filter : forall E mo ad it h l fss, Forall2 (field_report E w mo ad it h) l fss ->
    Forall2 (fun ns f => exists fh, getopt w h (fst ns) = Ok fh /\ field_finding ad (fst ns) it fh f) l (filter (fun f => str_eqb (f_test f) (py "NXDL field")) (List.concat fss)).
  Proof.
    induction 1 as [|ns fs l fss [fh [f [e [H1 [H2 [H3 ->]]]]]] _ IH]; [constructor|]. cbn [List.concat app filter].
    assert (T : f_test f = py "NXDL field") by (unfold field_finding in H2; destruct fh; subst f; reflexivity). rewrite T, str_eqb_refl. rewrite filter_app.
    assert (Z : filter (fun f => str_eqb (f_test f) (py "NXDL field")) e = []).
    { destruct H3 as [[_ ->]|[t [x [st [cm [_ [_ [_ [-> _]]]]]]]]]; reflexivity. }
    rewrite Z. constructor; eauto.
  Qed.

  Lemma definition_report_filter : forall E mo cl it fs, definition_report E w mo cl it fs -> fields_report E w cl it (filter (fun f => str_eqb (f_test f) (py "NXDL field")) fs).
  Proof.
    intros E mo cl it fs [h name H1 H2 H3|h name d k entry rest st cm fss H1 H2 H3 H4 H5 H6].
    - eapply fr_unknown; eauto.
    - eapply fr_known; eauto. eapply field_report_filter. eauto.
  Qed.

  Lemma filter_concat : forall A (p : A -> bool) ll, filter p (List.concat ll) = List.concat (map (filter p) ll).
  Proof. induction ll; simpl; auto. rewrite filter_app, IHll. reflexivity. Qed.

  Lemma fields_run : exists fss, Forall2 (fun i fs => exists pit, found_in v' i pit /\ fields_report (u_env u) w (st_classes (v_st v)) pit fs) (definition_items v') fss
    /\ of_test v' (py "NXDL field") = List.concat fss.
  Proof.
    destruct definitions_run as [fss [F [before [after [E N]]]]]. exists (map (filter (fun f => str_eqb (f_test f) (py "NXDL field"))) fss). split.
    - clear E N. induction F as [|i fs l fss [pit [A B]] _ IH]; constructor; auto. exists pit. split; auto. eapply definition_report_filter. eauto.
    - unfold of_test. rewrite E, !filter_app, filter_concat. apply Forall_app in N as [N1 N2].
      assert (Z : forall l, Forall (fun f => ~ In (f_test f) app_tests) l -> filter (fun f => str_eqb (f_test f) (py "NXDL field")) l = []).
      { intros l Hl. apply filter_none. eapply Forall_impl; [|exact Hl]. intros f Hf. apply str_eqb_neq. intros X. apply Hf. rewrite X. simpl. auto. }
      rewrite (Z _ N1), (Z _ N2), app_nil_r. reflexivity.
  Qed.

  (** ** Files without external links *)
  Lemma field_exists : forall f, dget fname w = Some (FHdf5 f) -> plain_file f -> forall i it h field, listed v' i it -> it_obj it = ONode h -> field <> [] ->
    exists fh, getopt w h field = Ok fh /\ (fh <> None <-> leads_somewhere f (h_oid h) field).
  Proof.
    intros f Hfile Hplain i it h field L Ho Hn. pose proof (run_known _ _ _ _ _ _ Hrun Hfile Hplain _ _ _ L Ho) as K.
    destruct (getopt_leads w fname f Hfile Hplain (run_open _ _ _ _ _ Hrun) h field K Hn) as [o [A B]]. exists o. split; auto. rewrite <- B. destruct o; simpl; split; congruence.
  Qed.
End Run.
