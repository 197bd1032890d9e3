(** * The default plot of a completed validation *)

From Coq Require Import List NArith ZArith Bool String Lia Permutation Arith.
From Verif Require Import PyBase PyFacts Regex Utf8 H5 Findings Nxdl Core Catalog ItemName AttributeCheck
  GroupChecks AppDef DefaultPlot Validate Trace CheckFacts CatalogFacts Spec_Run Spec_Catalog Spec_Groups RunFacts AddrRecord GroupRun GroupEnd Spec_Plot PlotFacts PlotV2 PlotEnd.
Import ListNotations.

Definition test_is (t : pystr) (f : finding) : bool := str_eqb (f_test f) t.
Definition v2_item_test (f : finding) : bool := test_is signal_1_test f || test_is signal_not_1_test f.
Definition v2_any_test (f : finding) : bool := v2_item_test f || test_is v2_test f || test_is several_test f.

(** the findings [fs3] and [fs2] of the two methods, then the verdict *)
Record plot_findings (E : env) (w : world) (v : validator) (fs : list finding) : Prop := mkPF {
  pf_verdict : exists f, filter (test_is verdict_test) fs = [f] /\ plot_verdict E w v f;
  pf_v3 : (forall l, In (signal_path, l) (st_cp (v_st v)) -> v3_report E w v l (filter (test_is v3_test) fs))
    /\ (~ In signal_path (map fst (st_cp (v_st v))) -> filter (test_is v3_test) fs = []);
  pf_niac : niac_report E w v (filter (test_is niac_test) fs);
  pf_none : v3_found E w v -> filter v2_any_test fs = [];
  pf_items : ~ v3_found E w v -> exists gss, Forall2 (v2_item_report w v) (all_items v) gss /\ filter v2_item_test fs = List.concat gss;
  pf_plots : ~ v3_found E w v -> exists gss, Forall2 (v2_plot_report w v) (all_items v) gss /\ filter (test_is v2_test) fs = List.concat gss;
  pf_several : ~ v3_found E w v -> let l := filter (test_is several_test) fs in
    Forall several_finding l /\ NoDup (map f_addr l) /\ forall a, In a (map f_addr l) <-> several_signal_fields w v a
}.

Lemma filter_tests : forall (p : finding -> bool) (P : pystr -> Prop) l, Forall (fun f => P (f_test f)) l -> (forall f, P (f_test f) -> p f = false) -> filter p l = [].
Proof. intros p P l H1 H2. apply filter_none. eapply Forall_impl; [|exact H1]. auto. Qed.

Lemma filter_two : forall (p : finding -> bool) a b l, Forall (fun f => f_test f = a \/ f_test f = b) l ->
  (forall f, f_test f = a \/ f_test f = b -> p f = false) -> filter p l = [].
Proof. intros p a b l H1 H2. apply filter_none. eapply Forall_impl; [|exact H1]. auto. Qed.

Lemma v2_kind_tests : forall c s0 l fss, Forall2 (v2_kind c s0) l fss -> Forall (fun f => f_test f = signal_1_test \/ f_test f = signal_not_1_test) (List.concat fss).
Proof.
  induction 1 as [|i fs l fss H _ IH]; simpl; [constructor|]. apply Forall_app. split; auto. unfold v2_kind in H. destruct (on_dataset c s0 i).
  - destruct H as [a [o [_ [_ ->]]]]. destruct (is_one s0 i); constructor; auto.
  - subst. constructor.
Qed.
Lemma decision_tests : forall s0 l fss, Forall2 (decision s0) l fss -> Forall (fun f => f_test f = v2_test \/ f_test f = several_test) (List.concat fss).
Proof.
  induction 1 as [|[a li] fs l fss H _ IH]; simpl; [constructor|]. apply Forall_app. split; auto. unfold decision in H. simpl in H. destruct li as [|i [|j li]].
  - subst. constructor.
  - destruct H as [b [_ ->]]. constructor; auto.
  - destruct H as [f [-> [_ [b ->]]]]. constructor; auto.
Qed.

Lemma no_plot_status_ok : forall cl st, no_plot_status cl = Ok st -> st = ERROR /\ needs_data cl \/ st = NOTE /\ ~ needs_data cl.
Proof.
  intros cl st H. unfold no_plot_status, dgetitem in H. unfold needs_data. destruct (dget (py "NXentry") cl) as [d|]; [|discriminate]. cbn [rbind] in H.
  destruct (dget (py "data") (d_groups d)) as [g|] eqn:Eg; [|discriminate]. cbn [rbind] in H. inversion H; subst; clear H.
  destruct (g_minOccurs g) as [z|] eqn:Em.
  - destruct (Z.ltb_spec 0 z) as [Hz|Hz]; [left|right]; split; auto.
    + exists d, g. rewrite Em. auto.
    + intros [d' [g' [H1 [H2 H3]]]]. inversion H1; subst d'. rewrite Eg in H2. inversion H2; subst g'. rewrite Em in H3. lia.
  - left. split; auto. exists d, g. rewrite Em. auto.
Qed.

Section Run.
  Variable c : ctx.
  Variable s0 : vstate.
  Hypothesis HI : cinv c s0.
  Hypothesis HR : rooted (h_name (c_root c)).
  Variable v : validator.
  Hypothesis XF : ext s0 (v_st v).
  Notation E := (c_env c).
  Notation w := (c_world c).

  Definition vtest (t : pystr) : Prop := t = v3_test \/ t = niac_test.

  Lemma v3_run : forall s s' r, ext s0 s -> default_plot_v3 c s = (s', Ok r) -> exists fs, rec_run s fs s' /\
    Forall (fun f => vtest (f_test f)) fs /\
    ((forall l, In (signal_path, l) (st_cp (v_st v)) -> v3_report E w v l (filter (test_is v3_test) fs))
      /\ (~ In signal_path (map fst (st_cp (v_st v))) -> filter (test_is v3_test) fs = [])) /\ niac_report E w v (filter (test_is niac_test) fs) /\
    match r with Some a => v3_found E w v /\ v3_address E w v a | None => ~ v3_found E w v end.
  Proof.
    intros s s' r X H. unfold default_plot_v3 in H. apply bind_ok in H as [l [s1 [H1 H]]]. unfold classpath_list in H1. inversion H1; subst s1 l; clear H1.
    pose proof X as [lg T]. rewrite (tr_cp _ _ _ T) in H. fold signal_path in H.
    set (l := match dget signal_path (st_cp s0) with Some l => l | None => [] end) in *.
    assert (HG : Forall (fun i => exists it, item0 s0 i it) l).
    { apply Forall_forall. intros i Hi. unfold l in Hi. destruct (dget signal_path (st_cp s0)) as [l'|] eqn:D; [|destruct Hi]. apply dget_In in D.
      destruct (listed_good c s0 HI s0 i signal_path l') as [it [G1 G2]]; auto; [apply ext_refl|discriminate|]. exists it. split; auto. }
    destruct (v3_loop_run c s0 HI HR l [] None s s' r X HG (Forall_nil _) H) as [fs [R1 R2]].
    destruct (v3_end_report c s0 HI v XF l fs r R2) as [P1 P2]. exists fs. split; auto. split; [exact P2|]. split.
    - assert (CP : st_cp (v_st v) = st_cp s0) by (apply (final_cp s0 v XF)). rewrite CP. split.
      + intros l' Hl. assert (l' = l). { unfold l. rewrite (In_aget_NoDup str_eqb str_eqb_eq _ _ _ (ci_cpkeys _ _ HI) Hl : dget _ _ = _). auto. } subst l'. exact P1.
      + intros Hn. assert (EL : l = []). { unfold l. destruct (dget signal_path (st_cp s0)) as [l'|] eqn:D; auto. apply dget_In in D. destruct Hn. change signal_path with (fst (signal_path, l')). apply in_map. auto. }
        rewrite EL in P1. inversion P1; symmetry; assumption.
    - apply (v3_end_result c s0 HI v XF l eq_refl fs r R2).
  Qed.

  Lemma vtest_no : forall t fs, Forall (fun f => vtest (f_test f)) fs -> str_eqb v3_test t = false -> str_eqb (niac_test) t = false -> filter (test_is t) fs = [].
  Proof. intros t fs H H1 H2. eapply filter_tests; [exact H|]. unfold test_is. intros f [-> | ->]; auto. Qed.

  Lemma plot_run : forall s u, ext s0 s -> default_plot_verify c s = (v_st v, Ok u) -> exists fs, rec_run s fs (v_st v) /\ plot_findings E w v fs.
  Proof.
    intros s u X H. unfold default_plot_verify in H.
    apply bind_ok in H as [o [s1 [H1 H]]]. apply address_item_ok in H1 as [-> Ho]. pose proof (addr_item_at c s0 HI s _ _ X Ho) as At.
    apply bind_ok in H as [r [s1 [H1 H]]]. cbn [try_methods] in H1.
    apply bind_ok in H1 as [r3 [s2 [H2 H1]]]. destruct (v3_run _ _ _ X H2) as [f3 [R3 [T3' [P3 [NI Q3]]]]]. pose proof (ext_trans _ _ _ X (rec_run_ext _ _ _ R3)) as X2.
    assert (N3 : forall t, str_eqb v3_test t = false -> str_eqb (niac_test) t = false -> filter (test_is t) f3 = []) by (intros; apply vtest_no; auto).
    assert (A3 : filter v2_any_test f3 = []).
    { eapply filter_tests; [exact T3'|]. unfold v2_any_test, v2_item_test, test_is. intros f [-> | ->]; reflexivity. }
    assert (I3 : filter v2_item_test f3 = []).
    { eapply filter_tests; [exact T3'|]. unfold v2_item_test, test_is. intros f [-> | ->]; reflexivity. }
    destruct r3 as [a|].
    - apply ret_ok in H1 as [<- <-]. destruct Q3 as [Q1 Q2]. pose proof (addr_at_ext _ _ _ _ (rec_run_ext _ _ _ R3) At) as At2. destruct (record_run _ _ _ _ _ _ _ _ H At2) as [R4 _].
      eexists. split; [eapply rec_run_app; eauto|]. constructor.
      + eexists. rewrite filter_app, N3 by reflexivity. split; [reflexivity|]. exact (pv_v3 E w v a Q1 Q2).
      + rewrite filter_app. cbn [filter]. change (test_is v3_test _) with false. cbv iota. rewrite app_nil_r. exact P3.
      + rewrite filter_app. cbn [filter]. change (test_is niac_test _) with false. cbv iota. rewrite app_nil_r. exact NI.
      + intros _. rewrite filter_app, A3. reflexivity.
      + intros N; destruct (N Q1).
      + intros N; destruct (N Q1).
      + intros N; destruct (N Q1).
    - apply bind_ok in H1 as [r2 [s3 [H3 H1]]]. destruct (v2_run c s0 HI _ _ _ X2 H3) as [fs1 [fs2 [rv [R2 [K1 [G1 [RV [K2 Er]]]]]]]].
      pose proof (v2_result c s0 HI v XF r2 Er) as Q2. pose proof (ext_trans _ _ _ X2 (rec_run_ext _ _ _ R2)) as X3.
      pose proof (addr_at_ext _ _ _ _ (ext_trans _ _ _ (rec_run_ext _ _ _ R3) (rec_run_ext _ _ _ R2)) At) as At3.
      pose proof (v2_kind_tests _ _ _ _ K1) as TK. pose proof (decision_tests _ _ _ K2) as TD.
      assert (FT : forall f, f_test f = verdict_test -> exists gss, True) by (exists tt; auto). clear FT.
      destruct (items_report c s0 HI v XF fs1 K1 G1) as [gi [GI1 GI2]].
      destruct (decision_plots s0 rv fs2 K2) as [fsp [DP1 DP2]]. rewrite (rv_singles _ _ _ _ RV) in DP1. destruct (plots_report c s0 HI v XF fsp DP1) as [gp [GP1 GP2]].
      destruct (decision_several s0 rv fs2 K2) as [DS1 DS2]. destruct (several_report c s0 HI v XF rv RV) as [SR1 SR2]. rewrite <- DS2 in SR1, SR2.
      assert (MAIN : forall fv, f_test fv = verdict_test -> plot_verdict E w v fv -> plot_findings E w v (f3 ++ (List.concat fs1 ++ List.concat fs2) ++ [fv])).
      { intros [fa ft fst fc] Ev PV. simpl in Ev. subst ft. constructor.
        - eexists. rewrite !filter_app. rewrite N3 by reflexivity.
          rewrite (filter_two (test_is verdict_test) _ _ _ TK), (filter_two (test_is verdict_test) _ _ _ TD) by (unfold test_is; intros f [-> | ->]; reflexivity).
          split; [reflexivity|exact PV].
        - rewrite !filter_app. rewrite (filter_two (test_is v3_test) _ _ _ TK), (filter_two (test_is v3_test) _ _ _ TD) by (unfold test_is; intros f [-> | ->]; reflexivity).
          cbn [filter]. change (test_is v3_test _) with false. cbv iota. rewrite !app_nil_r. exact P3.
        - rewrite !filter_app. rewrite (filter_two (test_is niac_test) _ _ _ TK), (filter_two (test_is niac_test) _ _ _ TD) by (unfold test_is; intros f [-> | ->]; reflexivity).
          cbn [filter]. change (test_is niac_test _) with false. cbv iota. rewrite !app_nil_r. exact NI.
        - intros N; destruct (Q3 N).
        - intros _. exists gi. split; auto. rewrite !filter_app, I3. rewrite (filter_two v2_item_test _ _ _ TD) by (unfold v2_item_test, test_is; intros f [-> | ->]; reflexivity).
          cbn [filter]. change (v2_item_test _) with false. cbv iota. rewrite !app_nil_r. rewrite GI2. apply filter_all. eapply Forall_impl; [|exact TK]. unfold v2_item_test, test_is. intros f [-> | ->]; reflexivity.
        - intros _. exists gp. split; auto. rewrite !filter_app, N3 by reflexivity. rewrite (filter_two (test_is v2_test) _ _ _ TK) by (unfold test_is; intros f [-> | ->]; reflexivity).
          cbn [filter]. change (test_is v2_test (mkF fa verdict_test fst fc)) with false. cbv iota. rewrite !app_nil_r. rewrite GP2. exact DP2.
        - intros _. cbv zeta. rewrite !filter_app, N3 by reflexivity. rewrite (filter_two (test_is several_test) _ _ _ TK) by (unfold test_is; intros f [-> | ->]; reflexivity).
          cbn [filter]. change (test_is several_test (mkF fa verdict_test fst fc)) with false. cbv iota. rewrite !app_nil_r. split; auto. }
      destruct r2 as [a|].
      + apply ret_ok in H1 as [<- <-]. destruct Q2 as [Q1 Q2]. destruct (record_run _ _ _ _ _ _ _ _ H At3) as [R4 _].
        eexists. split; [eapply rec_run_app; [exact R3|eapply rec_run_app; [exact R2|exact R4]]|]. apply MAIN; [reflexivity|]. exact (pv_v2 E w v a Q3 Q1 Q2).
      + apply bind_ok in H1 as [r1 [s4 [H4 H1]]]. unfold default_plot_v1 in H4. apply ret_ok in H4 as [-> <-]. apply ret_ok in H1 as [<- <-].
        apply bind_ok in H as [sx [sy [H4 H]]]. apply get_ok in H4 as [-> ->]. apply bind_ok in H as [st [sy [H4 H]]]. apply lift_ok in H4 as [-> H4].
        destruct (record_run _ _ _ _ _ _ _ _ H At3) as [R4 C4].
        eexists. split; [eapply rec_run_app; [exact R3|eapply rec_run_app; [exact R2|exact R4]]|]. apply MAIN; [reflexivity|].
        apply no_plot_status_ok in H4. rewrite <- C4 in H4. exact (pv_none E w v st Q3 Q2 H4).
  Qed.
End Run.

Lemma recs_same : forall s l s' fs, trace s l s' -> rec_run s fs s' -> recs l = fs.
Proof.
  intros s l s' fs T [l' [T' <-]]. pose proof (tr_find _ _ _ T) as F1. pose proof (tr_find _ _ _ T') as F2. rewrite F1 in F2. apply app_inv_head in F2. auto.
Qed.

Definition plot_tests : list pystr := [verdict_test; v3_test; signal_1_test; signal_not_1_test; v2_test; several_test; niac_test].

Lemma plot_final : forall u w v fname v', validate u w v fname = (v', Ok tt) -> exists fs, plot_findings (u_env u) w v' fs /\
  forall p, (forall f, p f = true -> In (f_test f) plot_tests) -> filter p (st_find (v_st v')) = filter p fs.
Proof.
  intros u w v fname v' H. apply validate_decompose in H as [_ [_ [_ [s1 [s2 [s3 [s4 [l1 [l2 [l3 [l4 R]]]]]]]]]]].
  assert (X : ext s1 s4). { eapply ext_trans; [exists l1; apply (ro_t1 _ _ _ _ _ _ _ _ _ _ _ R)|]. eapply ext_trans; [exists l2; apply (ro_t2 _ _ _ _ _ _ _ _ _ _ _ R)|]. exists l3. apply (ro_t3 _ _ _ _ _ _ _ _ _ _ _ R). }
  assert (XF : ext s1 (v_st v')). { eapply ext_trans; [exact X|]. exists l4. apply (ro_t4 _ _ _ _ _ _ _ _ _ _ _ R). }
  assert (HR : rooted (h_name (c_root (mk_ctx u w fname)))) by (exists []; reflexivity).
  destruct (plot_run _ _ (ro_inv _ _ _ _ _ _ _ _ _ _ _ R) HR v' XF s4 tt X (ro_step4 _ _ _ _ _ _ _ _ _ _ _ R)) as [fs [R4 PF]].
  exists fs. split; [exact PF|]. intros p Hp.
  pose proof (tr_find _ _ _ (ro_t1 _ _ _ _ _ _ _ _ _ _ _ R)) as F1. pose proof (tr_find _ _ _ (ro_t2 _ _ _ _ _ _ _ _ _ _ _ R)) as F2.
  pose proof (tr_find _ _ _ (ro_t3 _ _ _ _ _ _ _ _ _ _ _ R)) as F3. pose proof (tr_find _ _ _ (ro_t4 _ _ _ _ _ _ _ _ _ _ _ R)) as F4.
  rewrite (ro_find _ _ _ _ _ _ _ _ _ _ _ R) in F1. rewrite F4, F3, F2, F1. rewrite !filter_app.
  rewrite (recs_same _ _ _ _ (ro_t4 _ _ _ _ _ _ _ _ _ _ _ R) R4).
  assert (KK : forall K log, Forall (with_key_new K) log -> (forall t, In t plot_tests -> K t = false) -> filter p (recs log) = []).
  { intros K log HK Hk. apply recs_keys in HK. apply filter_none. eapply Forall_impl; [|exact HK]. intros f Hf. cbv beta in Hf.
    destruct (p f) eqn:Ep; auto. apply Hp in Ep. rewrite (Hk _ Ep) in Hf. discriminate. }
  rewrite (KK _ _ (with_key_new_of _ _ (ro_k1 _ _ _ _ _ _ _ _ _ _ _ R))), (KK _ _ (with_key_new_of _ _ (ro_k2 _ _ _ _ _ _ _ _ _ _ _ R))), (KK _ _ (ro_k3 _ _ _ _ _ _ _ _ _ _ _ R)); [reflexivity| | |];
    clear; intros t Ht; repeat (destruct Ht as [<-|Ht]; [reflexivity|]); destruct Ht.
Qed.
