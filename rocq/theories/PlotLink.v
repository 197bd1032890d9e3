(** * The default plot in terms of the file *)

From Coq Require Import List NArith ZArith Bool String Lia Permutation Arith.
From Verif Require Import PyBase PyFacts Regex Utf8 H5 Findings Nxdl Core Catalog ItemName AttributeCheck
  GroupChecks AppDef DefaultPlot Validate Trace CheckFacts CatalogFacts PathFacts PresenceFacts CatalogRun CatalogEnd Spec_Run Spec_Catalog Spec_Attributes Spec_Groups RunFacts
  AddrRecord NameRun AttrRun GroupRun GroupEnd Spec_Plot PlotFacts PlotV2 PlotEnd PlotRun.
Import ListNotations.

Lemma path_comps_text : forall p, p <> [] -> Forall link_name p -> path_comps (path_text p) = p /\ is_abs (path_text p) = true.
Proof.
  intros p Hp HF. assert (E : exists rest, path_text p = 47%N :: rest /\ split ch_slash rest = p).
  { destruct p as [|n p]; [congruence|]. simpl. eexists. split; [reflexivity|]. clear Hp. revert n HF. induction p as [|m p IH]; intros n HF.
    - simpl. rewrite app_nil_r. apply split_no_sep. inversion HF; subst. apply H1.
    - inversion HF; subst. simpl. rewrite split_app_sep; [|apply H1]. f_equal. apply IH. auto. }
  destruct E as [rest [E1 E2]]. rewrite E1. split.
  - unfold path_comps. cbn [split]. change (N.eqb 47 ch_slash) with true. cbv iota. rewrite E2. cbn [filter]. change (str_eqb [] []) with true. cbn [orb negb].
    clear - HF. induction HF as [|n p Hn HF IH]; auto. cbn [filter]. destruct Hn as [N1 [N2 N3]].
    destruct (str_eqb_spec n []); [congruence|]. destruct (str_eqb_spec n [ch_dot]) as [X|]; [destruct (N3 X)|]. cbn [orb negb]. f_equal. auto.
  - reflexivity.
Qed.

Lemma at_split : forall a b a' b', ~ In 64%N a -> ~ In 64%N b -> a' ++ 64%N :: b' = a ++ 64%N :: b -> a' = a /\ b' = b.
Proof.
  induction a as [|x a IH]; intros b a' b' Ha Hb E.
  - destruct a' as [|y a']; simpl in E; inversion E; subst; auto. exfalso. apply Hb. apply in_or_app. right. left. auto.
  - destruct a' as [|y a']; simpl in E; inversion E; subst.
    + exfalso. apply Ha. left. auto.
    + destruct (IH b a' b') as [-> ->]; auto. intros X. apply Ha. right. auto.
Qed.

Section Link.
  Variables (u : setup) (w : world) (v : validator) (fname : pystr) (v' : validator) (f : h5file).
  Hypothesis Hrun : validate u w v fname = (v', Ok tt).
  Hypothesis Hfile : dget fname w = Some (FHdf5 f).
  Hypothesis Hplain : plain_file f.
  Hypothesis Hdist : distinct_names f.
  Hypothesis Hat : no_at_names f.

  Lemma leads_names : forall p o b, leads f o p b -> Forall link_name p /\ Forall (fun n => ~ In 64%N n) p.
  Proof.
    induction 1 as [a|a n p o b H1 H2 H3 [IH1 IH2]|a n p text o b H1 H2 _ H3 [IH1 IH2]]; [split; constructor| |];
      apply dget_In in H1; split; constructor; auto; [apply (proj1 (Hplain _ _ _ H1))|apply (Hat _ _ _ H1)|apply (proj1 (Hplain _ _ _ H1))|apply (Hat _ _ _ H1)].
  Qed.

  Lemma parent_listed : forall i it p pit, listed v' i it -> it_parent it = Some p -> nth_error (st_items (v_st v')) p = Some pit -> listed v' p pit.
  Proof.
    intros i it p pit L Hp Hi. destruct (validate_trace _ _ _ _ _ _ _ Hfile Hrun) as [s1 [rb [log [Eb [T [HI _]]]]]].
    destruct (listed_in _ _ _ _ _ _ _ _ T HI L) as [it1 [H1 S1]]. apply skel_eq in S1 as [S1 _].
    assert (B : exists it0, nth_error (st_items s1) p = Some it0).
    { destruct (ci_origin _ _ HI _ _ H1) as [X1 X2 X3|q qit hp h name X1 X2 X3 X4 X5 X6|q qit h k val X1 X2 X3 X4 X5].
      - congruence.
      - apply node_item_spec in X6 as [_ [_ [_ [X6 _]]]]. simpl in X6. assert (q = p) by congruence. subst q. destruct X2; eauto.
      - destruct (attr_item_spec q qit val (Some k)) as [_ [_ [X6 _]]]. rewrite <- X5 in X6. assert (q = p) by congruence. subst q. eauto. }
    destruct B as [it0 H0]. destruct (listed_out _ _ _ _ _ _ _ _ T HI H0) as [it' [L' S']]. destruct L' as [L1 L2]. rewrite Hi in L1. inversion L1; subst. split; auto.
  Qed.

  Lemma path_item : forall p cp, class_path (u_env u) f p cp -> exists i it h o, leads f 0 p o /\ listed v' i it /\ it_obj it = ONode h /\ h_oid h = o
    /\ it_addr it = Some (path_text p) /\ it_cp it = cp /\ Forall link_name p.
  Proof.
    intros p cp Hc. assert (HC : catalogued v' (Ok tt)) by (left; reflexivity).
    assert (Hl : exists o, leads f 0 p o) by (destruct Hc; [exists 0; constructor|eauto]). destruct Hl as [o Hl].
    destruct (paths_catalogued _ _ _ _ _ _ _ Hfile Hrun Hplain HC _ _ Hl) as [g [git [h [L [Ho [Hoid [Hf [Ha [_ AT]]]]]]]]].
    destruct (final_class_path _ _ _ _ _ _ _ Hfile Hrun Hplain _ _ _ L Ho) as [p' [A1 [A2 [A3 A4]]]].
    assert (F : Forall link_name p) by (eapply leads_names; eauto).
    assert (p' = p). { rewrite Ha in A1. inversion A1 as [A1']. symmetry. apply path_text_inj; auto. }
    subst p'. pose proof (class_path_fun f _ _ _ A4 _ Hc) as Ecp. exists g, git, h, o. auto 10.
  Qed.

  (** the item of an attribute of an object with a class path *)
  Lemma attribute_item : forall p o cp k val, leads f 0 p o -> class_path (u_env u) f p cp -> cp <> non_nexus -> dget k (attributes f o) = Some val ->
    exists j jt g git h, nth_error (st_items (v_st v')) j = Some jt /\ it_cp jt = cp ++ 64%N :: k /\ it_addr jt = Some (path_text p ++ 64%N :: k)
      /\ catalogued_at v' (path_text p) git /\ it_obj git = ONode h /\ h_oid h = o /\ h_file h = fname /\ listed v' g git /\ listed v' j jt /\ h_name h = path_text p.
  Proof.
    intros p o cp k val Hl Hc Hn Hk. assert (HC : catalogued v' (Ok tt)) by (left; reflexivity).
    destruct (paths_catalogued _ _ _ _ _ _ _ Hfile Hrun Hplain HC _ _ Hl) as [g [git [h [L [Ho [Hoid [Hf [Ha [_ AT]]]]]]]]].
    destruct (AT k val) as [j [jt [Lj [Hjo [Hjp Hjn]]]]]; [apply dget_In; auto|].
    destruct (final_class_path _ _ _ _ _ _ _ Hfile Hrun Hplain _ _ _ L Ho) as [p' [A1 [A2 [A3 A4]]]].
    assert (p' = p). { rewrite Ha in A1. inversion A1 as [A1']. symmetry. apply path_text_inj; auto. eapply leads_names; eauto. }
    subst p'. pose proof (class_path_fun f _ _ _ A4 _ Hc) as Ecp.
    assert (HN : h_name h = path_text p).
    { destruct (final_item_class _ _ _ _ _ _ _ Hfile Hrun _ _ L) as [file B1 B2 B3 B4|? ? ? ? h' ? _ _ B3 _ B5 _ _ _|? ? ? ? h' _ _ B3 _ B5 B6 _|? ? ? ? ? _ _ _ _ B5|? ? ? ? ? _ _ _ _ B5]; try congruence.
      rewrite Ho in B2. inversion B2; subst h. rewrite Ha in B4. inversion B4 as [B4']. rewrite B4'. reflexivity. }
    destruct (final_item_class _ _ _ _ _ _ _ Hfile Hrun _ _ Lj) as [file B1 B2 B3 B4|? ? ? ? h' ? _ _ B3 _ B5 _ _ _|? ? ? ? h' _ _ B3 _ B5 B6 _|p1 pit h1 k1 v1 C1 C2 C3 C4 C5 C6 C7 C8 C9|p1 pit h1 k1 v1 C1 C2 C3 C4 C5 C6 C7 C8 C9]; try congruence;
      rewrite Hjp in C1; inversion C1; subst p1; destruct L as [L1 L2]; rewrite L1 in C2; inversion C2; subst pit; rewrite Ho in C3; inversion C3; subst h1; rewrite Hjn in C6; inversion C6; subst k1; [|congruence].
    exists j, jt, g, git, h. split; [apply Lj|]. split; [congruence|]. split; [congruence|]. split; [|split; auto; split; auto; split; auto; split; [split; auto|split; auto]].
    exists g. split; [|exact L1]. apply (addr_unique _ _ _ _ _ _ _ Hfile Hrun Hplain Hdist Hat g git); auto. split; auto.
  Qed.

  Lemma plain_signal_exists : forall e d o val s os, leads f 0 [e; d] o -> class_path (u_env u) f [e; d] (py "/NXentry/NXdata") ->
    dget (py "signal") (attributes f o) = Some val -> decode_byte_string (u_env u) val = Ok (VStr s) -> leads f o [s] os ->
    exists i it, listed_at v' signal_path i it /\ it_addr it = Some (path_text [e; d] ++ py "@signal") /\ signal_exists (u_env u) w v' it (path_text [e; d; s]).
  Proof.
    intros e d o val s os Hl Hc Hk Hd Hs. destruct (attribute_item _ _ _ _ _ Hl Hc ltac:(discriminate) Hk) as [j [jt [g [git [h [A1 [A2 [A3 [A4 [A5 [A6 [A7 [A8 [A9 A10]]]]]]]]]]]]]].
    exists j, jt. split; [|split; auto].
    { destruct A9 as [B1 [cp [l [B2 B3]]]]. split; auto. exists l. split; auto.
      destruct (classpath_agree _ _ _ _ _ _ _ Hfile Hrun _ _ _ B2 B3) as [it2 [B4 B5]]. assert (it2 = jt) by congruence. subst it2.
      replace signal_path with cp; auto. rewrite <- B5, A2. reflexivity. }
    destruct (leads_names _ _ _ Hl) as [N1 N2]. pose proof (Forall_inv N1) as E1. pose proof (Forall_inv (Forall_inv_tail N1)) as D1. pose proof (Forall_inv N2) as E2. pose proof (Forall_inv (Forall_inv_tail N2)) as D2. cbv beta in E2, D2.
    destruct (leads_names _ _ _ Hs) as [S1 S2]. pose proof (Forall_inv S1) as S1'.
    assert (T1 : path_text [e; d] = 47%N :: e ++ 47%N :: d) by (simpl; rewrite app_nil_r; reflexivity).
    assert (T2 : path_text [e; d; s] = path_text [e; d] ++ 47%N :: s) by (rewrite T1; simpl; rewrite <- !app_assoc; simpl; rewrite app_nil_r; reflexivity).
    assert (NS : ~ ends_with_slash (path_text [e; d])).
    { intros [x X]. destruct (exists_last (proj1 D1)) as [d0 [y Y]]. rewrite T1, Y in X.
      change (47%N :: e ++ 47%N :: d0 ++ [y]) with ((47%N :: e) ++ (47%N :: d0) ++ [y]) in X. rewrite app_assoc in X. apply app_inj_tail in X as [_ X].
      apply (proj1 (proj2 D1)). rewrite Y, X. apply in_or_app. right. left. reflexivity. }
    exists e, d, h. split; [|split].
    - split; [apply E1|]. split; [apply D1|]. split; [apply E2|]. split; [apply D2|]. split.
      + right. exists (py "signal"). rewrite A3, T1. f_equal. cbn [app]. rewrite <- app_assoc. reflexivity.
      + exists git. rewrite <- T1. auto.
    - exists val, s. rewrite (attrs_attributes w fname f Hfile h A7), A6. split; auto. split; auto. rewrite A10. right. split; auto.
    - pose proof (run_known _ _ _ _ _ _ Hrun Hfile Hplain _ _ _ A8 A5) as K. unfold has_item.
      assert (G : is_group_obj w h = true) by (rewrite <- A6 in Hs; eapply (is_group_known w fname f Hfile); eauto).
      rewrite (group_in _ _ _ G). f_equal. apply (contains_leads w fname f Hfile Hplain (run_open _ _ _ _ _ Hrun) _ _ K).
      assert (HF : Forall link_name [e; d; s]) by (constructor; auto).
      destruct (path_comps_text [e; d; s] ltac:(discriminate) HF) as [P1 P2]. split; [rewrite T2; destruct (path_text [e; d]); discriminate|].
      rewrite P1, P2. exists os. apply (leads_app f [e; d] [s]). eauto.
  Qed.

  Lemma plain_signal_plots : forall e d o val s os ob x, leads f 0 [e; d] o -> class_path (u_env u) f [e; d] (py "/NXentry/NXdata") ->
    dget (py "signal") (attributes f o) = Some val -> decode_byte_string (u_env u) val = Ok (VStr s) -> leads f o [s] os ->
    nth_error f os = Some ob -> ob_kind ob = KDataset x ->
    exists i it, listed_at v' signal_path i it /\ it_addr it = Some (path_text [e; d] ++ py "@signal") /\ signal_plots (u_env u) w v' it (path_text [e; d; s]).
  Proof.
    intros e d o val s os ob x Hl Hc Hk Hd Hs Hob Hx. destruct (plain_signal_exists _ _ _ _ _ _ Hl Hc Hk Hd Hs) as [i [it [A1 [A2 A3]]]].
    exists i, it. split; auto. split; auto. split; auto. assert (HC : catalogued v' (Ok tt)) by (left; reflexivity).
    assert (Hl2 : leads f 0 [e; d; s] os) by (apply (leads_app f [e; d] [s]); eauto).
    destruct (paths_catalogued _ _ _ _ _ _ _ Hfile Hrun Hplain HC _ _ Hl2) as [g [git [h [L [Ho [Hoid [Hf [Ha _]]]]]]]].
    exists git, h. split; [exists g; split; [|apply L]; apply (addr_unique _ _ _ _ _ _ _ Hfile Hrun Hplain Hdist Hat g git); auto|]. split; auto.
    unfold isHdf5Dataset, obj_of, get_obj. rewrite Hf, Hfile, Hoid, Hob, Hx. reflexivity.
  Qed.

  (** ** Files in which every @signal of an NXdata group names something *)
  Lemma signals_exist : signals_name_members (u_env u) f -> forall i it, listed_at v' signal_path i it -> exists t, signal_exists (u_env u) w v' it t.
  Proof.
    intros [S1 S2] i it [Hi [l [Hl1 Hl2]]]. assert (L : listed v' i it) by (split; eauto).
    destruct (classpath_agree _ _ _ _ _ _ _ Hfile Hrun _ _ _ Hl1 Hl2) as [it2 [B4 B5]]. assert (it2 = it) by congruence. subst it2.
    destruct (final_item_class _ _ _ _ _ _ _ Hfile Hrun _ _ L) as [file B1 B2 B3 B6|? ? ? ? h' ? _ _ B3 _ _ _ _ _|? ? ? ? h' _ _ B3 _ _ _ B6|p1 pit h1 k1 v1 C1 C2 C3 C4 C5 C6 C7 C8 C9|p1 pit h1 k1 v1 C1 C2 C3 C4 C5 C6 C7 C8 C9].
    - rewrite B5 in B3. discriminate.
    - destruct (final_class_path _ _ _ _ _ _ _ Hfile Hrun Hplain _ _ _ L B3) as [p0 [_ [_ [_ X]]]]. rewrite B5 in X. destruct (S1 _ X).
    - rewrite B5 in B6. discriminate.
    - rewrite B5 in C8. change signal_path with (py "/NXentry/NXdata" ++ 64%N :: py "signal") in C8. symmetry in C8. apply at_split in C8 as [C8 ->]; [|cbv; intuition discriminate|cbv; intuition discriminate].
      pose proof (parent_listed _ _ _ _ L C1 C2) as Lp. destruct (final_class_path _ _ _ _ _ _ _ Hfile Hrun Hplain _ _ _ Lp C3) as [p [P1 [P2 [P3 P4]]]]. rewrite C8 in P4.
      assert (Hh : h_file h1 = fname) by (destruct (run_known _ _ _ _ _ _ Hrun Hfile Hplain _ _ _ Lp C3); auto).
      rewrite (attrs_attributes w fname f Hfile _ Hh) in C4.
      destruct (S2 _ _ P4 P3) as [e [d [val [s [os [-> [D1 [D2 D3]]]]]]]]; [apply in_map_iff; exists (py "signal", v1); auto|].
      destruct (plain_signal_exists _ _ _ _ _ _ P3 P4 D1 D2 D3) as [j [jt [A1 [A2 A3]]]].
      assert (N : it_addr it = Some (path_text [e; d] ++ py "@signal")).
      { destruct (final_item_class _ _ _ _ _ _ _ Hfile Hrun _ _ Lp) as [file E1 E2 E3 E4|? ? ? ? h' ? _ _ E3 _ E5 _ _ _|? ? ? ? h' _ _ E3 _ E5 E6 _|? ? ? ? ? _ _ _ _ E5|? ? ? ? ? _ _ _ _ E5]; try congruence.
        - rewrite C9. f_equal. change (py "@signal") with (64%N :: py "signal"). assert (X : h1 = open_root file) by congruence. rewrite X. simpl h_name. assert (Y : path_text [e; d] = slash) by (unfold slash, ch_slash; congruence). rewrite Y. reflexivity.
        - rewrite C9. f_equal. change (py "@signal") with (64%N :: py "signal"). f_equal. congruence.
        - rewrite C9. f_equal. change (py "@signal") with (64%N :: py "signal"). f_equal. congruence. }
      assert (j = i). { assert (A1' : listed v' j jt) by (destruct A1 as [Z1 [Z2 Z3]]; split; eauto). exact (proj2 (addr_unique _ _ _ _ _ _ _ Hfile Hrun Hplain Hdist Hat i it _ L N) j jt A1' A2). }
      subst j. destruct A1 as [A1 _]. assert (jt = it) by congruence. subst jt. eauto.
    - rewrite B5 in C8. discriminate.
  Qed.

  (** ** C38 *)
  Lemma plottable_v3 : forall e d s, plottable (u_env u) f e d s -> signals_name_members (u_env u) f -> v3_found (u_env u) w v'.
  Proof.
    intros e d s [o [val [os [ob [x [A1 [A2 [A3 [A4 [A5 [A6 A7]]]]]]]]]]] HS. split; [apply signals_exist; auto|].
    destruct (plain_signal_plots _ _ _ _ _ _ _ _ A1 A2 A3 A4 A5 A6 A7) as [i [it [B1 [_ B2]]]]. eauto.
  Qed.
End Link.

(** ** The results *)
Section Results.
  Variables (u : setup) (w : world) (v : validator) (fname : pystr) (v' : validator).
  Hypothesis Hrun : validate u w v fname = (v', Ok tt).

  Lemma one_test : forall t, In t plot_tests -> forall f : finding, test_is t f = true -> In (f_test f) plot_tests.
  Proof. intros t Ht f Hf. unfold test_is in Hf. apply str_eqb_eq in Hf. rewrite Hf. auto. Qed.

  Lemma verdict_final : exists f, of_test v' verdict_test = [f] /\ plot_verdict (u_env u) w v' f.
  Proof.
    destruct (plot_final _ _ _ _ _ Hrun) as [fs [PF EQ]]. destruct (pf_verdict _ _ _ _ PF) as [f [A B]]. exists f. split; auto.
    change (of_test v' verdict_test) with (filter (test_is verdict_test) (st_find (v_st v'))). rewrite EQ; auto. apply one_test. simpl; auto.
  Qed.

  Lemma verdict_one : exists f, of_test v' verdict_test = [f] /\ f_addr f = Some [47%N]
    /\ (f_status f = OK \/ f_status f = NOTE \/ f_status f = ERROR)
    /\ (f_status f = OK <-> v3_found (u_env u) w v' \/ v2_found w v')
    /\ (f_status f = ERROR <-> ~ v3_found (u_env u) w v' /\ ~ v2_found w v' /\ needs_data (st_classes (v_st v'))).
  Proof.
    destruct verdict_final as [f [A B]]. exists f. split; auto.
    destruct B as [a B1 B2|a B1 B2 B3|st B1 B2 [[-> B3]|[-> B3]]]; simpl; (split; [reflexivity|]); split; auto; split; split; intros X; auto; try discriminate;
      try solve [destruct X as [X|X]; contradiction]; try solve [destruct X as [X1 [X2 X3]]; contradiction].
  Qed.

  Lemma v3_comment : forall f a, of_test v' verdict_test = [f] -> f_comment f = py "found by v3: " ++ a -> v3_found (u_env u) w v' /\ v3_address (u_env u) w v' a.
  Proof.
    intros f a Hf Hc. destruct verdict_final as [f' [A B]]. rewrite Hf in A. inversion A; subst f'.
    destruct B as [a' B1 B2|a' B1 B2 B3|st B1 B2 B3]; simpl in Hc.
    - inversion Hc; subst. auto.
    - discriminate.
    - discriminate.
  Qed.

  Lemma v2_comment : forall f a, of_test v' verdict_test = [f] -> f_comment f = py "found by v2: " ++ a -> ~ v3_found (u_env u) w v' /\ v2_address w v' a.
  Proof.
    intros f a Hf Hc. destruct verdict_final as [f' [A B]]. rewrite Hf in A. inversion A; subst f'.
    destruct B as [a' B1 B2|a' B1 B2 B3|st B1 B2 B3]; simpl in Hc.
    - discriminate.
    - inversion Hc; subst. auto.
    - discriminate.
  Qed.

  Lemma v3_findings : (forall l, In (signal_path, l) (st_cp (v_st v')) -> v3_report (u_env u) w v' l (of_test v' v3_test))
    /\ (~ In signal_path (map fst (st_cp (v_st v'))) -> of_test v' v3_test = []).
  Proof.
    destruct (plot_final _ _ _ _ _ Hrun) as [fs [PF EQ]]. pose proof (pf_v3 _ _ _ _ PF) as X.
    change (of_test v' v3_test) with (filter (test_is v3_test) (st_find (v_st v'))). rewrite EQ; auto. apply one_test. simpl; auto.
  Qed.

  Lemma niac_findings : niac_report (u_env u) w v' (of_test v' niac_test).
  Proof.
    destruct (plot_final _ _ _ _ _ Hrun) as [fs [PF EQ]]. pose proof (pf_niac _ _ _ _ PF) as X.
    change (of_test v' niac_test) with (filter (test_is niac_test) (st_find (v_st v'))). rewrite EQ; auto. apply one_test. simpl; auto 10.
  Qed.

  Lemma v2_findings_none : v3_found (u_env u) w v' -> of_tests v' [signal_1_test; signal_not_1_test; v2_test; several_test] = [].
  Proof.
    intros H. destruct (plot_final _ _ _ _ _ Hrun) as [fs [PF EQ]]. rewrite <- (pf_none _ _ _ _ PF H). rewrite <- EQ.
    - apply filter_ext. intros f. unfold v2_any_test, v2_item_test, test_is. cbn [existsb]. rewrite orb_false_r, !orb_assoc. reflexivity.
    - intros f Hf. unfold v2_any_test, v2_item_test in Hf. repeat (apply orb_true_iff in Hf as [Hf|Hf]); eapply one_test; try exact Hf; simpl; auto 10.
  Qed.

  Lemma v2_findings : ~ v3_found (u_env u) w v' ->
    (exists gss, Forall2 (v2_item_report w v') (all_items v') gss /\ of_tests v' [signal_1_test; signal_not_1_test] = List.concat gss)
    /\ (exists gss, Forall2 (v2_plot_report w v') (all_items v') gss /\ of_test v' v2_test = List.concat gss)
    /\ Forall several_finding (of_test v' several_test) /\ NoDup (map f_addr (of_test v' several_test))
    /\ forall a, In a (map f_addr (of_test v' several_test)) <-> several_signal_fields w v' a.
  Proof.
    intros H. destruct (plot_final _ _ _ _ _ Hrun) as [fs [PF EQ]]. split; [|split].
    - destruct (pf_items _ _ _ _ PF H) as [gss [A B]]. exists gss. split; auto. rewrite <- B, <- EQ.
      + apply filter_ext. intros f. unfold v2_item_test, test_is. cbn [existsb]. rewrite orb_false_r. reflexivity.
      + intros f Hf. unfold v2_item_test in Hf. repeat (apply orb_true_iff in Hf as [Hf|Hf]); eapply one_test; try exact Hf; simpl; auto 10.
    - destruct (pf_plots _ _ _ _ PF H) as [gss [A B]]. exists gss. split; auto. rewrite <- B, <- EQ; [reflexivity|]. apply one_test. simpl. auto 10.
    - pose proof (pf_several _ _ _ _ PF H) as X. simpl in X. rewrite <- EQ in X; [exact X|]. apply one_test. simpl. auto 10.
  Qed.

  Lemma plottable_ok : forall f e d s, dget fname w = Some (FHdf5 f) -> plain_file f -> distinct_names f -> no_at_names f ->
    plottable (u_env u) f e d s -> signals_name_members (u_env u) f ->
    exists fd a, of_test v' verdict_test = [fd] /\ f_status fd = OK /\ f_comment fd = py "found by v3: " ++ a.
  Proof.
    intros f e d s H1 H2 H3 H4 H5 H6. pose proof (plottable_v3 _ _ _ _ _ _ Hrun H1 H2 H3 H4 _ _ _ H5 H6) as V.
    destruct verdict_final as [fd [A B]]. exists fd. destruct B as [a' B1 B2|a' B1 B2 B3|st B1 B2 B3]; try contradiction. exists a'. auto.
  Qed.
End Results.

Lemma v3_address_signal : forall E w v a, v3_address E w v a -> exists i it t, listed_at v signal_path i it /\ signal_plots E w v it t
  /\ (a = t \/ only_chain_plot E w v i it /\ it_addr it = Some a).
Proof.
  intros E w v a [i it a' H1 H2|l l1 i l2 it a' H1 H2 H3 H4 H5 H6].
  - destruct H1 as [[L [[t P] C]] U]. exists i, it, t. split; auto. split; auto. right. split; auto. split; auto. split; eauto.
  - exists i, it, a'. split; [|auto]. split; auto. exists l. split; auto. rewrite H3. apply in_or_app. right. left. reflexivity.
Qed.

Section More.
  Variables (u : setup) (w : world) (v : validator) (fname : pystr) (v' : validator).
  Hypothesis Hrun : validate u w v fname = (v', Ok tt).

  Lemma v3_comment_signal : forall f a, of_test v' verdict_test = [f] -> f_comment f = py "found by v3: " ++ a ->
    exists i it t, listed_at v' signal_path i it /\ signal_plots (u_env u) w v' it t /\ (a = t \/ only_chain_plot (u_env u) w v' i it /\ it_addr it = Some a).
  Proof. intros f a H1 H2. apply v3_address_signal. eapply v3_comment; eauto. Qed.

  Lemma v2_iff : forall f, of_test v' verdict_test = [f] -> ~ v3_found (u_env u) w v' ->
    ((exists a, f_status f = OK /\ f_comment f = py "found by v2: " ++ a /\ v2_address w v' a) <-> v2_found w v')
    /\ (f_status f = OK <-> v2_found w v').
  Proof.
    intros f Hf Hn. destruct (verdict_final _ _ _ _ _ Hrun) as [f' [A B]]. rewrite Hf in A. inversion A; subst f'.
    destruct B as [a' B1 B2|a' B1 B2 B3|st B1 B2 B3]; [contradiction| |].
    - split; split; auto. intros _. exists a'. auto.
    - split; split; intros X; try contradiction.
      + destruct X as [a [_ [X _]]]. simpl in X. discriminate.
      + simpl in X. destruct B3 as [[-> _]|[-> _]]; discriminate.
  Qed.

  Lemma v2_address_field : forall a, v2_address w v' a -> exists i it pit gp, only_signal_field w v' i it pit gp /\ it_addr pit = Some a.
  Proof. intros a [l1 [i [l2 [it [pit [gp [_ [H1 [H2 _]]]]]]]]]. eauto 10. Qed.
End More.
