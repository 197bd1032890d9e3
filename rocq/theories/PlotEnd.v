(** * The default plot findings at the end of a validation *)

From Coq Require Import List NArith ZArith Bool String Lia Permutation Arith.
From Verif Require Import PyBase PyFacts Regex Utf8 H5 Findings Nxdl Core Catalog ItemName AttributeCheck
  GroupChecks AppDef DefaultPlot Validate Trace CheckFacts CatalogFacts Spec_Run Spec_Catalog Spec_Groups RunFacts AddrRecord GroupRun GroupEnd Spec_Plot PlotFacts PlotV2.
Import ListNotations.

Section PlotEnd.
  Variable c : ctx.
  Variable s0 : vstate.
  Hypothesis HI : cinv c s0.
  Hypothesis HR : rooted (h_name (c_root c)).
  Variable v : validator.
  Hypothesis X : ext s0 (v_st v).
  Notation E := (c_env c).
  Notation w := (c_world c).

  Lemma final_cp : st_cp (v_st v) = st_cp s0.
  Proof. destruct X as [lg T]. apply (tr_cp _ _ _ T). Qed.

  Lemma pair_of : forall i it0, nth_error (st_items s0) i = Some it0 -> exists it, nth_error (st_items (v_st v)) i = Some it /\ skel it = skel it0.
  Proof. intros. eapply ext_item; eauto. Qed.
  Lemma pair_back : forall i it, i < List.length (st_items s0) -> nth_error (st_items (v_st v)) i = Some it -> exists it0, nth_error (st_items s0) i = Some it0 /\ skel it = skel it0.
  Proof.
    intros i it HL Hi. destruct (nth_error (st_items s0) i) as [it0|] eqn:E0; [|apply nth_error_None in E0; lia].
    destruct (pair_of _ _ E0) as [it' [H1 H2]]. exists it0. split; auto. congruence.
  Qed.
  Lemma listed_lt : forall cp l i, In (cp, l) (st_cp s0) -> In i l -> i < List.length (st_items s0).
  Proof. intros cp l i H1 H2. destruct (ci_cpof _ _ HI _ _ _ H1 H2) as [it [H3 _]]. apply nth_error_Some. congruence. Qed.

  (** ** Version 3 *)
  Variable l : list nat.
  Hypothesis HL : l = match dget signal_path (st_cp s0) with Some l => l | None => [] end.

  Lemma listed_in_l : forall i it, listed_at v signal_path i it <-> In i l /\ nth_error (st_items (v_st v)) i = Some it.
  Proof.
    intros i it. unfold listed_at. rewrite final_cp. rewrite HL. split.
    - intros [H1 [l' [H2 H3]]]. split; auto. rewrite (In_aget_NoDup str_eqb str_eqb_eq _ _ _ (ci_cpkeys _ _ HI) H2 : dget _ _ = _). auto.
    - intros [H1 H2]. split; auto. destruct (dget signal_path (st_cp s0)) as [l'|] eqn:D; [|destruct H1]. exists l'. split; auto. apply dget_In. auto.
  Qed.
  Lemma l_lt : forall i, In i l -> i < List.length (st_items s0).
  Proof. intros i H. rewrite HL in H. destruct (dget signal_path (st_cp s0)) as [l'|] eqn:D; [|destruct H]. apply dget_In in D. eapply listed_lt; eauto. Qed.
  Lemma NoDup_part : forall A (ll : list (list A)) x, NoDup (List.concat ll) -> In x ll -> NoDup x.
  Proof.
    induction ll as [|y ll IH]; intros x ND H; [destruct H|]. simpl in ND. destruct H as [->|H].
    - clear - ND. induction x as [|a x IH]; constructor; simpl in ND; apply NoDup_cons_iff in ND as [N1 N2]; auto. intros H. apply N1. apply in_or_app. auto.
    - apply IH; auto. clear - ND. induction y as [|a y IH]; auto. simpl in ND. apply NoDup_cons_iff in ND as [_ ND]. auto.
  Qed.
  Lemma all_nodup : NoDup (List.concat (dvals (st_cp s0))).
  Proof. eapply Permutation_NoDup; [apply Permutation_sym; apply (ci_cpperm _ _ HI)|apply seq_NoDup]. Qed.
  Lemma l_nodup : NoDup l.
  Proof.
    rewrite HL. destruct (dget signal_path (st_cp s0)) as [l'|] eqn:D; [|constructor]. apply dget_In in D.
    apply (NoDup_part _ _ _ all_nodup). unfold dvals. change l' with (snd (signal_path, l')). apply in_map. auto.
  Qed.

  Lemma kind_final : forall i k, has_kind c s0 i k -> exists it, nth_error (st_items (v_st v)) i = Some it /\ addr_at s0 i (it_addr it) /\ it_addr it <> None /\
    match k with
    | None => (exists t, signal_exists E w v it t) /\ (forall t, ~ signal_plots E w v it t)
    | Some (t, n) => signal_plots E w v it t /\ (n = true <-> default_chain E w v it)
    end.
  Proof.
    intros i k [it0 [[H1 H1'] H2]]. destruct (pair_of _ _ H1) as [it [H3 H4]]. exists it. split; auto. rewrite (skel_addr _ _ H4). split; [exists it0; auto|]. split; auto.
    destruct k as [[t n]|].
    - destruct H2 as [H2 H5]. split; [apply (plots_iff c s0 HI _ _ _ t X H4); auto|]. rewrite H5. symmetry. apply (chain_iff c s0 HI _ _ _ X H4).
    - destruct H2 as [[t H2] H5]. split; [exists t; apply (exists_iff c s0 HI _ _ _ t X H4); auto|].
      intros t' Ht. apply (H5 t'). apply (plots_iff c s0 HI _ _ _ t' X H4); auto.
  Qed.

  Lemma report_app : forall l1 ks fss q l2 fs2, Forall2 (has_kind c s0) l1 ks ->
    Forall2 (fun x f => kind_findings s0 (fst x) (snd x) f) q fss -> map fst q = l1 -> map snd q = ks ->
    v3_report E w v l2 fs2 -> v3_report E w v (l1 ++ l2) (List.concat fss ++ fs2).
  Proof.
    intros l1 ks fss q l2 fs2 HK HF Q1 Q2 H. subst l1 ks. induction HF as [|[i k] f q fss HF1 HF IH]; simpl in *; auto.
    inversion HK as [|? ? ? ? K1 K2]; subst. specialize (IH K2). rewrite <- app_assoc. pose proof (kind_final _ _ K1) as [it [A1 [A2 [A3 A4]]]].
    destruct k as [[t n]|]; simpl in HF1.
    - destruct HF1 as [a [-> Ha]]. destruct A2 as [i1 [B1 B2]], Ha as [i2 [B3 B4]]. assert (EA : a = it_addr it) by congruence. rewrite EA.
      destruct A4 as [A4 _]. simpl. apply vr_data; eauto.
    - subst. simpl. destruct A4 as [A4 A5]. eapply vr_other; eauto.
  Qed.

  Lemma kind_tests : forall q fss, Forall2 (fun x f => kind_findings s0 (fst x) (snd x) f) q fss -> Forall (fun f => f_test f = v3_test /\ f_status f = OK) (List.concat fss).
  Proof.
    induction 1 as [|[i k] f q fss H _ IH]; simpl; [constructor|]. apply Forall_app. split; auto. simpl in H. destruct k as [[t n]|]; simpl in H.
    - destruct H as [a [-> _]]. constructor; auto.
    - subst. constructor.
  Qed.

  Lemma v3_end_report : forall fs r, v3_end c s0 [] None l fs r ->
    v3_report E w v l (filter (fun f => str_eqb (f_test f) v3_test) fs)
    /\ Forall (fun f => f_test f = v3_test \/ f_test f = niac_test) fs.
  Proof.
    intros fs r H. destruct H as [l1 i l2 ks fss it0 H1 H2 H3 H4 [q [H5 [H6 H7]]] H8|ks fss r H1 [q [H5 [H6 H7]]] H3].
    - pose proof (kind_tests _ _ H5) as KT. subst fs. split.
      + rewrite filter_all.
        * rewrite H1. apply (report_app l1 ks fss q); auto. destruct H3 as [H3 H3']. destruct (pair_of _ _ H3) as [it [A1 A2]].
          rewrite <- (skel_addr _ _ A2). apply vr_missing; auto. intros t Ht. apply (H4 t). apply (exists_iff c s0 HI _ _ _ t X A2). auto.
        * apply Forall_app. split; [|repeat constructor]. eapply Forall_impl; [|exact KT]. intros f [-> _]. reflexivity.
      + apply Forall_app. split; [|repeat constructor; auto]. eapply Forall_impl; [|exact KT]. intros f [-> _]. auto.
    - pose proof (kind_tests _ _ H5) as KT. assert (FA : filter (fun f => str_eqb (f_test f) v3_test) (List.concat fss) = List.concat fss).
      { apply filter_all. eapply Forall_impl; [|exact KT]. intros f [-> _]. reflexivity. }
      assert (R : v3_report E w v l (List.concat fss)).
      { rewrite <- (app_nil_r l), <- (app_nil_r (List.concat fss)). apply (report_app l ks fss q); auto. constructor. }
      destruct H3 as [[_ [-> _]]|[i [it [_ [_ [_ ->]]]]]].
      + rewrite FA. split; auto. eapply Forall_impl; [|exact KT]. intros f [-> _]. auto.
      + rewrite filter_app, FA. cbn [filter f_test]. change (str_eqb niac_test v3_test) with false. rewrite app_nil_r. split; auto.
        apply Forall_app. split; [|constructor; [right; reflexivity|constructor]]. eapply Forall_impl; [|exact KT]. intros f [-> _]. auto.
  Qed.

  (** *** The address *)
  Lemma chains_in : forall l ks, Forall2 (has_kind c s0) l ks -> forall i, In i (chains l ks) <-> In i l /\ exists t, has_kind c s0 i (Some (t, true)).
  Proof.
    induction 1 as [|j k l' ks HK H IH]; intros i; simpl; [tauto|].
    assert (TRUE : forall t, has_kind c s0 j (Some (t, true)) -> k = Some (t, true)).
    { intros t Ht. apply kind_final in Ht as [it [A1 [_ [_ [A2 A3]]]]]. apply kind_final in HK as [it' [B1 [_ [_ B2]]]]. assert (it' = it) by congruence. subst.
      destruct k as [[t' n]|].
      - destruct B2 as [B2 B3]. assert (n = true) by (apply B3; apply A3; auto). subst n.
        destruct B2 as [B2 _], A2 as [A2 _]. rewrite (signal_exists_fun _ _ _ _ _ _ _ _ HI X B2 A2). auto.
      - exfalso. eapply (proj2 B2); eauto. }
    destruct k as [[t [|]]|]; simpl; rewrite IH; split.
    - intros [<-|[H1 H2]]; [split; eauto|auto].
    - intros [[<-|H1] H2]; auto.
    - intros [H1 H2]; auto.
    - intros [[<-|H1] [t' H2]]; [|eauto]. apply TRUE in H2. discriminate.
    - intros [H1 H2]; auto.
    - intros [[<-|H1] [t' H2]]; [|eauto]. apply TRUE in H2. discriminate.
  Qed.
  Lemma chains_nodup : forall l ks, NoDup l -> NoDup (chains l ks).
  Proof.
    assert (S : forall l ks i, In i (chains l ks) -> In i l).
    { induction l0 as [|j l0 IH]; intros ks i H; [destruct ks; exact H|]. destruct ks as [|[[t [|]]|] ks]; simpl in H; [destruct H| | |].
      - destruct H as [H|H]; [left|right]; eauto.
      - right. eauto.
      - right. eauto. }
    induction l0 as [|j l0 IH]; intros ks ND; [destruct ks; constructor|]. apply NoDup_cons_iff in ND as [N1 N2].
    destruct ks as [|[[t [|]]|] ks]; simpl; auto; constructor; auto. intros H. apply N1. eauto.
  Qed.
  Lemma chain_plot_iff : forall i, In i l -> (forall k, In k l -> exists kk, has_kind c s0 k kk) ->
    ((exists it, chain_plot E w v i it) <-> exists t, has_kind c s0 i (Some (t, true))).
  Proof.
    intros i Hi HK. destruct (HK i Hi) as [k Hk]. split.
    - intros [it [H1 [[t H2] H3]]]. exists t. pose proof Hk as Hk'. apply kind_final in Hk' as [it' [A1 [A2 [A3 A4]]]].
      apply listed_in_l in H1 as [_ H1]. assert (it' = it) by congruence. subst it'. destruct k as [[t' n]|].
      + destruct A4 as [A4 A5]. assert (n = true) by (apply A5; auto). subst n.
        destruct H2 as [H2 _], A4 as [A4 _]. rewrite (signal_exists_fun _ _ _ _ _ _ _ _ HI X H2 A4). auto.
      + exfalso. eapply (proj2 A4); eauto.
    - intros [t Ht]. apply kind_final in Ht as [it [A1 [A2 [A3 [A4 A5]]]]]. exists it. split; [apply listed_in_l; auto|]. split; [eauto|]. apply A5. auto.
  Qed.

  Lemma last_target_some : forall ks l a r, Forall2 (has_kind c s0) l ks -> last_target a ks = Some r ->
    (a = Some r /\ Forall (fun k => k = None) ks) \/ exists l1 i l2 n, l = l1 ++ i :: l2 /\ has_kind c s0 i (Some (r, n)) /\ Forall (fun j => has_kind c s0 j None) l2.
  Proof.
    induction ks as [|k ks IH]; intros l0 a r HK H; inversion HK as [|j k' l' ks' H1 H2]; subst; simpl in H.
    - left. auto.
    - destruct k as [[t n]|].
      + destruct (IH _ _ _ H2 H) as [[E1 E2]|[l1 [i [l2 [m [-> [A B]]]]]]].
        * inversion E1; subst. right. exists [], j, l', n. split; auto. split; auto. clear - H2 E2. induction H2; constructor; apply Forall_inv in E2 as E3; apply Forall_inv_tail in E2; subst; auto.
        * right. exists (j :: l1), i, l2, m. auto.
      + destruct (IH _ _ _ H2 H) as [[E1 E2]|[l1 [i [l2 [m [-> [A B]]]]]]]; [left; auto|]. right. exists (j :: l1), i, l2, m. auto.
  Qed.
  Lemma last_target_none : forall ks, last_target None ks = None -> Forall (fun k => k = None) ks.
  Proof.
    assert (S : forall ks t, last_target (Some t) ks <> None). { induction ks as [|[[t n]|] ks IH]; intros x; simpl; auto; discriminate. }
    induction ks as [|[[t n]|] ks IH]; simpl; intros H; [constructor| |constructor; auto]. destruct (S _ _ H).
  Qed.

  Lemma v3_end_result : forall fs r, v3_end c s0 [] None l fs r ->
    niac_report E w v (filter (fun f => str_eqb (f_test f) niac_test) fs) /\
    match r with Some a => v3_found E w v /\ v3_address E w v a | None => ~ v3_found E w v end.
  Proof.
    intros fs r H. destruct H as [l1 i l2 ks fss it0 H1 H2 H3 H4 [q [H5 _]] H8|ks fss r HK [q [H5 _]] H3]; pose proof (kind_tests _ _ H5) as KT;
      (assert (FN : filter (fun f => str_eqb (f_test f) niac_test) (List.concat fss) = []) by (apply filter_none; eapply Forall_impl; [|exact KT]; intros f [-> _]; reflexivity)).
    - split.
      { destruct H3 as [H3 H3']. destruct (pair_of _ _ H3) as [it [A1 A2]]. subst fs. rewrite filter_app, FN. cbn [filter f_test]. change (str_eqb v3_test niac_test) with false.
        apply nr_missing with (j := i) (jt := it); [apply listed_in_l; split; auto; rewrite H1; apply in_or_app; right; left; auto|].
        intros t Ht. apply (H4 t). apply (exists_iff c s0 HI _ _ _ t X A2). auto. }
      intros [F _]. destruct H3 as [H3 H3']. destruct (pair_of _ _ H3) as [it [A1 A2]]. destruct (F i it) as [t Ht].
      + apply listed_in_l. split; auto. rewrite H1. apply in_or_app. right. left. auto.
      + apply (H4 t). apply (exists_iff c s0 HI _ _ _ t X A2). auto.
    - assert (KA : forall k, In k l -> exists kk, has_kind c s0 k kk).
      { clear - HK. induction HK; intros z []; subst; eauto. }
      assert (FA : forall i it, listed_at v signal_path i it -> exists t, signal_exists E w v it t).
      { intros i it H. apply listed_in_l in H as [H1 H2]. destruct (KA _ H1) as [k Hk]. apply kind_final in Hk as [it' [A1 [_ [_ A2]]]].
        assert (it' = it) by congruence. subst. destruct k as [[t n]|]; [exists t; apply A2|apply A2]. }
      assert (IN : forall i, In i (chains l ks) <-> exists it, chain_plot E w v i it).
      { intros i. rewrite (chains_in _ _ HK i). split.
        - intros [H1 H2]. apply chain_plot_iff; auto.
        - intros [it H1]. assert (Hi : In i l). { destruct H1 as [H1 _]. apply listed_in_l in H1. tauto. } split; auto. apply (chain_plot_iff i Hi KA). eauto. }
      pose proof (chains_nodup l ks l_nodup) as ND.
      simpl in H3. destruct H3 as [[N1 [E0 ->]]|[i [it0 [C1 [C2 [-> E0]]]]]].
      + assert (NO : forall i it, ~ only_chain_plot E w v i it).
        { intros i it [C1 C2]. apply N1. assert (Hi : In i (chains l ks)) by (apply IN; eauto). destruct (chains l ks) as [|x [|y ch]]; [destruct Hi|auto|]. exfalso.
          apply NoDup_cons_iff in ND as [ND _]. apply ND. left. destruct (proj1 (IN x) (or_introl eq_refl)) as [xt Hx]. destruct (proj1 (IN y) (or_intror (or_introl eq_refl))) as [yt Hy].
          rewrite (C2 _ _ Hx), (C2 _ _ Hy). auto. }
        split; [rewrite E0, FN; apply nr_none; exact NO|].
        destruct (last_target None ks) as [a|] eqn:LT.
        * destruct (last_target_some _ _ _ _ HK LT) as [[D _]|[l1 [i [l2 [n [E1 [E2 E3]]]]]]]; [discriminate|].
          apply kind_final in E2 as [it [A1 [A2 [A3 [A4 A5]]]]].
          assert (Hi : In i l) by (rewrite E1; apply in_or_app; right; left; auto).
          split; [split; auto; exists i, it, a; split; auto; apply listed_in_l; auto|].
          apply va_last with (l := l) (l1 := l1) (i := i) (l2 := l2) (it := it); auto.
          -- rewrite final_cp. rewrite HL in Hi |- *. destruct (dget signal_path (st_cp s0)) eqn:D; [|destruct Hi]. apply dget_In. auto.
          -- intros j jt Hj Hjt t Ht. rewrite Forall_forall in E3. apply E3 in Hj. apply kind_final in Hj as [jt' [B1 [_ [_ [_ B2]]]]]. assert (jt' = jt) by congruence. subst. eapply B2; eauto.
        * apply last_target_none in LT. intros [_ [i [it [t [H1 H2]]]]]. apply listed_in_l in H1 as [H1 H3].
          assert (K : has_kind c s0 i None). { clear - HK LT H1. induction HK; [destruct H1|]; destruct H1 as [<-|H1]; apply Forall_inv in LT as L1; apply Forall_inv_tail in LT; subst; auto. }
          apply kind_final in K as [it' [A1 [_ [_ [_ A2]]]]]. assert (it' = it) by congruence. subst. eapply A2; eauto.
      + destruct (pair_of _ _ C2) as [it [A1 A2]]. assert (Hi : In i (chains l ks)) by (rewrite C1; left; auto). pose proof (proj1 (IN i) Hi) as [it' CP].
        assert (it' = it). { destruct CP as [CP _]. apply listed_in_l in CP as [_ CP]. congruence. } subst it'.
        pose proof (proj1 (chains_in _ _ HK i) Hi) as [_ [t Ht]]. destruct Ht as [it1 [[B1 B2] _]]. assert (it1 = it0) by congruence. subst it1.
        assert (OC : only_chain_plot E w v i it). { split; auto. intros j jt Hj. assert (In j (chains l ks)) by (apply IN; eauto). rewrite C1 in H. destruct H as [H|[]]. auto. }
        split.
        { rewrite E0, filter_app, FN. cbn [filter f_test app]. change (str_eqb niac_test niac_test) with true. cbv iota. rewrite <- (skel_addr _ _ A2). apply nr_one with (i := i); auto. }
        destruct (it_addr it0) as [a|] eqn:Ea; [|congruence]. split.
        * split; auto. destruct CP as [P1 [[t' P2] _]]. eauto.
        * apply va_chain with (i := i) (it := it); [auto|rewrite (skel_addr _ _ A2); auto].
  Qed.
End PlotEnd.

Section PlotEnd2.
  Variable c : ctx.
  Variable s0 : vstate.
  Hypothesis HI : cinv c s0.
  Variable v : validator.
  Hypothesis X : ext s0 (v_st v).
  Notation w := (c_world c).
  Notation L := (signal_items (st_cp s0)).
  Notation sfa := (sfa c s0).

  (** ** Version 2 *)
  Definition inL (i : nat) : bool := match nth_error (st_items s0) i with Some it => endswith (it_cp it) (py "@signal") | None => false end.
  Definition all0 : list nat := List.concat (map snd (st_cp s0)).

  Lemma all_items_eq : all_items v = all0.
  Proof. unfold all_items. rewrite (final_cp s0 v X). reflexivity. Qed.
  Lemma all0_nodup : NoDup all0.
  Proof. exact (all_nodup c s0 HI). Qed.

  Lemma L_filter : L = filter inL all0.
  Proof.
    unfold signal_items, all0. assert (G : forall k l i, In (k, l) (st_cp s0) -> In i l -> inL i = endswith k (py "@signal")).
    { intros k l i H1 H2. destruct (ci_cpof _ _ HI _ _ _ H1 H2) as [it [H3 H4]]. unfold inL. rewrite H3, H4. reflexivity. }
    induction (st_cp s0) as [|[k l] cp IH]; [reflexivity|]. cbn [flat_map map List.concat fst snd]. rewrite filter_app, <- IH by (intros; eapply G; eauto; right; eauto).
    f_equal. destruct (endswith k (py "@signal")) eqn:Ek.
    - symmetry. apply filter_all. apply Forall_forall. intros i Hi. rewrite (G k l i); auto. left. auto.
    - symmetry. apply filter_none. apply Forall_forall. intros i Hi. rewrite (G k l i); auto. left. auto.
  Qed.
  Lemma L_nodup : NoDup L.
  Proof. rewrite L_filter. apply NoDup_filter. apply all0_nodup. Qed.

  Lemma in_L : forall i, In i L <-> exists cp l d, In (cp, l) (st_cp s0) /\ In i l /\ cp = d ++ py "@signal".
  Proof.
    intros i. unfold signal_items. rewrite in_flat_map. split.
    - intros [[cp l] [H1 H2]]. cbn [fst snd] in H2. destruct (endswith cp (py "@signal")) eqn:Ee; [|destruct H2]. apply endswith_spec in Ee as [d ->]. exists (d ++ py "@signal"), l, d. auto.
    - intros [cp [l [d [H1 [H2 H3]]]]]. exists (cp, l). split; auto. cbn [fst snd]. rewrite (proj2 (endswith_spec cp (py "@signal"))); auto. exists d. auto.
  Qed.
  Lemma listed_L : forall i it, nth_error (st_items (v_st v)) i = Some it -> ((exists cp, listed_at v cp i it /\ exists d, cp = d ++ py "@signal") <-> In i L).
  Proof.
    intros i it Hi. rewrite in_L. unfold listed_at. rewrite (final_cp s0 v X). split.
    - intros [cp [[_ [l [H1 H2]]] [d H3]]]. exists cp, l, d. auto.
    - intros [cp [l [d [H1 [H2 H3]]]]]. exists cp. split; [|eauto]. split; eauto.
  Qed.

  Lemma upF : forall i it, i < List.length (st_items s0) -> nth_error (st_items (v_st v)) i = Some it -> up s0 i = it_parent it.
  Proof.
    intros i it HL Hi. destruct (pair_back s0 v X i it HL Hi) as [it0 [H1 H2]]. unfold up. rewrite H1. apply skel_eq in H2 as [H2 _]. auto.
  Qed.
  Lemma up_lt : forall i p, up s0 i = Some p -> p < List.length (st_items s0).
  Proof. intros i p H. destruct (parent0 c s0 HI _ _ H) as [_ [pit H1]]. apply nth_error_Some. congruence. Qed.

  Lemma sf_iff : forall i a, (exists it pit gp, signal_field w v i it pit gp /\ it_addr gp = a) <-> In i L /\ sfa i = Some a.
  Proof.
    intros i a. split.
    - intros [it [pit [gp [[H1 [[p [g [P1 [P2 [P3 P4]]]]] [[h [H2 H3]] H4]]] H5]]]].
      assert (Hi : nth_error (st_items (v_st v)) i = Some it). { destruct H1 as [cp [[H1 _] _]]. auto. }
      apply (listed_L _ _ Hi) in H1. split; auto. pose proof (signals_lt c s0 HI i H1) as HL.
      destruct (item_skel s0 _ _ _ X HL Hi) as [O1 _]. pose proof (upF _ _ HL Hi) as U. rewrite P1 in U. pose proof (up_lt _ _ U) as HLp.
      destruct (item_skel s0 _ _ _ X HLp P2) as [O2 _]. pose proof (upF _ _ HLp P2) as Ug. rewrite P3 in Ug. pose proof (up_lt _ _ Ug) as HLg.
      destruct (item_skel s0 _ _ _ X HLg P4) as [_ O3].
      unfold PlotV2.sfa, on_dataset, is_one. rewrite U, O1, O2, H2, H4. cbn [hobj_isdataset]. rewrite H3. change (str_eqb (py "1") (py "1")) with true. cbn [andb]. rewrite Ug, O3, H5. reflexivity.
    - intros [H1 H2]. pose proof (signals_lt c s0 HI i H1) as HL. destruct (nth_error (st_items s0) i) as [it0|] eqn:E0; [|apply nth_error_None in E0; lia].
      destruct (pair_of s0 v X _ _ E0) as [it [Hi Si]]. destruct (item_skel s0 _ _ _ X HL Hi) as [O1 _].
      unfold PlotV2.sfa, on_dataset, is_one in H2. rewrite O1 in H2. destruct (up s0 i) as [p|] eqn:U; [|discriminate].
      destruct (parent0 c s0 HI _ _ U) as [_ [pit0 Hp0]]. destruct (pair_of s0 v X _ _ Hp0) as [pit [Hp Sp]]. destruct (item_skel s0 _ _ _ X (up_lt _ _ U) Hp) as [O2 _]. rewrite O2 in H2.
      destruct (hobj_isdataset w (it_obj pit)) eqn:D; [|discriminate]. destruct (str_eqb (hobj_str (it_obj it)) (py "1")) eqn:S1; [|discriminate]. cbn [andb] in H2.
      destruct (up s0 p) as [g|] eqn:Ug; [|discriminate]. destruct (parent0 c s0 HI _ _ Ug) as [_ [gp0 Hg0]]. destruct (pair_of s0 v X _ _ Hg0) as [gp [Hg Sg]].
      destruct (item_skel s0 _ _ _ X (up_lt _ _ Ug) Hg) as [_ O3]. exists it, pit, gp. split; [|rewrite <- O3; congruence].
      split; [apply (listed_L _ _ Hi); auto|]. split.
      + exists p, g. rewrite <- (upF _ _ HL Hi), <- (upF _ _ (up_lt _ _ U) Hp). auto.
      + split; [|apply str_eqb_eq; auto]. destruct (it_obj pit) as [h|]; [|discriminate]. exists h. auto.
  Qed.

  Lemma sf_some : forall i it pit gp, signal_field w v i it pit gp -> In i L /\ sfa i = Some (it_addr gp).
  Proof. intros. apply sf_iff. exists it, pit, gp. auto. Qed.

  Lemma group_one : forall a i, In i L -> sfa i = Some a -> (List.length (group_of c s0 a L) = 1 <-> forall j, In j L -> sfa j = Some a -> j = i).
  Proof.
    intros a i Hi Hs. assert (IG : In i (group_of c s0 a L)) by (apply filter_In; split; auto; apply in_group_iff; auto).
    pose proof (NoDup_filter (in_group c s0 a) L_nodup) as ND. fold (group_of c s0 a L) in ND. split.
    - intros HL j Hj Hsj. assert (JG : In j (group_of c s0 a L)) by (apply filter_In; split; auto; apply in_group_iff; auto).
      destruct (group_of c s0 a L) as [|x [|y g]]; try discriminate. destruct IG as [<-|[]], JG as [<-|[]]. auto.
    - intros H. destruct (group_of c s0 a L) as [|x [|y g]] eqn:EG; [destruct IG|auto|exfalso].
      assert (K : forall z, In z (group_of c s0 a L) -> z = i). { intros z Hz. apply filter_In in Hz as [Z1 Z2]. apply in_group_iff in Z2. auto. }
      rewrite EG in K. rewrite (K x), (K y) in ND by (simpl; auto). apply NoDup_cons_iff in ND as [ND _]. apply ND. left. auto.
  Qed.

  Lemma only_iff : forall i, (exists it pit gp, only_signal_field w v i it pit gp) <-> In i L /\ alone c s0 L i = true.
  Proof.
    intros i. unfold alone. split.
    - intros [it [pit [gp [H1 H2]]]]. apply sf_some in H1 as [S1 S2]. split; auto. rewrite S2. apply Nat.eqb_eq. apply (group_one _ _ S1 S2).
      intros j Hj Hs. destruct (proj2 (sf_iff j (it_addr gp)) (conj Hj Hs)) as [jt [pjt [gj [J1 J2]]]]. eapply H2; eauto.
    - intros [H1 H2]. destruct (sfa i) as [a|] eqn:Ea; [|discriminate]. apply Nat.eqb_eq in H2.
      destruct (proj2 (sf_iff i a) (conj H1 Ea)) as [it [pit [gp [J1 J2]]]]. exists it, pit, gp. split; auto.
      intros j jt pjt gj Hj Hg. apply sf_some in Hj as [K1 K2]. apply (proj1 (group_one _ _ H1 Ea) H2); auto. congruence.
  Qed.

  Lemma several_iff : forall a, several_signal_fields w v a <-> 1 < List.length (group_of c s0 a L).
  Proof.
    intros a. pose proof (NoDup_filter (in_group c s0 a) L_nodup) as ND. fold (group_of c s0 a L) in ND.
    assert (K : forall z, In z (group_of c s0 a L) <-> In z L /\ sfa z = Some a). { intros z. unfold group_of. rewrite filter_In, in_group_iff. tauto. }
    split.
    - intros [i [it [pit [gp [j [jt [pjt [gj [N [H1 [H2 [H3 H4]]]]]]]]]]]]. apply sf_some in H1. apply sf_some in H2. rewrite H3 in H1. rewrite H4 in H2.
      apply K in H1, H2. destruct (group_of c s0 a L) as [|x [|y g]]; simpl; [destruct H1| |lia]. destruct H1 as [<-|[]], H2 as [<-|[]]. congruence.
    - intros H. destruct (group_of c s0 a L) as [|x [|y g]]; simpl in H; try lia. destruct (proj1 (K x) (or_introl eq_refl)) as [X1 X2]. destruct (proj1 (K y) (or_intror (or_introl eq_refl))) as [Y1 Y2].
      destruct (proj2 (sf_iff x a) (conj X1 X2)) as [it [pit [gp [J1 J2]]]]. destruct (proj2 (sf_iff y a) (conj Y1 Y2)) as [it' [pit' [gp' [J1' J2']]]].
      exists x, it, pit, gp, y, it', pit', gp'. repeat (split; auto). intros ->. apply NoDup_cons_iff in ND as [ND _]. apply ND. left. auto.
  Qed.

  Lemma other_iff : forall i, (exists it, other_signal w v i it) <-> In i L /\ on_dataset c s0 i = true /\ is_one s0 i = false.
  Proof.
    intros i. split.
    - intros [it [H1 [[p [pit [h [P1 [P2 [P3 P4]]]]]] H4]]]. assert (Hi : nth_error (st_items (v_st v)) i = Some it). { destruct H1 as [cp [[H1 _] _]]. auto. }
      apply (listed_L _ _ Hi) in H1. split; auto. pose proof (signals_lt c s0 HI i H1) as HL.
      destruct (item_skel s0 _ _ _ X HL Hi) as [O1 _]. pose proof (upF _ _ HL Hi) as U. rewrite P1 in U. pose proof (up_lt _ _ U) as HLp.
      destruct (item_skel s0 _ _ _ X HLp P2) as [O2 _]. unfold on_dataset, is_one. rewrite U, O1, O2, P3. split; auto.
      destruct (str_eqb_spec (hobj_str (it_obj it)) (py "1")); auto. congruence.
    - intros [H1 [H2 H3]]. pose proof (signals_lt c s0 HI i H1) as HL. destruct (nth_error (st_items s0) i) as [it0|] eqn:E0; [|apply nth_error_None in E0; lia].
      destruct (pair_of s0 v X _ _ E0) as [it [Hi Si]]. destruct (item_skel s0 _ _ _ X HL Hi) as [O1 _]. unfold on_dataset, is_one in *. rewrite O1 in H3.
      destruct (up s0 i) as [p|] eqn:U; [|discriminate].
      destruct (parent0 c s0 HI _ _ U) as [_ [pit0 Hp0]]. destruct (pair_of s0 v X _ _ Hp0) as [pit [Hp Sp]]. destruct (item_skel s0 _ _ _ X (up_lt _ _ U) Hp) as [O2 _]. rewrite O2 in H2.
      exists it. split; [apply (listed_L _ _ Hi); auto|]. split.
      + destruct (it_obj pit) as [h|] eqn:Oh; [|discriminate]. exists p, pit, h. rewrite <- (upF _ _ HL Hi). auto.
      + intros Z. rewrite Z in H3. discriminate.
  Qed.

  (** ** Findings *)
  Lemma spread : forall A (P Q : nat -> list A -> Prop) (b : nat -> bool) all fss, Forall2 P (filter b all) fss ->
    (forall i fs, In i all -> b i = true -> P i fs -> Q i fs) -> (forall i, In i all -> b i = false -> Q i []) ->
    exists gss, Forall2 Q all gss /\ List.concat gss = List.concat fss.
  Proof.
    intros A P Q b. induction all as [|i all IH]; intros fss HF H1 H2; simpl in HF.
    - inversion HF; subst. exists []. auto.
    - destruct (b i) eqn:Eb.
      + inversion HF as [|x fs l r HP HF']; subst. destruct (IH _ HF') as [gss [G1 G2]]; [intros; apply H1; auto; right; auto|intros; apply H2; auto; right; auto|].
        exists (fs :: gss). split; [constructor; auto; apply H1; auto; left; auto|]. simpl. congruence.
      + destruct (IH _ HF) as [gss [G1 G2]]; [intros; apply H1; auto; right; auto|intros; apply H2; auto; right; auto|].
        exists ([] :: gss). split; [constructor; auto; apply H2; auto; left; auto|]. auto.
  Qed.

  Lemma addr0_final : forall i it, i < List.length (st_items s0) -> nth_error (st_items (v_st v)) i = Some it -> addr0 s0 i = it_addr it.
  Proof. intros i it HL Hi. apply (item_skel s0 _ _ _ X HL Hi). Qed.

  Lemma items_report : forall fs1, Forall2 (v2_kind c s0) L fs1 -> Forall (grouped c s0) L ->
    exists gss, Forall2 (v2_item_report w v) (all_items v) gss /\ List.concat gss = List.concat fs1.
  Proof.
    intros fs1 H G. rewrite all_items_eq. rewrite L_filter in H. eapply spread; [exact H| |].
    - intros i fs Hi Hb K. assert (IL : In i L) by (rewrite L_filter; apply filter_In; auto). rewrite Forall_forall in G. pose proof (G i IL) as Gi.
      pose proof (signals_lt c s0 HI i IL) as HL. unfold v2_kind in K. destruct (on_dataset c s0 i) eqn:ED.
      + destruct K as [a0 [o [K1 [K2 ->]]]]. destruct (is_one s0 i) eqn:E1.
        * unfold grouped in Gi. rewrite ED, E1 in Gi. destruct (Gi eq_refl) as [a Ha]. destruct (proj2 (sf_iff i a) (conj IL Ha)) as [it [pit [gp [J1 J2]]]].
          assert (Hit : nth_error (st_items (v_st v)) i = Some it) by (destruct J1 as [[cp [[J1 _] _]] _]; auto). rewrite (addr0_final i it HL Hit) in K1. eapply v2_one; eauto.
        * destruct (proj2 (other_iff i) (conj IL (conj ED E1))) as [it J1]. assert (Hit : nth_error (st_items (v_st v)) i = Some it) by (destruct J1 as [[cp [[J1 _] _]] _]; auto). rewrite (addr0_final i it HL Hit) in K1.
          assert (EO : o = it_obj it) by (destruct (item_skel s0 _ _ _ X HL Hit); congruence). rewrite EO. apply v2_other; auto.
      + subst fs. apply v2_none.
        * intros it pit gp J. apply sf_some in J as [_ J]. unfold PlotV2.sfa in J. rewrite ED in J. discriminate.
        * intros it J. destruct (proj1 (other_iff i) (ex_intro _ it J)) as [_ [J1 _]]. congruence.
    - intros i Hi Hb. assert (NL : ~ In i L) by (rewrite L_filter; rewrite filter_In; intros [_ Z]; congruence). apply v2_none.
      + intros it pit gp J. apply sf_some in J as [J _]. auto.
      + intros it J. destruct (proj1 (other_iff i) (ex_intro _ it J)) as [J1 _]. auto.
  Qed.

  Definition plotb (i : nat) : bool := inL i && alone c s0 L i.
  Lemma plot_filter : filter (alone c s0 L) L = filter plotb all0.
  Proof.
    rewrite L_filter at 2. symmetry. apply filter_filter_ext. intros i _. unfold plotb. apply andb_comm.
  Qed.
  Lemma plotb_iff : forall i, In i all0 -> (plotb i = true <-> exists it pit gp, only_signal_field w v i it pit gp).
  Proof.
    intros i Hi. rewrite only_iff. unfold plotb. rewrite andb_true_iff. rewrite L_filter at 2. rewrite filter_In. tauto.
  Qed.

  Lemma plots_report : forall fsp, Forall2 (fun i fs => exists a, addr0 s0 i = Some a /\ fs = [mkF (Some a) v2_test OK (py "found plottable data: " ++ a)]) (filter (alone c s0 L) L) fsp ->
    exists gss, Forall2 (v2_plot_report w v) (all_items v) gss /\ List.concat gss = List.concat fsp.
  Proof.
    intros fsp H. rewrite all_items_eq. rewrite plot_filter in H. eapply spread; [exact H| |].
    - intros i fs Hi Hb [a [K1 ->]]. apply plotb_iff in Hb as Hb'; auto. destruct Hb' as [it [pit [gp J]]].
      assert (IL : In i L) by (destruct J as [J _]; apply sf_some in J as [J _]; auto).
      rewrite (addr0_final i it (signals_lt c s0 HI i IL)) in K1; [eapply v2_plot; eauto|]. destruct J as [[[cp [[J1 _] _]] _] _]. auto.
    - intros i Hi Hb. apply v2_no_plot. intros it pit gp J. assert (plotb i = true) by (apply plotb_iff; eauto). congruence.
  Qed.

  Lemma filter_concat : forall A (p : A -> bool) ll, filter p (List.concat ll) = List.concat (map (filter p) ll).
  Proof. induction ll; simpl; auto. rewrite filter_app. congruence. Qed.

  Lemma decision_plots : forall rv fs2, Forall2 (decision s0) rv fs2 ->
    exists fsp, Forall2 (fun i fs => exists a, addr0 s0 i = Some a /\ fs = [mkF (Some a) v2_test OK (py "found plottable data: " ++ a)]) (flat_map single rv) fsp
      /\ filter (fun f => str_eqb (f_test f) v2_test) (List.concat fs2) = List.concat fsp.
  Proof.
    induction 1 as [|[a li] fs rv fs2 H1 H2 [fsp [I1 I2]]]; [exists []; split; [constructor|auto]|]. cbn [flat_map List.concat]. rewrite filter_app. rewrite I2.
    unfold decision in H1. cbn [snd fst] in H1. destruct li as [|i [|j li]].
    - subst fs. exists fsp. auto.
    - destruct H1 as [b [K1 ->]]. exists ([mkF (Some b) v2_test OK (py "found plottable data: " ++ b)] :: fsp). split; [constructor; eauto|]. reflexivity.
    - destruct H1 as [f [-> [_ [b ->]]]]. exists fsp. auto.
  Qed.

  Lemma decision_several : forall rv fs2, Forall2 (decision s0) rv fs2 ->
    let fs := filter (fun f => str_eqb (f_test f) several_test) (List.concat fs2) in
    Forall several_finding fs /\ map f_addr fs = map fst (filter (fun x => Nat.ltb 1 (List.length (snd x))) rv).
  Proof.
    induction 1 as [|[a li] fs rv fs2 H1 H2 IH]; [simpl; auto|]. cbv zeta in *. cbn [List.concat]. rewrite filter_app. destruct IH as [I1 I2].
    unfold decision in H1. cbn [snd fst] in H1. destruct li as [|i [|j li]]; cbn [filter snd List.length Nat.ltb Nat.leb].
    - subst fs. auto.
    - destruct H1 as [b [_ ->]]. auto.
    - destruct H1 as [f [-> [Ha [b ->]]]]. cbn [filter f_test app]. change (str_eqb several_test several_test) with true. cbn [app map f_addr] in *. rewrite I2, <- Ha. split; [constructor; auto; exists b; auto|reflexivity].
  Qed.

  Lemma several_report : forall rv, reviewed c s0 L rv ->
    let l := map fst (filter (fun x => Nat.ltb 1 (List.length (snd x))) rv) in NoDup l /\ forall a, In a l <-> several_signal_fields w v a.
  Proof.
    intros rv RV. cbv zeta. split.
    - pose proof (rv_keys _ _ _ _ RV) as ND. clear RV. induction rv as [|[a li] rv IH]; simpl; [constructor|]. simpl in ND. apply NoDup_cons_iff in ND as [N1 N2].
      destruct (Nat.ltb 1 (List.length li)); simpl; auto. constructor; auto. intros H. apply N1. apply in_map_iff in H as [y [Y1 Y2]]. apply filter_In in Y2 as [Y2 _]. apply in_map_iff. eauto.
    - intros a. rewrite several_iff. split.
      + intros H. apply in_map_iff in H as [[b li] [H1 H2]]. simpl in H1. subst b. apply filter_In in H2 as [H2 H3]. apply Nat.ltb_lt in H3. simpl in H3.
        apply (rv_in _ _ _ _ RV) in H2 as [-> _]. auto.
      + intros H. destruct (group_of c s0 a L) as [|x g] eqn:EG; [simpl in H; lia|].
        assert (Hx : In x (group_of c s0 a L)) by (rewrite EG; left; auto). apply filter_In in Hx as [X1 X2]. apply in_group_iff in X2.
        pose proof (rv_all _ _ _ _ RV _ _ X1 X2) as K. apply in_map_iff in K as [[b li] [K1 K2]]. simpl in K1. subst b. apply in_map_iff. exists (a, li). split; auto.
        apply filter_In. split; auto. apply (rv_in _ _ _ _ RV) in K2 as [-> _]. apply Nat.ltb_lt. simpl. rewrite EG. auto.
  Qed.

  (** ** The address *)
  Lemma filter_last : forall A (p : A -> bool) l x i, filter p l = x ++ [i] -> exists a b, l = a ++ i :: b /\ p i = true /\ filter p b = [].
  Proof.
    induction l as [|y l IH]; intros x i H; simpl in H; [destruct x; discriminate|]. destruct (p y) eqn:Ey.
    - destruct x as [|x0 x].
      + inversion H; subst. exists [], l. auto.
      + inversion H; subst. destruct (IH _ _ H2) as [a [b [-> [H3 H4]]]]. exists (x0 :: a), b. auto.
    - destruct (IH _ _ H) as [a [b [-> [H3 H4]]]]. exists (y :: a), b. auto.
  Qed.

  Lemma v2_result : forall r, r = fold_left (fun _ i => field_addr s0 i) (filter (alone c s0 L) L) None ->
    match r with Some a => v2_found w v /\ v2_address w v a | None => ~ v2_found w v end.
  Proof.
    intros r ->. rewrite plot_filter. destruct (filter plotb all0) as [|x0 xs] eqn:EF.
    - simpl. intros [i [it [pit [gp J]]]].
      assert (Hi : In i all0). { assert (IL : In i L) by (destruct J as [J _]; apply sf_some in J as [J _]; auto). rewrite L_filter in IL. apply filter_In in IL. tauto. }
      assert (In i (filter plotb all0)) by (apply filter_In; split; auto; apply plotb_iff; eauto). rewrite EF in H. destruct H.
    - assert (NE : x0 :: xs <> []) by discriminate. destruct (exists_last NE) as [pre [i Ep]]. rewrite Ep in *. clear x0 xs NE Ep. rewrite fold_left_app. simpl.
      destruct (filter_last _ _ _ _ _ EF) as [l1 [l2 [A1 [A2 A3]]]]. assert (Hi : In i all0) by (rewrite A1; apply in_or_app; right; left; auto).
      apply plotb_iff in A2 as J; auto. destruct J as [it [pit [gp J]]].
      assert (FA : exists a, field_addr s0 i = Some a /\ it_addr pit = Some a).
      { pose proof J as [J1 _]. assert (IL : In i L) by (apply sf_some in J1 as [J1 _]; auto). pose proof (signals_lt c s0 HI i IL) as HL.
        destruct J1 as [J1 [[p [g [P1 [P2 _]]]] [[h [O1 _]] _]]]. assert (Hit : nth_error (st_items (v_st v)) i = Some it) by (destruct J1 as [cp [[J1 _] _]]; auto).
        pose proof (upF _ _ HL Hit) as U. rewrite P1 in U. unfold field_addr. rewrite U. rewrite (addr0_final p pit (up_lt _ _ U) P2).
        destruct (pair_back s0 v X p pit (up_lt _ _ U) P2) as [pit0 [Q1 Q2]]. pose proof (skel_eq _ _ Q2) as [_ [QO _]]. rewrite (skel_addr _ _ Q2). rewrite QO in O1.
        exists (h_name h). split; eapply node_addr; eauto. }
      destruct FA as [a [F1 F2]]. rewrite F1. split; [exists i, it, pit, gp; auto|].
      exists l1, i, l2, it, pit, gp. rewrite all_items_eq. split; auto. split; auto. split; auto. intros j jt pjt gj Hj K.
      assert (In j (filter plotb l2)). { apply filter_In. split; auto. apply plotb_iff; [rewrite A1; apply in_or_app; right; right; auto|eauto]. } rewrite A3 in H. destruct H.
  Qed.
End PlotEnd2.
