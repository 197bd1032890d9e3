(** * Findings about groups at the end of a validation *)

From Coq Require Import List NArith ZArith Bool String Lia Permutation.
From Verif Require Import PyBase PyFacts Regex Utf8 H5 Findings Nxdl Core Catalog ItemName AttributeCheck
  GroupChecks AppDef DefaultPlot Validate Trace CheckFacts CatalogFacts Spec_Run Spec_Catalog Spec_Groups RunFacts AddrRecord
  PathFacts CatalogTerm PresenceFacts GroupRun.
Import ListNotations.

(** ** Reports depend on items and classes only up to findings and minOccurs *)
Lemma group_report_skel : forall E w cl a b h fs, skel a = skel b -> group_report E w cl a h fs -> group_report E w cl b h fs.
Proof.
  intros E w cl a b h fs H R. pose proof (skel_eq _ _ H) as [_ [_ [_ [EA [EC _]]]]].
  destruct R as [H1|cls H1 H2|cls d cm attrs ch fl gr fn gn an H1 H2 H3 H4 H5 H6 H7 H8 H9 H10]; rewrite EA in *.
  - apply gr_other. congruence.
  - apply gr_unknown; auto. eapply has_class_skel; eauto.
  - eapply gr_known; eauto; [eapply has_class_skel; eauto|]. clear - H H5. induction H5; constructor; auto. eapply attribute_report_skel; eauto.
Qed.

Lemma group_report_strip : forall E w cl cl' it h fs, strip_classes cl = strip_classes cl' -> group_report E w cl it h fs -> group_report E w cl' it h fs.
Proof.
  intros E w cl cl' it h fs H R.
  destruct R as [H1|cls H1 H2|cls d cm attrs ch fl gr fn gn an H1 H2 H3 H4 H5 H6 H7 H8 H9 H10]; [apply gr_other; auto| |];
    pose proof (strip_get _ _ cls H) as G; rewrite H2 in G.
  - apply gr_unknown; auto. destruct (dget cls cl'); [discriminate|auto].
  - destruct (dget cls cl') as [d'|] eqn:Ed; [|discriminate]. assert (SD : strip_def d = strip_def d') by (cbn [option_map] in G; congruence). pose proof (strip_def_eq _ _ SD) as [E1 [E2 [E3 [E4 [E5 E6]]]]].
    rewrite E2. apply (gr_known E w cl' it h cls d' cm attrs ch fl gr fn gn an); auto.
    + unfold base_class_text in *. rewrite <- E2. exact H3.
    + clear - SD H5. induction H5; constructor; auto. eapply attribute_report_def; eauto.
    + clear - SD H6. induction H6; constructor; auto. eapply child_finding_def; eauto.
    + rewrite <- E4. exact H7.
    + rewrite <- E6. exact H9.
Qed.

Lemma entry_report_skel : forall E w cl a b fs, skel a = skel b -> entry_report E w cl a fs -> entry_report E w cl b fs.
Proof.
  intros E w cl a b fs H R. pose proof (skel_eq _ _ H) as [_ [EO _]]. destruct R as [[h [H1 [H2 H3]]]|[H1 H2]]; [left|right].
  - exists h. split; [congruence|]. split; auto. eapply group_report_skel; eauto.
  - rewrite <- EO. auto.
Qed.

(** ** Step 2 *)
Lemma step2_reports : forall c cl s1 s2 s3 s4 s5 l1 l2 l3 l4, run_ok c cl s1 s2 s3 s4 s5 l1 l2 l3 l4 ->
  exists fss, recs l2 = List.concat fss /\
    Forall2 (fun (ai : option pystr * nat) fs => exists it, nth_error (st_items s5) (snd ai) = Some it /\ it_addr it = fst ai
                /\ entry_report (c_env c) (c_world c) cl it fs) (st_addr s5) fss.
Proof.
  intros c cl s1 s2 s3 s4 s5 l1 l2 l3 l4 R. pose proof (ro_inv _ _ _ _ _ _ _ _ _ _ _ R) as HI.
  pose proof (ro_t1 _ _ _ _ _ _ _ _ _ _ _ R) as T1. pose proof (ro_t2 _ _ _ _ _ _ _ _ _ _ _ R) as T2.
  pose proof (ro_t3 _ _ _ _ _ _ _ _ _ _ _ R) as T3. pose proof (ro_t4 _ _ _ _ _ _ _ _ _ _ _ R) as T4.
  assert (X12 : ext s1 s2) by (exists l1; auto).
  assert (X25 : ext s2 s5). { eapply ext_trans; [exists l2; exact T2|]. eapply ext_trans; [exists l3; exact T3|exists l4; exact T4]. }
  assert (EA : st_addr s5 = st_addr s2) by (rewrite (tr_addr _ _ _ T4), (tr_addr _ _ _ T3), (tr_addr _ _ _ T2); auto).
  assert (EA1 : st_addr s2 = st_addr s1) by exact (tr_addr _ _ _ T1).
  assert (SC : strip_classes (st_classes s2) = strip_classes cl).
  { rewrite (proj2 (ro_r1 _ _ _ _ _ _ _ _ _ _ _ R)), (ro_cl _ _ _ _ _ _ _ _ _ _ _ R). reflexivity. }
  assert (LOOP : forall l s s', (forall ai, In ai l -> In ai (st_addr s1)) -> ext s2 s -> strip_classes (st_classes s) = strip_classes cl ->
    for_each (check_group c) (map snd l) s = (s', Ok tt) ->
    exists fss, rec_run s (List.concat fss) s' /\
      Forall2 (fun (ai : option pystr * nat) fs => exists it, nth_error (st_items s5) (snd ai) = Some it /\ it_addr it = fst ai
                /\ entry_report (c_env c) (c_world c) cl it fs) l fss).
  { induction l as [|[a i] l IH]; intros s s' Hl X SS H; cbn [map for_each] in H.
    - apply ret_ok in H as [-> _]. exists []. split; [apply rec_run_nil|constructor].
    - cbn [snd] in H. apply bind_ok in H as [u [sm [H1 H]]].
      destruct (ci_addrof _ _ HI _ _ (Hl _ (or_introl eq_refl))) as [it0 [Hi0 Ha0]].
      destruct (ext_item _ _ _ _ (ext_trans _ _ _ X12 X) Hi0) as [it1 [Hi1 S1]].
      destruct (ext_item _ _ _ _ (ext_trans _ _ _ X12 X25) Hi0) as [it5 [Hi5 S5]].
      assert (S15 : skel it1 = skel it5) by congruence.
      assert (ONE : exists fs, rec_run s fs sm /\ entry_report (c_env c) (c_world c) cl it5 fs /\ strip_classes (st_classes sm) = strip_classes cl).
      { unfold check_group in H1. apply bind_ok in H1 as [it' [sx [G H1]]]. apply item_ok in G as [-> G]. rewrite Hi1 in G. inversion G; subst it'. clear G.
        destruct (it_obj it1) as [h|v] eqn:Eo.
        - cbn [hobj_isgroup hobj_isfile] in H1. destruct (isHdf5Group (c_world c) h || isHdf5FileObject h) eqn:Eg.
          + assert (Hlt : i < List.length (st_items s1)) by (apply nth_error_Some; congruence).
            destruct (validate_group_run c s1 HI i it1 h s sm u (ext_trans _ _ _ X12 X) Hlt Hi1 Eo Eg H1) as [[fs [RR GR]] CC].
            exists fs. split; auto. split; [|congruence]. left. exists h. pose proof (skel_eq _ _ S15) as [_ [EO _]]. split; [congruence|]. split.
            * apply orb_true_iff in Eg as [Eg|Eg]; [left; unfold isHdf5Group in Eg; apply andb_true_iff in Eg; tauto|right; exact Eg].
            * eapply group_report_skel; [exact S15|]. eapply group_report_strip; [exact SS|exact GR].
          + apply ret_ok in H1 as [-> _]. exists []. split; [apply rec_run_nil|]. split; auto. right. split; auto.
            intros h' Hh'. pose proof (skel_eq _ _ S15) as [_ [EO _]]. rewrite <- EO, Eo in Hh'. inversion Hh'; subst h'.
            apply orb_false_iff in Eg as [E1 E2]. unfold isHdf5FileObject in E2. split; auto. unfold isHdf5Group in E1. rewrite E2 in E1. simpl in E1.
            rewrite andb_true_r in E1. auto.
        - cbn [hobj_isgroup hobj_isfile orb] in H1. apply ret_ok in H1 as [-> _]. exists []. split; [apply rec_run_nil|]. split; auto. right. split; auto.
          intros h' Hh'. pose proof (skel_eq _ _ S15) as [_ [EO _]]. congruence. }
      destruct ONE as [fs [RR [ER SM]]]. destruct (IH sm s') as [fss [RR2 F2]]; auto.
      + intros ai Hai. apply Hl. right. auto.
      + eapply ext_trans; [exact X|]. eapply rec_run_ext; eauto.
      + exists (fs :: fss). split; [simpl; eapply rec_run_app; eauto|]. constructor; auto. exists it5. split; auto. split; auto.
        rewrite (skel_addr _ _ S5). exact Ha0. }
  destruct (LOOP (st_addr s2) s2 s3) as [fss [[log [T RL]] F]]; auto.
  - intros ai. rewrite EA1. auto.
  - apply ext_refl.
  - exact (ro_step2 _ _ _ _ _ _ _ _ _ _ _ R).
  - exists fss. rewrite EA. split; auto. rewrite <- RL. pose proof (tr_find _ _ _ T) as A. rewrite (tr_find _ _ _ T2) in A. apply app_inv_head in A. exact A.
Qed.

Definition other_key (t : pystr) : Prop := group_key t = false \/ app_key t = true.

(** ** The whole run *)
Lemma run_reports : forall u w v fname v', validate u w v fname = (v', Ok tt) ->
  exists before fss after, st_find (v_st v') = before ++ List.concat fss ++ after
    /\ Forall (fun f => group_key (f_test f) = false) before /\ Forall (fun f => app_key (f_test f) = true \/ step4_key (f_test f) = true) after
    /\ Forall2 (fun (ai : option pystr * nat) fs => exists it, nth_error (st_items (v_st v')) (snd ai) = Some it /\ it_addr it = fst ai
                /\ entry_report (u_env u) w (st_classes (v_st v)) it fs) (st_addr (v_st v')) fss
    /\ NoDup (map fst (st_addr (v_st v'))).
Proof.
  intros u w v fname v' H. destruct (validate_decompose _ _ _ _ _ H) as [_ [_ [_ [s1 [s2 [s3 [s4 [l1 [l2 [l3 [l4 R]]]]]]]]]]].
  destruct (step2_reports _ _ _ _ _ _ _ _ _ _ _ R) as [fss [E F]]. exists (recs l1), fss, (recs l3 ++ recs l4).
  pose proof (ro_t1 _ _ _ _ _ _ _ _ _ _ _ R) as T1. pose proof (ro_t2 _ _ _ _ _ _ _ _ _ _ _ R) as T2.
  pose proof (ro_t3 _ _ _ _ _ _ _ _ _ _ _ R) as T3. pose proof (ro_t4 _ _ _ _ _ _ _ _ _ _ _ R) as T4.
  split; [|split; [|split; [|split]]].
  - rewrite (tr_find _ _ _ T4), (tr_find _ _ _ T3), (tr_find _ _ _ T2), (tr_find _ _ _ T1), (ro_find _ _ _ _ _ _ _ _ _ _ _ R), E. simpl. rewrite <- !app_assoc. reflexivity.
  - eapply Forall_impl; [|exact (recs_keys _ _ (with_key_new_of _ _ (ro_k1 _ _ _ _ _ _ _ _ _ _ _ R)))]. simpl. intros f Hf.
    pose proof (key1_later _ Hf) as HL. apply orb_false_iff in HL as [HL _]. apply orb_false_iff in HL. tauto.
  - apply Forall_app. split; [eapply Forall_impl; [|exact (recs_keys _ _ (ro_k3 _ _ _ _ _ _ _ _ _ _ _ R))]; auto|].
    eapply Forall_impl; [|exact (recs_keys _ _ (with_key_new_of _ _ (ro_k4 _ _ _ _ _ _ _ _ _ _ _ R)))]; auto.
  - exact F.
  - rewrite (tr_addr _ _ _ T4), (tr_addr _ _ _ T3), (tr_addr _ _ _ T2), (tr_addr _ _ _ T1). apply (ci_addrkeys _ _ (ro_inv _ _ _ _ _ _ _ _ _ _ _ R)).
Qed.

(** findings of these tests are recorded at the group's own address *)
Definition own_test (t : pystr) : bool :=
  is_key "known NXDL" t || is_key "NeXus base class" t || is_key "NXDL field in data file" t || is_key "NXDL group in data file" t || is_key "NeXus_group" t.

Lemma attribute_report_tests : forall E w it h d kv fs, attribute_report E w it h d kv fs ->
  Forall (fun f => exists addr, it_addr it = Some addr /\ f_addr f = Some (addr ++ 64%N :: fst kv)
            /\ (f_test f = py "known attribute" \/ f_test f = py "attribute value enumeration" \/ f_test f = py "value of @" ++ fst kv)) fs.
Proof.
  intros E w it h d kv fs [addr [dv [cm [rest [H1 [H2 [H3 [-> H5]]]]]]]]. constructor; [simpl; eauto|].
  destruct (dget (fst kv) (d_attrs d)) as [spec|]; [|subst; constructor]. destruct H5 as [r1 [r2 [-> [A B]]]]. apply Forall_app. split.
  - destruct A as [[_ ->]|[_ [s [st [c [_ [-> _]]]]]]]; [constructor|]. constructor; [|constructor]. simpl. eauto 10.
  - destruct B as [[_ [s [st [c [ad [p [_ [-> _]]]]]]]]|[[_ ->]|[_ [_ [_ ->]]]]]; constructor; try constructor; simpl; eauto 10.
Qed.

Lemma child_finding_tests : forall w h d n f, child_finding w h d n f -> 
  f_test f = py "field in base class" \/ f_test f = py "group in base class" \/ f_test f = py "unhandled: group_items_in_base_class".
Proof. intros w h d n f []; simpl; auto. Qed.

Lemma attribute_not_own : forall k t, (t = py "known attribute" \/ t = py "attribute value enumeration" \/ t = py "value of @" ++ k) -> own_test t = false.
Proof. intros k t [->|[->| ->]]; reflexivity. Qed.

Lemma attrs_not_own : forall E w it h d l fss, Forall2 (attribute_report E w it h d) l fss -> Forall (fun f => own_test (f_test f) = false) (List.concat fss).
Proof.
  induction 1 as [|kv fs l fss H HF IH]; simpl; [constructor|]. apply Forall_app. split; auto.
  eapply Forall_impl; [|exact (attribute_report_tests _ _ _ _ _ _ _ H)]. cbv beta. intros f [addr [_ [_ T]]]. exact (attribute_not_own (fst kv) _ T).
Qed.
Lemma children_not_own : forall w h d l fs, Forall2 (child_finding w h d) l fs -> Forall (fun f => own_test (f_test f) = false) fs.
Proof.
  induction 1 as [|n f l fs H HF IH]; constructor; auto. destruct (child_finding_tests _ _ _ _ _ H) as [->|[->| ->]]; reflexivity.
Qed.
Lemma items_test : forall pl w h a t l fs, Forall2 (nxdl_item_finding pl w h a t) l fs -> Forall (fun f => f_addr f = a /\ f_test f = t) fs.
Proof. induction 1 as [|n f l fs [ad [p [_ [_ [[_ ->]|[_ ->]]]]]] HF IH]; constructor; auto. Qed.

Lemma entry_own : forall E w cl it fs, entry_report E w cl it fs -> Forall (fun f => own_test (f_test f) = true -> f_addr f = it_addr it) fs.
Proof.
  intros E w cl it fs [[h [_ [_ R]]]|[_ ->]]; [|constructor].
  assert (OFF : forall l, Forall (fun f => own_test (f_test f) = false) l -> Forall (fun f => own_test (f_test f) = true -> f_addr f = it_addr it) l).
  { intros l H. eapply Forall_impl; [|exact H]. simpl. intros. congruence. }
  assert (ON : forall t l, Forall (fun f => f_addr f = it_addr it /\ f_test f = t) l -> Forall (fun f => own_test (f_test f) = true -> f_addr f = it_addr it) l).
  { intros t l H. eapply Forall_impl; [|exact H]. simpl. tauto. }
  destruct R as [H1|cls H1 H2|cls d cm attrs ch fl gr fn gn an H1 H2 H3 H4 H5 H6 H7 H8 H9 H10].
  - constructor; auto.
  - constructor; auto.
  - constructor; auto. constructor; auto. apply Forall_app. split; [apply OFF; eapply attrs_not_own; eauto|].
    apply Forall_app. split; [apply OFF; eapply children_not_own; eauto|]. apply Forall_app. split; [eapply ON; eapply items_test; eauto|].
    apply Forall_app. split; [eapply ON; eapply items_test; eauto|]. constructor; auto.
Qed.

Lemma Forall2_in_split : forall A B (P : A -> B -> Prop) l r, Forall2 P l r -> forall x, In x l ->
  exists l1 l2 r1 y r2, l = l1 ++ x :: l2 /\ r = r1 ++ y :: r2 /\ Forall2 P l1 r1 /\ P x y /\ Forall2 P l2 r2.
Proof.
  induction 1 as [|a b l r H HF IH]; intros x Hx; [destruct Hx|]. destruct Hx as [<-|Hx].
  - exists [], l, [], b, r. simpl. auto 10.
  - destruct (IH x Hx) as [l1 [l2 [r1 [y [r2 [-> [-> [A1 [A2 A3]]]]]]]]]. exists (a :: l1), l2, (b :: r1), y, r2. simpl. auto 10.
Qed.

Lemma others_off : forall E w cl s5 a t l fss, own_test t = true -> ~ In a (map fst l) ->
  Forall2 (fun (ai : option pystr * nat) fs => exists it, nth_error (st_items s5) (snd ai) = Some it /\ it_addr it = fst ai /\ entry_report E w cl it fs) l fss ->
  filter (at_test a t) (List.concat fss) = [].
Proof.
  intros E w cl s5 a t l fss Ht. induction 2 as [|ai fs l fss [it [_ [HA HR]]] HF IH]; simpl in *; auto. rewrite filter_app.
  rewrite IH by tauto. rewrite app_nil_r. apply filter_none. eapply Forall_impl; [|eapply entry_own; eauto]. simpl. intros f Hf. unfold at_test.
  destruct (str_eqb_spec (f_test f) t) as [E1|]; [|apply andb_false_r]. rewrite andb_true_r. destruct (ostr_eqb (f_addr f) a) eqn:E2; auto.
  apply ostr_eqb_eq in E2. exfalso. apply H. left. rewrite <- HA, <- Hf; [auto|]. rewrite E1. auto.
Qed.

(** the findings of an own test of one group *)
Lemma group_findings : forall u w v fname v', validate u w v fname = (v', Ok tt) ->
  forall i it h, catalogued_group w v' i it h ->
  exists fs, group_report (u_env u) w (st_classes (v_st v)) it h fs /\ (forall f, In f fs -> In f (st_find (v_st v'))) /\
    forall t, own_test t = true -> exists later, findings_for v' (it_addr it) t = filter (at_test (it_addr it) t) fs ++ later
      /\ (app_key t = false -> later = []) /\ Forall (fun f => app_key (f_test f) = true) later.
Proof.
  intros u w v fname v' H i it h [HA [Hi [Ho Hg]]]. destruct (run_reports _ _ _ _ _ H) as [before [fss [after [EF [FB [FA [F2 ND]]]]]]].
  destruct (Forall2_in_split _ _ _ _ _ F2 _ HA) as [l1 [l2 [r1 [fs [r2 [EL [ER [A1 [[it' [Hi' [Ha' RP]]] A2]]]]]]]]]. simpl in Hi', Ha'.
  rewrite Hi in Hi'. inversion Hi'; subst it'. clear Hi' Ha'.
  assert (NI : ~ In (it_addr it) (map fst l1) /\ ~ In (it_addr it) (map fst l2)).
  { rewrite EL, map_app in ND. simpl in ND. apply NoDup_remove_2 in ND. rewrite in_app_iff in ND. tauto. }
  destruct RP as [[h' [Ho' [_ RP]]]|[RP _]]; [|destruct (RP _ Ho) as [RP' _]; congruence]. rewrite Ho in Ho'. inversion Ho'; subst h'.
  exists fs. split; auto. split.
  { intros f Hf. rewrite EF, ER, concat_app. simpl. rewrite !in_app_iff. auto 10. }
  intros t Ht. exists (filter (at_test (it_addr it) t) after). unfold findings_for. fold (at_test (it_addr it) t).
  change (fun f : finding => ostr_eqb (f_addr f) (it_addr it) && str_eqb (f_test f) t) with (at_test (it_addr it) t).
  assert (GK : group_key t = true).
  { unfold own_test in Ht. unfold group_key. repeat (apply orb_true_iff in Ht as [Ht|Ht]); rewrite Ht; repeat rewrite orb_true_r; auto. }
  split; [|split].
  - rewrite EF, ER, !filter_app, concat_app, filter_app. simpl. rewrite filter_app.
    rewrite (others_off _ _ _ _ _ _ _ _ Ht (proj1 NI) A1), (others_off _ _ _ _ _ _ _ _ Ht (proj2 NI) A2).
    rewrite (filter_none _ _ before). { simpl. rewrite app_nil_r. reflexivity. }
    eapply Forall_impl; [|exact FB]. simpl. intros f Hf. unfold at_test. destruct (str_eqb_spec (f_test f) t); [congruence|apply andb_false_r].
  - intros Hap. apply filter_none. eapply Forall_impl; [|exact FA]. simpl. intros f Hf. unfold at_test.
    destruct (str_eqb_spec (f_test f) t) as [E|]; [|apply andb_false_r]. rewrite E in Hf. destruct Hf as [Hf|Hf]; [congruence|]. exfalso.
    unfold own_test in Ht. repeat (apply orb_true_iff in Ht as [Ht|Ht]); unfold is_key in Ht; apply str_eqb_eq in Ht; rewrite Ht in Hf; discriminate.
  - apply Forall_forall. intros f Hf. apply filter_In in Hf as [Hf1 Hf2]. rewrite Forall_forall in FA. destruct (FA _ Hf1) as [X|X]; auto. exfalso.
    unfold at_test in Hf2. apply andb_true_iff in Hf2 as [_ Hf2]. apply str_eqb_eq in Hf2. rewrite <- Hf2 in Ht.
    unfold own_test in Ht. repeat (apply orb_true_iff in Ht as [Ht|Ht]); unfold is_key in Ht; apply str_eqb_eq in Ht; rewrite Ht in X; discriminate.
Qed.

(** ** Reading one report *)
Lemma nexus_class_fun : forall E at_ a b, nexus_class E at_ a -> nexus_class E at_ b -> a = b.
Proof. intros E at_ a b [v [t [H1 [H2 _]]]] [v' [t' [H3 [H4 _]]]]. congruence. Qed.
Lemma has_class_fun : forall E w it h a b, has_class E w it h a -> has_class E w it h b -> a = b.
Proof.
  intros E w it h a b [[H1 ->]|[H1 [H2 H3]]] [[H4 ->]|[H4 [H5 H6]]]; try congruence. eapply nexus_class_fun; eauto.
Qed.
Lemma has_class_nexus : forall E w it h a, has_class E w it h a -> it_cp it <> non_nexus.
Proof. intros E w it h a [[H _]|[_ [H _]]]; auto. rewrite H. discriminate. Qed.

Lemma filter_all : forall A (p : A -> bool) l, Forall (fun x => p x = true) l -> filter p l = l.
Proof. induction 1 as [|x l H HF IH]; simpl; auto. rewrite H, IH. reflexivity. Qed.

Lemma at_test_same : forall a t, ostr_eqb a a && str_eqb t t = true.
Proof. intros. rewrite (proj2 (ostr_eqb_eq a a) eq_refl), str_eqb_refl. reflexivity. Qed.

Lemma items_all : forall pl w h a t l fs, Forall2 (nxdl_item_finding pl w h a t) l fs -> filter (at_test a t) fs = fs.
Proof.
  intros. apply filter_all. eapply Forall_impl; [|eapply items_test; eauto]. simpl. intros f [<- <-]. unfold at_test. apply at_test_same.
Qed.
Lemma items_none : forall pl w h a t t' l fs, Forall2 (nxdl_item_finding pl w h a t) l fs -> t' <> t -> filter (at_test a t') fs = [].
Proof.
  intros. apply filter_none. eapply Forall_impl; [|eapply items_test; eauto]. simpl. intros f [<- ET]. unfold at_test.
  destruct (str_eqb_spec (f_test f) t'); [congruence|apply andb_false_r].
Qed.
Lemma not_own_none : forall a t l, own_test t = true -> Forall (fun f => own_test (f_test f) = false) l -> filter (at_test a t) l = [].
Proof.
  intros a t l Ht H. apply filter_none. eapply Forall_impl; [|exact H]. simpl. intros f Hf. unfold at_test.
  destruct (str_eqb_spec (f_test f) t); [congruence|apply andb_false_r].
Qed.

Lemma at_test_yes : forall a t st cm, at_test a t (mkF a t st cm) = true.
Proof. intros. unfold at_test. apply at_test_same. Qed.
Lemma at_test_no : forall a t t' st cm, t' <> t -> at_test a t (mkF a t' st cm) = false.
Proof. intros. unfold at_test. simpl. destruct (str_eqb_spec t' t); [congruence|apply andb_false_r]. Qed.

Lemma known_report : forall E w cl it h fs cls d, group_report E w cl it h fs -> has_class E w it h cls -> dget cls cl = Some d ->
  exists cm attrs children fields groups fnames gnames anames, base_class_text d cls cm
    /\ Permutation anames (attrs_of w h) /\ Forall2 (attribute_report E w it h d) anames attrs
    /\ Forall2 (child_finding w h d) (map fst (links_of w h)) children
    /\ Permutation fnames (map fst (d_fields d)) /\ Forall2 (nxdl_field_finding w h (it_addr it)) fnames fields
    /\ Permutation gnames (map fst (d_groups d)) /\ Forall2 (nxdl_group_finding w h (it_addr it)) gnames groups
    /\ fs = [mkF (it_addr it) (py "known NXDL") OK (cls ++ py ": recognized NXDL specification");
             mkF (it_addr it) (py "NeXus base class") (if str_eqb (d_category d) (py "applications") then ERROR else OK) cm]
            ++ List.concat attrs ++ children ++ fields ++ groups
            ++ [mkF (it_addr it) (py "NeXus base class") TODO (cls ++ py ": more validations needed")].
Proof.
  intros E w cl it h fs cls d R HC HD.
  destruct R as [H1|cls' H1 H2|cls' d' cm attrs ch fl gr fn gn an H1 H2 H3 H4 H5 H6 H7 H8 H9 H10].
  - exfalso. eapply has_class_nexus; eauto.
  - rewrite (has_class_fun _ _ _ _ _ _ H1 HC) in H2. congruence.
  - pose proof (has_class_fun _ _ _ _ _ _ H1 HC) as ->. rewrite H2 in HD. inversion HD; subst d'.
    exists cm, attrs, ch, fl, gr, fn, gn, an. auto 10.
Qed.

Ltac part := repeat first [rewrite filter_app | progress cbn [filter app]].
Ltac noteq := let X := fresh in intro X; vm_compute in X; discriminate X.

Lemma report_fields : forall E w cl it h fs cls d, group_report E w cl it h fs -> has_class E w it h cls -> dget cls cl = Some d ->
  exists names, Permutation names (map fst (d_fields d))
    /\ Forall2 (nxdl_field_finding w h (it_addr it)) names (filter (at_test (it_addr it) (py "NXDL field in data file")) fs).
Proof.
  intros E w cl it h fs cls d R HC HD. destruct (known_report _ _ _ _ _ _ _ _ R HC HD) as [cm [attrs [ch [fl [gr [fn [gn [an [H3 [H4 [H5 [H6 [H7 [H8 [H9 [H10 ->]]]]]]]]]]]]]]]].
  exists fn. split; auto. part. rewrite !at_test_no by noteq.
  rewrite (not_own_none _ _ (List.concat attrs)); [|reflexivity|eapply attrs_not_own; eauto].
  rewrite (not_own_none _ _ ch); [|reflexivity|eapply children_not_own; eauto].
  rewrite (items_all _ _ _ _ _ _ _ H8). rewrite (items_none _ _ _ _ _ _ _ _ H10) by noteq. cbn [app]. rewrite app_nil_r. exact H8.
Qed.
Lemma report_groups : forall E w cl it h fs cls d, group_report E w cl it h fs -> has_class E w it h cls -> dget cls cl = Some d ->
  exists names, Permutation names (map fst (d_groups d))
    /\ Forall2 (nxdl_group_finding w h (it_addr it)) names (filter (at_test (it_addr it) (py "NXDL group in data file")) fs).
Proof.
  intros E w cl it h fs cls d R HC HD. destruct (known_report _ _ _ _ _ _ _ _ R HC HD) as [cm [attrs [ch [fl [gr [fn [gn [an [H3 [H4 [H5 [H6 [H7 [H8 [H9 [H10 ->]]]]]]]]]]]]]]]].
  exists gn. split; auto. part. rewrite !at_test_no by noteq.
  rewrite (not_own_none _ _ (List.concat attrs)); [|reflexivity|eapply attrs_not_own; eauto].
  rewrite (not_own_none _ _ ch); [|reflexivity|eapply children_not_own; eauto].
  rewrite (items_all _ _ _ _ _ _ _ H10). rewrite (items_none _ _ _ _ _ _ _ _ H8) by noteq. cbn [app]. rewrite app_nil_r. exact H10.
Qed.
Lemma report_classes : forall E w cl it h fs cls d, group_report E w cl it h fs -> has_class E w it h cls -> dget cls cl = Some d ->
  filter (at_test (it_addr it) (py "known NXDL")) fs = [mkF (it_addr it) (py "known NXDL") OK (cls ++ py ": recognized NXDL specification")]
  /\ exists cm, base_class_text d cls cm /\ filter (at_test (it_addr it) (py "NeXus base class")) fs =
       [mkF (it_addr it) (py "NeXus base class") (if str_eqb (d_category d) (py "applications") then ERROR else OK) cm;
        mkF (it_addr it) (py "NeXus base class") TODO (cls ++ py ": more validations needed")].
Proof.
  intros E w cl it h fs cls d R HC HD. destruct (known_report _ _ _ _ _ _ _ _ R HC HD) as [cm [attrs [ch [fl [gr [fn [gn [an [H3 [H4 [H5 [H6 [H7 [H8 [H9 [H10 ->]]]]]]]]]]]]]]]].
  split; [|exists cm; split; auto]; part; repeat rewrite at_test_yes; repeat rewrite at_test_no by noteq;
  rewrite (not_own_none _ _ (List.concat attrs)); try reflexivity; try (eapply attrs_not_own; eassumption);
  rewrite (not_own_none _ _ ch); try reflexivity; try (eapply children_not_own; eassumption);
  rewrite (items_none _ _ _ _ _ _ _ _ H10) by noteq; rewrite (items_none _ _ _ _ _ _ _ _ H8) by noteq; reflexivity.
Qed.

(** ** C28, C30 *)
Section Run.
  Variables (u : setup) (w : world) (v : validator) (fname : pystr) (v' : validator).
  Hypothesis Hv : validate u w v fname = (v', Ok tt).
  Variables (i : nat) (it : vitem) (h : handle) (cls : pystr).
  Hypothesis Hg : catalogued_group w v' i it h.
  Hypothesis Hc : has_class (u_env u) w it h cls.

  Lemma group_fields : forall d, dget cls (st_classes (v_st v)) = Some d ->
    exists names, Permutation names (map fst (d_fields d))
      /\ Forall2 (nxdl_field_finding w h (it_addr it)) names (findings_for v' (it_addr it) (py "NXDL field in data file")).
  Proof.
    intros d Hd. destruct (group_findings _ _ _ _ _ Hv _ _ _ Hg) as [fs [R [_ F]]]. destruct (F (py "NXDL field in data file") eq_refl) as [later [-> [L _]]].
    rewrite (L eq_refl), app_nil_r. eapply report_fields; eauto.
  Qed.
  Lemma group_groups : forall d, dget cls (st_classes (v_st v)) = Some d ->
    exists names, Permutation names (map fst (d_groups d))
      /\ Forall2 (nxdl_group_finding w h (it_addr it)) names (findings_for v' (it_addr it) (py "NXDL group in data file")).
  Proof.
    intros d Hd. destruct (group_findings _ _ _ _ _ Hv _ _ _ Hg) as [fs [R [_ F]]]. destruct (F (py "NXDL group in data file") eq_refl) as [later [-> [L _]]].
    rewrite (L eq_refl), app_nil_r. eapply report_groups; eauto.
  Qed.
  Lemma group_known : forall d, dget cls (st_classes (v_st v)) = Some d ->
    (exists later, findings_for v' (it_addr it) (py "known NXDL") = mkF (it_addr it) (py "known NXDL") OK (cls ++ py ": recognized NXDL specification") :: later)
    /\ exists cm, base_class_text d cls cm /\ findings_for v' (it_addr it) (py "NeXus base class") =
       [mkF (it_addr it) (py "NeXus base class") (if str_eqb (d_category d) (py "applications") then ERROR else OK) cm;
        mkF (it_addr it) (py "NeXus base class") TODO (cls ++ py ": more validations needed")].
  Proof.
    intros d Hd. destruct (group_findings _ _ _ _ _ Hv _ _ _ Hg) as [fs [R [_ F]]]. destruct (report_classes _ _ _ _ _ _ _ _ R Hc Hd) as [A [cm [B C]]]. split.
    - destruct (F (py "known NXDL") eq_refl) as [later [-> _]]. rewrite A. eexists. reflexivity.
    - exists cm. split; auto. destruct (F (py "NeXus base class") eq_refl) as [later [-> [L _]]]. rewrite (L eq_refl), app_nil_r. exact C.
  Qed.
  Lemma group_unknown : dget cls (st_classes (v_st v)) = None ->
    (exists later, findings_for v' (it_addr it) (py "known NXDL") = mkF (it_addr it) (py "known NXDL") ERROR (cls ++ py ": recognized NXDL specification") :: later)
    /\ findings_for v' (it_addr it) (py "NeXus base class") = [mkF (it_addr it) (py "NeXus base class") ERROR (py "unknown NeXus base class: " ++ cls)].
  Proof.
    intros Hd. destruct (group_findings _ _ _ _ _ Hv _ _ _ Hg) as [fs [R [_ F]]].
    destruct (F (py "known NXDL") eq_refl) as [later [-> _]]. destruct (F (py "NeXus base class") eq_refl) as [later2 [-> [L2 _]]]. rewrite (L2 eq_refl), app_nil_r.
    destruct R as [H1|cls' H1 H2|cls' d' cm attrs ch fl gr fn gn an H1 H2 H3 H4 H5 H6 H7 H8 H9 H10].
    - exfalso. eapply has_class_nexus; eauto.
    - pose proof (has_class_fun _ _ _ _ _ _ H1 Hc) as ->. cbn [filter]. rewrite !at_test_yes. rewrite !at_test_no by noteq. split; [eexists; reflexivity|reflexivity].
    - pose proof (has_class_fun _ _ _ _ _ _ H1 Hc) as ->. congruence.
  Qed.
  Lemma group_child_any : forall d, dget cls (st_classes (v_st v)) = Some d -> forall n, In n (map fst (links_of w h)) ->
    exists f, child_finding w h d n f /\ In f (st_find (v_st v')).
  Proof.
    intros d Hd n Hn. destruct (group_findings _ _ _ _ _ Hv _ _ _ Hg) as [fs [R [I _]]].
    destruct (known_report _ _ _ _ _ _ _ _ R Hc Hd) as [cm [attrs [ch [fl [gr [fn [gn [an [H3 [H4 [H5 [H6 [H7 [H8 [H9 [H10 ->]]]]]]]]]]]]]]]].
    destruct (Forall2_in_split _ _ _ _ _ H6 _ Hn) as [l1 [l2 [r1 [f [r2 [_ [-> [_ [C _]]]]]]]]]. exists f. split; auto. apply I.
    apply in_app_iff. right. apply in_app_iff. right. apply in_app_iff. left. apply in_app_iff. right. left. reflexivity.
  Qed.
  Lemma group_attribute_any : forall d, dget cls (st_classes (v_st v)) = Some d -> forall k val, In (k, val) (attrs_of w h) ->
    exists fs, attribute_report (u_env u) w it h d (k, val) fs /\ forall f, In f fs -> In f (st_find (v_st v')).
  Proof.
    intros d Hd k val Hn. destruct (group_findings _ _ _ _ _ Hv _ _ _ Hg) as [fs [R [I _]]].
    destruct (known_report _ _ _ _ _ _ _ _ R Hc Hd) as [cm [attrs [ch [fl [gr [fn [gn [an [H3 [H4 [H5 [H6 [H7 [H8 [H9 [H10 ->]]]]]]]]]]]]]]]].
    pose proof (Permutation_in _ (Permutation_sym H4) Hn) as Hn'.
    destruct (Forall2_in_split _ _ _ _ _ H5 _ Hn') as [l1 [l2 [r1 [f [r2 [_ [-> [_ [C _]]]]]]]]]. exists f. split; auto. intros g Hf. apply I.
    apply in_app_iff. right. apply in_app_iff. left. apply in_concat. exists f. split; auto. apply in_app_iff. right. left. reflexivity.
  Qed.
End Run.

Lemma has_item_name : forall w h n, is_group_obj w h = true -> link_name n -> (has_item w h n <-> In n (map fst (links_of w h))).
Proof.
  intros w h n Hg Hn. unfold has_item. assert (E : py_in w h (VStr n) = Ok (contains w h n)).
  { unfold is_group_obj in Hg. unfold py_in. destruct (obj_of w h) as [o|]; [|discriminate]. destruct (ob_kind o); auto; discriminate. }
  rewrite E, (contains_name _ _ _ Hn). rewrite <- (dmem_keys _ n (links_of w h)). split; congruence.
Qed.

(** ** C29: one finding for each child *)
Lemma entry_node : forall u w v fname v', validate u w v fname = (v', Ok tt) -> forall i it h, In (it_addr it, i) (st_addr (v_st v')) ->
  nth_error (st_items (v_st v')) i = Some it -> it_obj it = ONode h -> below w (open_root fname) h /\ it_addr it = Some (h_name h).
Proof.
  intros u w v fname v' H i it h HA Hi Ho. destruct (validate_decompose _ _ _ _ _ H) as [_ [_ [_ [s1 [s2 [s3 [s4 [l1 [l2 [l3 [l4 R]]]]]]]]]]].
  pose proof (ro_t1 _ _ _ _ _ _ _ _ _ _ _ R) as T1. pose proof (ro_t2 _ _ _ _ _ _ _ _ _ _ _ R) as T2.
  pose proof (ro_t3 _ _ _ _ _ _ _ _ _ _ _ R) as T3. pose proof (ro_t4 _ _ _ _ _ _ _ _ _ _ _ R) as T4.
  rewrite (tr_addr _ _ _ T4), (tr_addr _ _ _ T3), (tr_addr _ _ _ T2), (tr_addr _ _ _ T1) in HA.
  pose proof (ro_inv _ _ _ _ _ _ _ _ _ _ _ R) as HI. destruct (ci_addrof _ _ HI _ _ HA) as [it0 [Hi0 Ha0]].
  assert (X : ext s1 (v_st v')). { eapply ext_trans; [exists l1; exact T1|]. eapply ext_trans; [exists l2; exact T2|]. eapply ext_trans; [exists l3; exact T3|exists l4; exact T4]. }
  destruct (ext_item _ _ _ _ X Hi0) as [it1 [Hi1 S1]]. rewrite Hi in Hi1. inversion Hi1; subst it1. pose proof (skel_eq _ _ S1) as [_ [EO [_ [EA _]]]].
  rewrite EO in Ho. split; [apply (proj1 (cinv_sound _ _ HI _ _ Hi0) _ Ho)|]. rewrite EA.
  destruct (ci_origin _ _ HI _ _ Hi0) as [O1 O2 O3|p pit hp h' name O1 O2 O3 O4 O5 O6|p pit h' k val O1 O2 O3 O4 O5].
  - apply node_item_spec in O3 as [N1 [N2 _]]. rewrite N1 in Ho. inversion Ho; subst. exact N2.
  - apply node_item_spec in O6 as [N1 [N2 _]]. rewrite N1 in Ho. inversion Ho; subst. exact N2.
  - subst it0. exfalso. unfold attr_item in Ho. destruct (str_eqb _ _); simpl in Ho; discriminate.
Qed.

Definition child_test (t : pystr) : bool :=
  is_key "field in base class" t || is_key "group in base class" t || is_key "unhandled: group_items_in_base_class" t.

Lemma child_test_finding : forall w h d n f, child_finding w h d n f -> child_test (f_test f) = true.
Proof. intros w h d n f H. destruct (child_finding_tests _ _ _ _ _ H) as [->|[->| ->]]; reflexivity. Qed.

Section Plain.
  Variables (u : setup) (w : world) (v : validator) (fname : pystr) (v' : validator) (f : h5file).
  Hypothesis Hv : validate u w v fname = (v', Ok tt).
  Hypothesis Hfile : dget fname w = Some (FHdf5 f).
  Hypothesis Hplain : plain_file f.
  Hypothesis Hdist : distinct_names f.

  Lemma child_address : forall h p d n fd, h_file h = fname -> h_name h = path_text p -> Forall link_name p ->
    child_finding w h d n fd -> link_name n /\ f_addr fd = Some (path_text (p ++ [n])).
  Proof.
    intros h p d n fd HF HN HP C.
    assert (X : exists obj, member w h n obj /\ f_addr fd = Some (h_name obj)) by (destruct C; eauto). destruct X as [obj [[M1 M2] ->]].
    assert (Hn : link_name n).
    { rewrite (links_members w fname f Hfile _ HF) in M1. unfold dkeys in M1. apply in_map_iff in M1 as [[m l] [<- M1]]. apply Hplain in M1. tauto. }
    split; auto. destruct (getitem_member w fname f Hfile Hplain _ _ _ HF Hn M2) as [_ [_ [-> _]]]. rewrite HN. f_equal. apply path_text_snoc; auto.
  Qed.

  Lemma report_child : forall cl it h p fs q n t, entry_report (u_env u) w cl it fs -> it_obj it = ONode h -> h_file h = fname -> h_name h = path_text p ->
    Forall link_name p -> Forall link_name q -> link_name n -> child_test t = true ->
    (q <> p -> filter (at_test (Some (path_text (q ++ [n]))) t) fs = [])
    /\ (q = p -> forall d fd, child_finding w h d n fd -> f_test fd = t -> (forall cls, has_class (u_env u) w it h cls -> dget cls cl = Some d) ->
         In fd fs -> filter (at_test (Some (path_text (q ++ [n]))) t) fs = [fd]).
  Proof.
    intros cl it h p fs q n t ER Ho HF HN HP HQ Hn Ht.
    assert (KEY : forall x, filter (at_test (Some (path_text (q ++ [n]))) t) x = filter (at_test (Some (path_text (q ++ [n]))) t) (filter (fun g => child_test (f_test g)) x)).
    { induction x as [|g x IH]; auto. cbn [filter]. destruct (child_test (f_test g)) eqn:Eg; cbn [filter]; rewrite IH; auto.
      unfold at_test at 1. destruct (str_eqb_spec (f_test g) t); [congruence|]. rewrite andb_false_r. reflexivity. }
    rewrite KEY.
    assert (CH : filter (fun g => child_test (f_test g)) fs = [] \/ exists cls d ch, has_class (u_env u) w it h cls /\ dget cls cl = Some d
       /\ Forall2 (child_finding w h d) (map fst (links_of w h)) ch /\ filter (fun g => child_test (f_test g)) fs = ch).
    { destruct ER as [[h' [Ho' [_ R]]]|[_ ->]]; [|left; reflexivity]. rewrite Ho in Ho'. inversion Ho'; subst h'. clear Ho'.
      destruct R as [H1|cls H1 H2|cls d cm attrs ch fl gr fn gn an H1 H2 H3 H4 H5 H6 H7 H8 H9 H10]; [left; reflexivity|left; reflexivity|].
      right. exists cls, d, ch. split; auto. split; auto. split; auto. cbn [app filter]. 
      replace (child_test (f_test (mkF (it_addr it) (py "known NXDL") OK (cls ++ py ": recognized NXDL specification")))) with false by reflexivity.
      replace (child_test (f_test (mkF (it_addr it) (py "NeXus base class") (if str_eqb (d_category d) (py "applications") then ERROR else OK) cm))) with false by reflexivity.
      rewrite !filter_app. rewrite (filter_none _ _ (List.concat attrs)), (filter_none _ _ fl), (filter_none _ _ gr), (filter_all _ _ ch).
      - cbn [filter app]. 
        replace (child_test (f_test (mkF (it_addr it) (py "NeXus base class") TODO (cls ++ py ": more validations needed")))) with false by reflexivity.
        rewrite app_nil_r. reflexivity.
      - clear - H6. induction H6; constructor; auto. eapply child_test_finding; eauto.
      - eapply Forall_impl; [|eapply items_test; exact H10]. cbv beta. intros g [_ ->]. reflexivity.
      - eapply Forall_impl; [|eapply items_test; exact H8]. cbv beta. intros g [_ ->]. reflexivity.
      - clear - H5. induction H5 as [|kv fs l r HA HF IH]; [constructor|]. simpl. apply Forall_app. split; auto.
        eapply Forall_impl; [|exact (attribute_report_tests _ _ _ _ _ _ _ HA)]. cbv beta. intros g [_ [_ [_ T]]]. destruct T as [->|[->| ->]]; reflexivity. }
    split.
    - intros NE. destruct CH as [->|[cls [d [ch [_ [_ [F2 ->]]]]]]]; [reflexivity|]. apply filter_none.
      clear - F2 NE HF HN HP HQ Hn Hfile Hplain. induction F2 as [|m g l r C F2 IH]; constructor; auto.
      destruct (child_address _ _ _ _ _ HF HN HP C) as [Hm EA]. unfold at_test. rewrite EA. destruct (ostr_eqb (Some (path_text (p ++ [m]))) (Some (path_text (q ++ [n])))) eqn:E; auto.
      apply ostr_eqb_eq in E. inversion E as [E']. apply path_text_inj in E'; [|apply Forall_app; auto|apply Forall_app; auto]. apply app_inj_tail in E' as [E' _]. congruence.
    - intros -> d fd C ET HD HI. assert (HI' : In fd (filter (fun g => child_test (f_test g)) fs)).
      { apply filter_In. split; auto. eapply child_test_finding; eauto. }
      destruct CH as [E|[cls [d' [ch [HC [HD' [F2 E]]]]]]]; rewrite E in HI'; [destruct HI'|]. rewrite E. rewrite (HD _ HC) in HD'. inversion HD'; subst d'.
      assert (ND : NoDup (map fst (links_of w h))). { rewrite (links_members w fname f Hfile _ HF). apply Hdist. }
      clear - F2 HI' ND C ET HF HN HP Hn Hfile Hplain. subst t.
      destruct (child_address _ _ _ _ _ HF HN HP C) as [_ EAfd].
      assert (OFF : forall l r, ~ In n l -> Forall2 (child_finding w h d) l r -> filter (at_test (Some (path_text (p ++ [n]))) (f_test fd)) r = []).
      { intros l r NI F. apply filter_none. induction F as [|m g l r Cm F IH]; constructor; [|apply IH; intros X; apply NI; right; auto].
        destruct (child_address _ _ _ _ _ HF HN HP Cm) as [Hm EA]. unfold at_test. rewrite EA. destruct (ostr_eqb (Some (path_text (p ++ [m]))) (Some (path_text (p ++ [n])))) eqn:E; auto.
        apply ostr_eqb_eq in E. inversion E as [E']. apply path_text_inj in E'; [|apply Forall_app; auto|apply Forall_app; auto]. apply app_inj_tail in E' as [_ E'].
        exfalso. apply NI. left. auto. }
      induction F2 as [|m g l r Cm F2 IH]; [destruct HI'|]. cbn [filter]. pose proof (proj1 (NoDup_cons_iff _ _) ND) as [NI ND'].
      destruct (child_address _ _ _ _ _ HF HN HP Cm) as [Hm EA]. destruct HI' as [->|HI'].
      + assert (m = n). { rewrite EA in EAfd. inversion EAfd as [E']. apply path_text_inj in E'; [|apply Forall_app; auto|apply Forall_app; auto]. apply app_inj_tail in E' as [_ E']. auto. }
        subst m. rewrite (OFF _ _ NI F2). unfold at_test. rewrite EAfd, at_test_same. reflexivity.
      + unfold at_test at 1. rewrite EA. destruct (ostr_eqb (Some (path_text (p ++ [m]))) (Some (path_text (p ++ [n])))) eqn:E; [|apply IH; auto].
        exfalso. apply ostr_eqb_eq in E. inversion E as [E']. apply path_text_inj in E'; [|apply Forall_app; auto|apply Forall_app; auto]. apply app_inj_tail in E' as [_ E']. subst m.
        specialize (OFF _ _ NI F2). assert (X : In fd (filter (at_test (Some (path_text (p ++ [n]))) (f_test fd)) r)).
        { apply filter_In. split; auto. unfold at_test. rewrite EAfd, at_test_same. reflexivity. }
        rewrite OFF in X. destruct X.
  Qed.

  Lemma plain_child : forall i it h cls d n, catalogued_group w v' i it h -> has_class (u_env u) w it h cls -> dget cls (st_classes (v_st v)) = Some d ->
    In n (map fst (links_of w h)) ->
    exists fd, child_finding w h d n fd /\ findings_for v' (f_addr fd) (f_test fd) = [fd].
  Proof.
    intros i it h cls d n [HA [Hi [Ho Hg]]] HC HD Hn. destruct (run_reports _ _ _ _ _ Hv) as [before [fss [after [EF [FB [FA [F2 ND]]]]]]].
    destruct (Forall2_in_split _ _ _ _ _ F2 _ HA) as [l1 [l2 [r1 [fs [r2 [EL [ER [A1 [[it' [Hi' [Ha' RP]]] A2]]]]]]]]]. simpl in Hi', Ha'.
    rewrite Hi in Hi'. inversion Hi'; subst it'. clear Hi' Ha'.
    destruct (entry_node _ _ _ _ _ Hv _ _ _ HA Hi Ho) as [B EA]. destruct (below_path w fname f Hfile Hplain _ B) as [p [P1 [P2 [P3 [P4 _]]]]].
    assert (X : exists fd, child_finding w h d n fd /\ In fd fs).
    { destruct RP as [[h' [Ho' [_ R]]]|[NG _]]; [|destruct (NG _ Ho); congruence]. rewrite Ho in Ho'. inversion Ho'; subst h'.
      destruct (known_report _ _ _ _ _ _ _ _ R HC HD) as [cm [attrs [ch [fl [gr [fn [gn [an [H3 [H4 [H5 [H6 [H7 [H8 [H9 [H10 ->]]]]]]]]]]]]]]]].
      destruct (Forall2_in_split _ _ _ _ _ H6 _ Hn) as [m1 [m2 [k1 [fd [k2 [_ [-> [_ [C _]]]]]]]]]. exists fd. split; auto.
      apply in_app_iff. right. apply in_app_iff. right. apply in_app_iff. left. apply in_app_iff. right. left. reflexivity. }
    destruct X as [fd [C Hin]]. exists fd. split; auto. destruct (child_address _ _ _ _ _ P1 P4 P2 C) as [HLn EAf].
    assert (OTHER : forall l r, Forall2 (fun (ai : option pystr * nat) fs => exists it, nth_error (st_items (v_st v')) (snd ai) = Some it /\ it_addr it = fst ai
                /\ entry_report (u_env u) w (st_classes (v_st v)) it fs) l r -> (forall ai, In ai l -> In ai (st_addr (v_st v'))) -> ~ In (it_addr it) (map fst l) ->
          filter (at_test (f_addr fd) (f_test fd)) (List.concat r) = []).
    { intros l r F. induction F as [|[a j] gs l r [jt [Hj [Haj RJ]]] F IH]; intros IN NI; [reflexivity|]. simpl in *. rewrite filter_app, IH; auto. rewrite app_nil_r.
      destruct (it_obj jt) as [hj|val] eqn:Eo.
      - assert (HAj : In (it_addr jt, j) (st_addr (v_st v'))) by (rewrite Haj; auto).
        destruct (entry_node _ _ _ _ _ Hv _ _ _ HAj Hj Eo) as [Bj EAj]. destruct (below_path w fname f Hfile Hplain _ Bj) as [q [Q1 [Q2 [Q3 [Q4 _]]]]].
        rewrite EAf. eapply (proj1 (report_child _ _ _ _ _ p n _ RJ Eo Q1 Q4 Q2 P2 HLn (child_test_finding _ _ _ _ _ C))).
        intros ->. apply NI. left. rewrite <- Haj, EAj, EA, Q4, P4. reflexivity.
      - destruct RJ as [[h' [Ho' _]]|[_ ->]]; [congruence|reflexivity]. }
    assert (NI : ~ In (it_addr it) (map fst l1) /\ ~ In (it_addr it) (map fst l2)).
    { rewrite EL, map_app in ND. simpl in ND. apply NoDup_remove_2 in ND. rewrite in_app_iff in ND. tauto. }
    unfold findings_for. change (fun f0 : finding => ostr_eqb (f_addr f0) (f_addr fd) && str_eqb (f_test f0) (f_test fd)) with (at_test (f_addr fd) (f_test fd)).
    assert (CT := child_test_finding _ _ _ _ _ C).
    rewrite EF, ER, !filter_app, concat_app, filter_app. simpl. rewrite filter_app.
    rewrite (OTHER _ _ A1), (OTHER _ _ A2); try tauto; try (intros ai Hai; rewrite EL; apply in_app_iff; simpl; auto).
    rewrite (filter_none _ _ before), (filter_none _ _ after).
    - simpl. rewrite !app_nil_r. rewrite EAf. eapply (proj2 (report_child _ _ _ _ _ p n _ RP Ho P1 P4 P2 P2 HLn CT)); eauto.
      intros cls' HC'. rewrite (has_class_fun _ _ _ _ _ _ HC' HC). exact HD.
    - eapply Forall_impl; [|exact FA]. simpl. intros g Hg'. unfold at_test. destruct (str_eqb_spec (f_test g) (f_test fd)) as [E|]; [|apply andb_false_r]. rewrite E in Hg'. exfalso.
      destruct (child_finding_tests _ _ _ _ _ C) as [T|[T|T]]; rewrite T in Hg'; destruct Hg' as [Hg'|Hg']; discriminate.
    - eapply Forall_impl; [|exact FB]. simpl. intros g Hg'. unfold at_test. destruct (str_eqb_spec (f_test g) (f_test fd)) as [E|]; [|apply andb_false_r]. rewrite E in Hg'. exfalso.
      destruct (child_finding_tests _ _ _ _ _ C) as [T|[T|T]]; rewrite T in Hg'; discriminate.
  Qed.
End Plain.

(** ** C31 *)
Lemma used_as_base_class : forall cl n,
  (dget n cl = None -> usedAsBaseClass cl n = Ok false)
  /\ (forall d, dget n cl = Some d -> d_category d = py "applications" -> usedAsBaseClass cl n = Ok false)
  /\ (forall d, dget n cl = Some d -> d_category d = py "base_classes" -> usedAsBaseClass cl n = Ok true)
  /\ (forall d, dget n cl = Some d -> d_category d = py "contributed_definitions" ->
        (usedAsBaseClass cl n = Ok true /\ ~ (d_fields d = [] /\ d_links d = [] /\ List.length (d_groups d) = 1))
        \/ (usedAsBaseClass cl n = Exn TypeError /\ d_fields d = [] /\ d_links d = [] /\ List.length (d_groups d) = 1)).
Proof.
  intros cl n. unfold usedAsBaseClass. split; [intros ->; reflexivity|]. split; [intros d -> ->; reflexivity|]. split; [intros d -> ->; reflexivity|].
  intros d -> ->. change (str_eqb (py "contributed_definitions") (py "applications")) with false. change (str_eqb (py "contributed_definitions") (py "base_classes")) with false. cbn iota.
  destruct (d_fields d) as [|x l]; [|left; split; [reflexivity|intros [X _]; discriminate]].
  destruct (d_links d) as [|y m]; [|left; split; [reflexivity|intros [_ [X _]]; discriminate]].
  destruct (List.length (d_groups d)) as [|[|k]]; [left|right; auto|left]; (split; [reflexivity|intros [_ [_ X]]; discriminate]).
Qed.

Lemma group_category : forall u w v fname v', validate u w v fname = (v', Ok tt) ->
  forall i it h cls, catalogued_group w v' i it h -> has_class (u_env u) w it h cls ->
  forall d, dget cls (st_classes (v_st v)) = Some d ->
  exists f rest, findings_for v' (it_addr it) (py "NeXus base class") = f :: rest
    /\ (d_category d = py "applications" -> f_status f = ERROR) /\ (d_category d = py "base_classes" -> f_status f = OK).
Proof.
  intros u w v fname v' H i it h cls Hg Hc d Hd. destruct (group_known _ _ _ _ _ H _ _ _ _ Hg Hc d Hd) as [_ [cm [_ E]]].
  eexists. eexists. split; [exact E|]. split; intros ->; reflexivity.
Qed.
