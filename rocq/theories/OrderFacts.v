(** * Two validations of files that differ in order only: the catalogues, and the checks of single items *)

From Coq Require Import List NArith ZArith Bool String Lia Permutation.
From Verif Require Import PyBase PyFacts Regex Utf8 H5 Findings Nxdl Core Catalog ItemName AttributeCheck
  GroupChecks AppDef DefaultPlot Validate Trace CheckFacts CatalogFacts NameFacts CacheFacts Spec_Run Spec_Catalog PathFacts RunFacts NameRun StepOne CatalogRun CatalogEnd AddressFacts
  Spec_Order OrderWorld.
From Verif Require OrderSim.
Import ListNotations.

Definition file_name (h : handle) : pystr := if str_eqb (h_name h) slash then slash else last_part ch_slash (h_name h).

Lemma path_no_at : forall f, no_at_names f -> plain_file f -> forall o p o', leads f o p o' -> ~ In 64%N (path_text p).
Proof.
  intros f Hat Hp o p o' H. apply path_text_no_at. induction H as [|a n q o1 b H1 H2 H3 IH|a n q text o1 b H1 H2 _ H3 IH]; constructor; auto;
    apply dget_In in H1; (split; [exact (proj1 (Hp _ _ _ H1))|]; exact (Hat _ _ _ H1)).
Qed.

(** ** One validation *)
Section One.
  Variables (u : setup) (w : world) (v : validator) (fname : pystr) (v' : validator) (f : h5file).
  Hypothesis Hv : validate u w v fname = (v', Ok tt).
  Hypothesis Hf : dget fname w = Some (FHdf5 f).
  Hypothesis Hplain : plain_file f.

  Record node_at (i : nat) (it : vitem) (h : handle) (p : list pystr) : Prop := mkNode {
    na_obj : it_obj it = ONode h;
    na_file : h_file h = fname;
    na_names : Forall link_name p;
    na_leads : leads f 0 p (h_oid h);
    na_name : h_name h = path_text p;
    na_addr : it_addr it = Some (path_text p);
    na_root : p = [] -> h = open_root fname /\ it_parent it = None;
    na_isfile : p <> [] -> h_isfile h = false;
    na_cp : class_path (u_env u) f p (it_cp it);
    na_item : it_name it = Some (file_name h);
    na_parent : p <> [] -> exists j, it_parent it = Some j /\
      (it_cp it = non_nexus \/ exists jt g q n, listed v' j jt /\ it_obj jt = ONode g /\ p = q ++ [n] /\ Forall link_name q /\ it_addr jt = Some (path_text q))
  }.
  Record value_at (it : vitem) (val : pyval) (j : nat) (jt : vitem) (h : handle) (k : pystr) : Prop := mkValue {
    va_obj : it_obj it = OVal val;
    va_in : In (k, val) (attrs_of w h);
    va_parent : it_parent it = Some j;
    va_listed : listed v' j jt;
    va_node : it_obj jt = ONode h;
    va_name : it_name it = Some k;
    va_cp : it_cp it = if str_eqb (it_cp jt) non_nexus then non_nexus else it_cp jt ++ 64%N :: k;
    va_addr : it_addr it = if str_eqb (it_cp jt) non_nexus then None else Some (ostr (it_addr jt) ++ 64%N :: k)
  }.

  Lemma kinds : forall i it, listed v' i it -> (exists h p, node_at i it h p) \/ (exists val j jt h k, value_at it val j jt h k).
  Proof.
    intros i it L. destruct (validate_decompose _ _ _ _ _ Hv) as [_ [_ [_ [s1 [s2 [s3 [s4 [l1 [l2 [l3 [l4 R]]]]]]]]]]].
    pose proof (ro_inv _ _ _ _ _ _ _ _ _ _ _ R) as HI. destruct (listed_start _ _ _ _ _ _ _ _ _ _ _ R _ _ L) as [it0 [Hi HS]].
    destruct (skel_eq _ _ HS) as [SP [SO [SN [SA [SC SX]]]]].
    assert (ND : forall h, it_obj it0 = ONode h -> it_name it0 = Some (file_name h)).
    { intros h Ho. destruct (ci_origin _ _ HI _ _ Hi) as [H1 H2 H3|p pit hp h' name H1 H2 H3 H4 H5 H6|p pit h' k val H1 H2 H3 H4 H5].
      - pose proof (node_item_spec _ _ _ _ _ H3) as [N1 [_ [_ [_ N5]]]]. rewrite N1 in Ho. injection Ho as <-. exact N5.
      - pose proof (node_item_spec _ _ _ _ _ H6) as [N1 [_ [_ [_ N5]]]]. rewrite N1 in Ho. injection Ho as <-. exact N5.
      - destruct (attr_item_spec p pit val (Some k)) as [N1 _]. rewrite <- H5, Ho in N1. discriminate. }
    destruct (it_obj it) as [h|val] eqn:Ho.
    - left. exists h. assert (Ho0 : it_obj it0 = ONode h) by congruence.
      destruct (catalog_paths u w fname f Hf Hplain _ HI _ _ h Hi Ho0) as [p [P1 [P2 [P3 [P4 [P5 [P6 [P7 [P8 P9]]]]]]]]].
      assert (PN : p = [] -> it_parent it0 = None).
      { intros E. destruct (ci_origin _ _ HI _ _ Hi) as [H1 H2 H3|q pit hp h' name H1 H2 H3 H4 H5 H6|q pit h' k val H1 H2 H3 H4 H5]; auto; apply P6 in E; lia. }
      exists p. constructor; auto; try congruence.
      + intros E. split; [apply P7; apply P6; auto|]. rewrite SP. auto.
      + intros E. apply P8. intros X. apply E. apply P6. auto.
      + rewrite SN. auto.
      + intros Np. destruct (ci_origin _ _ HI _ _ Hi) as [H1 H2 H3|q pit hp h' name H1 H2 H3 H4 H5 H6|q pit h' k val H1 H2 H3 H4 H5].
        * exfalso. apply Np. apply P6. auto.
        * pose proof (node_item_spec _ _ _ _ _ H6) as [N1 [N2 [N3 [N4 N5]]]]. cbn [option_map fst] in N4. assert (h' = h) by congruence. subst h'.
          exists q. split; [congruence|]. destruct H2 as [C1 C2|q2 qit val k C1 C2 C3 C4 C5 C6].
          -- right. destruct (listed_end _ _ _ _ _ _ _ _ _ _ _ R _ _ C1) as [jt [Lj Sj]]. destruct (skel_eq _ _ Sj) as [_ [TO [_ [TA _]]]].
             destruct (catalog_paths u w fname f Hf Hplain _ HI _ _ hp C1 C2) as [r [Q1 [Q2 [Q3 [Q4 [Q5 _]]]]]].
             assert (Hl : link_name name).
             { cbn [c_world mk_ctx] in H4. rewrite (links_members w fname f Hf hp Q1) in H4. apply in_map_iff in H4 as [[n' t] [En H4]]. cbn [fst] in En. subst n'. exact (proj1 (Hplain _ _ _ H4)). }
             destruct (getitem_member w fname f Hf Hplain _ _ _ Q1 Hl H5) as [_ [_ [X _]]]. rewrite Q4, P4, path_text_snoc in X by auto.
             apply path_text_inj in X; auto; [|apply Forall_app; auto]. exists jt, hp, r, name. split; auto. split; [congruence|]. split; auto. split; auto. congruence.
          -- left. rewrite SC. unfold node_item in H6. cbn [option_map snd] in H6. rewrite C6 in H6. unfold attr_item in H6. rewrite C5, str_eqb_refl in H6. cbn [it_cp] in H6.
             destruct (str_eqb (h_name h) slash) eqn:Es.
             { exfalso. apply str_eqb_eq in Es. apply Np. apply (path_text_inj p []); auto. rewrite <- P4, Es. reflexivity. }
             unfold determine_NeXus_classpath in H6. destruct (str_eqb (last_part ch_slash (h_name h)) slash) eqn:El.
             { exfalso. apply str_eqb_eq in El. assert (X : In 47%N (last_part ch_slash (h_name h))) by (rewrite El; left; reflexivity).
               revert X. apply last_part_no_sep. }
             rewrite str_eqb_refl in H6. cbn [rbind] in H6. destruct (identify_object_type _ _ _); [|discriminate]. cbn [rbind] in H6. injection H6 as H6. rewrite <- H6. reflexivity.
        * exfalso. destruct (attr_item_spec q pit val (Some k)) as [N1 _]. congruence.
    - right. destruct (ci_origin _ _ HI _ _ Hi) as [H1 H2 H3|q pit hp h' name H1 H2 H3 H4 H5 H6|q pit h k val0 H1 H2 H3 H4 H5].
      + pose proof (node_item_spec _ _ _ _ _ H3) as [N1 _]. congruence.
      + pose proof (node_item_spec _ _ _ _ _ H6) as [N1 _]. congruence.
      + destruct (attr_item_spec q pit val0 (Some k)) as [N1 [_ [N3 [N4 _]]]]. rewrite <- H5 in *. assert (val0 = val) by congruence. subst val0.
        destruct (listed_end _ _ _ _ _ _ _ _ _ _ _ R _ _ H2) as [jt [Lj Sj]]. destruct (skel_eq _ _ Sj) as [_ [TO [_ [TA [TC _]]]]].
        exists val, q, jt, h, k. constructor; auto; try congruence.
        * rewrite SC, H5, TC. unfold attr_item. change NON_NEXUS with non_nexus. destruct (str_eqb (it_cp pit) non_nexus); reflexivity.
        * rewrite SA, H5, TC, TA. unfold attr_item. change NON_NEXUS with non_nexus. destruct (str_eqb (it_cp pit) non_nexus); reflexivity.
  Qed.

  Lemma node_kind : forall i it h, listed v' i it -> it_obj it = ONode h -> exists p, node_at i it h p.
  Proof.
    intros i it h L Ho. destruct (kinds _ _ L) as [[h' [p K]]|[val [j [jt [h' [k K]]]]]].
    - pose proof (na_obj _ _ _ _ K). assert (h' = h) by congruence. subst. eauto.
    - pose proof (va_obj _ _ _ _ _ _ K). congruence.
  Qed.

  Lemma obj_in_file : forall i it, listed v' i it -> OrderSim.in_file fname (it_obj it).
  Proof.
    intros i it L. destruct (kinds _ _ L) as [[h' [p K]]|[val [j [jt [h' [k K]]]]]].
    - rewrite (na_obj _ _ _ _ K). exact (na_file _ _ _ _ K).
    - rewrite (va_obj _ _ _ _ _ _ K). exact I.
  Qed.

  Lemma addr_kind : forall i it, listed v' i it -> it_addr it = None <-> (exists val, it_obj it = OVal val) /\ it_cp it = non_nexus.
  Proof.
    intros i it L. destruct (kinds _ _ L) as [[h' [p K]]|[val [j [jt [h' [k K]]]]]].
    - rewrite (na_addr _ _ _ _ K), (na_obj _ _ _ _ K). split; [discriminate|]. intros [[val X] _]. discriminate.
    - rewrite (va_addr _ _ _ _ _ _ K), (va_obj _ _ _ _ _ _ K), (va_cp _ _ _ _ _ _ K). destruct (str_eqb (it_cp jt) non_nexus); split; eauto; try discriminate.
      intros [_ X]. exfalso. apply (f_equal (fun s => has_char ch_at s)) in X. vm_compute (has_char ch_at non_nexus) in X.
      assert (Y : has_char ch_at (it_cp jt ++ 64%N :: k) = true) by (apply has_char_spec; apply in_or_app; right; left; reflexivity). congruence.
  Qed.
End One.

(** ** Two validations *)
Section Two.
  Variables (u : setup) (w w' : world) (v : validator) (fname : pystr) (v1 v2 : validator) (f f' : h5file).
  Hypothesis H1 : validate u w v fname = (v1, Ok tt).
  Hypothesis H2 : validate u w' v fname = (v2, Ok tt).
  Hypothesis Hf : dget fname w = Some (FHdf5 f).
  Hypothesis Hf' : dget fname w' = Some (FHdf5 f').
  Hypothesis Hr : reordered f f'.
  Hypothesis Hplain : plain_file f.
  Hypothesis Hd : distinct_names f.
  Hypothesis Hat : no_at_names f.

  Let Hplain' : plain_file f' := reordered_plain _ _ Hr Hplain.
  Let Hd' : distinct_names f' := reordered_distinct _ _ Hr Hd.
  Let Hat' : no_at_names f' := reordered_at _ _ Hr Hat.

  Lemma unique2 : forall i it j jt, listed v2 i it -> listed v2 j jt -> it_addr it = it_addr jt -> it_addr it <> None -> i = j.
  Proof.
    intros i it j jt L1 L2 E N. destruct (it_addr it) as [a|] eqn:Ea; [|congruence].
    destruct (addr_unique u w' v fname v2 (Ok tt) f' Hf' H2 Hplain' Hd' Hat' _ _ _ L2 (eq_sym E)) as [_ U]. eapply U; eauto.
  Qed.

  Record twin (it it' : vitem) : Prop := mkTwin {
    tw_obj : it_obj it' = it_obj it;
    tw_name : it_name it' = it_name it;
    tw_addr : it_addr it' = it_addr it;
    tw_cp : it_cp it' = it_cp it;
    tw_root : it_parent it = None <-> it_parent it' = None
  }.

  Lemma node_twin : forall i it h, listed v1 i it -> it_obj it = ONode h -> exists i' it', listed v2 i' it' /\ twin it it'
    /\ forall k val, In (k, val) (attrs_of w h) -> exists j jt, listed v2 j jt /\ it_obj jt = OVal val /\ it_parent jt = Some i' /\ it_name jt = Some k.
  Proof.
    intros i it h L Ho. destruct (node_kind u w v fname v1 f H1 Hf Hplain _ _ _ L Ho) as [p K].
    pose proof (reordered_leads _ _ Hr Hd _ _ _ (na_leads _ _ _ _ _ _ _ _ K)) as LD.
    destruct (paths_catalogued u w' v fname v2 (Ok tt) f' Hf' H2 Hplain' (or_introl eq_refl) _ _ LD) as [i' [it' [h' [A [B [C [D [F [_ G]]]]]]]]].
    destruct (node_kind u w' v fname v2 f' H2 Hf' Hplain' _ _ _ A B) as [p' K'].
    assert (p' = p).
    { apply path_text_inj; [exact (na_names _ _ _ _ _ _ _ _ K')|exact (na_names _ _ _ _ _ _ _ _ K)|]. pose proof (na_addr _ _ _ _ _ _ _ _ K'). congruence. }
    subst p'.
    assert (EH : h' = h).
    { destruct p as [|n p].
      - destruct (na_root _ _ _ _ _ _ _ _ K eq_refl) as [-> _]. apply (na_root _ _ _ _ _ _ _ _ K' eq_refl).
      - pose proof (na_name _ _ _ _ _ _ _ _ K). pose proof (na_name _ _ _ _ _ _ _ _ K'). pose proof (na_isfile _ _ _ _ _ _ _ _ K ltac:(discriminate)).
        pose proof (na_isfile _ _ _ _ _ _ _ _ K' ltac:(discriminate)). pose proof (na_file _ _ _ _ _ _ _ _ K). destruct h, h'. simpl in *. congruence. }
    subst h'. exists i', it'. split; auto. split.
    - constructor.
      + congruence.
      + rewrite (na_item _ _ _ _ _ _ _ _ K), (na_item _ _ _ _ _ _ _ _ K'). reflexivity.
      + rewrite (na_addr _ _ _ _ _ _ _ _ K), F. reflexivity.
      + eapply class_path_fun; [exact (na_cp _ _ _ _ _ _ _ _ K')|]. apply (reordered_class _ _ Hr Hd). exact (na_cp _ _ _ _ _ _ _ _ K).
      + destruct p as [|n p].
        * destruct (na_root _ _ _ _ _ _ _ _ K eq_refl) as [_ ->]. destruct (na_root _ _ _ _ _ _ _ _ K' eq_refl) as [_ ->]. tauto.
        * destruct (na_parent _ _ _ _ _ _ _ _ K ltac:(discriminate)) as [x [-> _]]. destruct (na_parent _ _ _ _ _ _ _ _ K' ltac:(discriminate)) as [y [-> _]]. split; discriminate.
    - intros k val Hin. apply G. apply (Permutation_in _ (reordered_attributes _ _ Hr _)).
      rewrite (attrs_attributes w fname f Hf h (na_file _ _ _ _ _ _ _ _ K)) in Hin. exact Hin.
  Qed.

  Lemma twins : forall i it, listed v1 i it -> exists i' it', listed v2 i' it' /\ twin it it'.
  Proof.
    intros i it L. destruct (kinds u w v fname v1 f H1 Hf Hplain _ _ L) as [[h [p K]]|[val [j [jt [h [k K]]]]]].
    - destruct (node_twin _ _ _ L (na_obj _ _ _ _ _ _ _ _ K)) as [i' [it' [A [B _]]]]. eauto.
    - destruct (node_twin _ _ _ (va_listed _ _ _ _ _ _ _ _ K) (va_node _ _ _ _ _ _ _ _ K)) as [j' [jt' [A [B C]]]].
      destruct (C _ _ (va_in _ _ _ _ _ _ _ _ K)) as [i' [it' [D [F [G I]]]]]. exists i', it'. split; auto.
      destruct (kinds u w' v fname v2 f' H2 Hf' Hplain' _ _ D) as [[h' [p' K']]|[val' [q [qt [h' [k' K']]]]]]; [pose proof (na_obj _ _ _ _ _ _ _ _ K'); congruence|].
      assert (q = j') by (pose proof (va_parent _ _ _ _ _ _ _ _ K'); congruence). subst q.
      assert (qt = jt') by (destruct (va_listed _ _ _ _ _ _ _ _ K') as [X _]; destruct A as [Y _]; congruence). subst qt.
      assert (k' = k) by (pose proof (va_name _ _ _ _ _ _ _ _ K'); congruence). subst k'.
      assert (val' = val) by (pose proof (va_obj _ _ _ _ _ _ _ _ K'); congruence). subst val'.
      constructor.
      + rewrite F. symmetry. exact (va_obj _ _ _ _ _ _ _ _ K).
      + rewrite I. symmetry. exact (va_name _ _ _ _ _ _ _ _ K).
      + rewrite (va_addr _ _ _ _ _ _ _ _ K), (va_addr _ _ _ _ _ _ _ _ K'), (tw_cp _ _ B), (tw_addr _ _ B). reflexivity.
      + rewrite (va_cp _ _ _ _ _ _ _ _ K), (va_cp _ _ _ _ _ _ _ _ K'), (tw_cp _ _ B). reflexivity.
      + rewrite G, (va_parent _ _ _ _ _ _ _ _ K). split; discriminate.
  Qed.

  (** the items they were found in are twins too *)
  Lemma twin_parents : forall i it i' it' j, listed v1 i it -> listed v2 i' it' -> twin it it' -> it_cp it <> non_nexus -> it_parent it = Some j ->
    exists j' jt jt', it_parent it' = Some j' /\ listed v1 j jt /\ listed v2 j' jt' /\ twin jt jt'.
  Proof.
    intros i it i' it' j L L' T Nn Pj. destruct (kinds u w v fname v1 f H1 Hf Hplain _ _ L) as [[h [p K]]|[val [j0 [jt [h [k K]]]]]].
    - pose proof (na_obj _ _ _ _ _ _ _ _ K) as Ho. destruct (node_kind u w' v fname v2 f' H2 Hf' Hplain' _ _ h L') as [p' K']; [rewrite (tw_obj _ _ T); auto|].
      assert (p' = p).
      { apply path_text_inj; [exact (na_names _ _ _ _ _ _ _ _ K')|exact (na_names _ _ _ _ _ _ _ _ K)|].
        pose proof (na_name _ _ _ _ _ _ _ _ K'). pose proof (na_name _ _ _ _ _ _ _ _ K). congruence. }
      subst p'. assert (Np : p <> []). { intros E. destruct (na_root _ _ _ _ _ _ _ _ K E) as [_ X]. congruence. }
      destruct (na_parent _ _ _ _ _ _ _ _ K Np) as [x [X1 [X2|[jt [g [q [n [X2 [X3 [X4 [X5 X6]]]]]]]]]]]; [contradiction|]. assert (x = j) by congruence. subst x.
      destruct (na_parent _ _ _ _ _ _ _ _ K' Np) as [j' [Y1 [Y2|[jt' [g' [q' [n' [Y2 [Y3 [Y4 [Y5 Y6]]]]]]]]]]]; [rewrite (tw_cp _ _ T) in Y2; contradiction|].
      exists j', jt, jt'. split; auto. split; auto. split; auto. rewrite X4 in Y4. apply app_inj_tail in Y4 as [<- _].
      destruct (twins _ _ X2) as [z [zt [Z1 Z2]]]. assert (z = j').
      { eapply unique2; eauto; rewrite (tw_addr _ _ Z2); congruence. }
      subst z. assert (zt = jt') by (destruct Z1 as [Z1 _]; destruct Y2 as [Y2 _]; congruence). subst zt. exact Z2.
    - assert (j0 = j) by (pose proof (va_parent _ _ _ _ _ _ _ _ K); congruence). subst j0.
      destruct (kinds u w' v fname v2 f' H2 Hf' Hplain' _ _ L') as [[h' [p' K']]|[val' [j' [jt' [h' [k' K']]]]]].
      { pose proof (na_obj _ _ _ _ _ _ _ _ K'). pose proof (va_obj _ _ _ _ _ _ _ _ K). pose proof (tw_obj _ _ T). congruence. }
      exists j', jt, jt'. split; [exact (va_parent _ _ _ _ _ _ _ _ K')|]. split; [exact (va_listed _ _ _ _ _ _ _ _ K)|]. split; [exact (va_listed _ _ _ _ _ _ _ _ K')|].
      assert (k' = k) by (pose proof (va_name _ _ _ _ _ _ _ _ K'); pose proof (va_name _ _ _ _ _ _ _ _ K); pose proof (tw_name _ _ T); congruence). subst k'.
      pose proof (va_cp _ _ _ _ _ _ _ _ K) as CP. pose proof (va_cp _ _ _ _ _ _ _ _ K') as CP'. rewrite (tw_cp _ _ T) in CP'.
      pose proof (va_addr _ _ _ _ _ _ _ _ K) as AD. pose proof (va_addr _ _ _ _ _ _ _ _ K') as AD'. rewrite (tw_addr _ _ T) in AD'.
      destruct (str_eqb (it_cp jt) non_nexus); [contradiction|]. destruct (str_eqb (it_cp jt') non_nexus); [contradiction|].
      destruct (node_kind u w v fname v1 f H1 Hf Hplain _ _ _ (va_listed _ _ _ _ _ _ _ _ K) (va_node _ _ _ _ _ _ _ _ K)) as [p M].
      destruct (node_kind u w' v fname v2 f' H2 Hf' Hplain' _ _ _ (va_listed _ _ _ _ _ _ _ _ K') (va_node _ _ _ _ _ _ _ _ K')) as [p' M'].
      rewrite (na_addr _ _ _ _ _ _ _ _ M) in AD. rewrite (na_addr _ _ _ _ _ _ _ _ M'), AD in AD'. cbn [ostr] in AD'. injection AD' as AD'. apply app_inv_tail in AD'.
      destruct (twins _ _ (va_listed _ _ _ _ _ _ _ _ K)) as [z [zt [Z1 Z2]]]. assert (z = j').
      { eapply unique2; [exact Z1|exact (va_listed _ _ _ _ _ _ _ _ K')| |]; rewrite (tw_addr _ _ Z2), (na_addr _ _ _ _ _ _ _ _ M); [rewrite (na_addr _ _ _ _ _ _ _ _ M')|]; congruence. }
      subst z. assert (zt = jt') by (destruct Z1 as [Z1 _]; destruct (va_listed _ _ _ _ _ _ _ _ K') as [Y2 _]; congruence). subst zt. exact Z2.
  Qed.

  (** ** Step 1 *)
  Lemma own1 : forall i it a, listed v1 i it -> it_addr it = Some a -> own_address v1 i.
  Proof.
    intros i it a L Ea jt j kt Lj Lk E. assert (jt = it) by (destruct L as [X _]; destruct Lj as [Y _]; congruence). subst jt.
    destruct (addr_unique u w v fname v1 (Ok tt) f Hf H1 Hplain Hd Hat _ _ _ L Ea) as [_ U]. eapply U; eauto. congruence.
  Qed.
  Lemma own2 : forall i it a, listed v2 i it -> it_addr it = Some a -> own_address v2 i.
  Proof. intros i it a L Ea jt j kt Lj Lk E. assert (jt = it) by (destruct L as [X _]; destruct Lj as [Y _]; congruence). subst jt. eapply unique2; eauto; congruence. Qed.

  Lemma step1_same : forall i it i' it' a t, listed v1 i it -> listed v2 i' it' -> twin it it' -> it_addr it = Some a -> key1 t = true ->
    findings_for v1 (Some a) t = findings_for v2 (Some a) t.
  Proof.
    intros i it i' it' a t L L' T Ea Ht.
    destruct (step1_at _ _ _ _ _ H1 _ _ L) as [it0 [sa [sb S]]]. destruct (step1_at _ _ _ _ _ H2 _ _ L') as [it0' [sa' [sb' S']]].
    destruct (step1_log _ _ _ _ _ _ _ _ _ _ S) as [li [TR F]]. destruct (step1_log _ _ _ _ _ _ _ _ _ _ S') as [li' [TR' F']].
    assert (Ea' : it_addr it' = Some a) by (rewrite (tw_addr _ _ T); auto).
    destruct (so_shows _ _ _ _ _ _ _ _ _ _ S li TR F t Ht) as [_ A]. specialize (A (own1 _ _ _ L Ea)). rewrite Ea in A.
    destruct (so_shows _ _ _ _ _ _ _ _ _ _ S' li' TR' F' t Ht) as [_ A']. specialize (A' (own2 _ _ _ L' Ea')). rewrite Ea' in A'.
    rewrite A, A'. f_equal.
    destruct (skel_eq _ _ (so_skel _ _ _ _ _ _ _ _ _ _ S)) as [S1 [S2 [S3 [S4 [S5 _]]]]]. destruct (skel_eq _ _ (so_skel _ _ _ _ _ _ _ _ _ _ S')) as [S1' [S2' [S3' [S4' [S5' _]]]]].
    assert (NP : OrderSim.needs (Some a) (it_cp it) -> it_cp it <> non_nexus).
    { intros [X|[x [X1 X2]]] E; [rewrite E in X; vm_compute in X; discriminate|]. injection X1 as <-.
      destruct (kinds u w v fname v1 f H1 Hf Hplain _ _ L) as [[h [p K]]|[val [j0 [jt [h [k K]]]]]].
      - pose proof (na_addr _ _ _ _ _ _ _ _ K) as Y. assert (Z : a = path_text p) by congruence. rewrite Z in X2. apply has_char_spec in X2.
        revert X2. apply (path_no_at f Hat Hplain _ _ _ (na_leads _ _ _ _ _ _ _ _ K)).
      - apply (addr_kind u w v fname v1 f H1 Hf Hplain) in L. assert (it_addr it = None); [|congruence]. apply L. split; auto. exists val. exact (va_obj _ _ _ _ _ _ _ _ K). }
    (* the parents, if they matter *)
    assert (PR : exists po pa, OrderSim.in_file fname po /\ (OrderSim.needs (Some a) (it_cp it) -> it_parent it <> None ->
              exists j j' jt jt', it_parent it = Some j /\ it_parent it' = Some j' /\ nth_error (st_items sa) j = Some jt /\ nth_error (st_items sa') j' = Some jt'
                /\ it_obj jt = po /\ it_obj jt' = po /\ it_addr jt = pa /\ it_addr jt' = pa)).
    { destruct (str_eqb_spec (it_cp it) non_nexus) as [En|Nn]; [exists (OVal VNone), None; split; [exact I|intros X; destruct (NP X En)]|].
      destruct (it_parent it) as [j|] eqn:Ej; [|exists (OVal VNone), None; split; [exact I|congruence]].
      destruct (twin_parents _ _ _ _ _ L L' T Nn Ej) as [j' [jt [jt' [P1 [P2 [P3 P4]]]]]].
      exists (it_obj jt), (it_addr jt). split; [eapply obj_in_file; [exact H1|exact Hf|exact Hplain|exact P2]|]. intros _ _.
      destruct (so_listed _ _ _ _ _ _ _ _ _ _ S _ _ P2) as [x [X1 X2]]. destruct (so_listed _ _ _ _ _ _ _ _ _ _ S' _ _ P3) as [y [Y1 Y2]].
      destruct (skel_eq _ _ X2) as [_ [XO [_ [XA _]]]]. destruct (skel_eq _ _ Y2) as [_ [YO [_ [YA _]]]]. pose proof (tw_obj _ _ P4). pose proof (tw_addr _ _ P4).
      exists j, j', x, y. repeat (split; [congruence|]). congruence. }
    destruct PR as [po [pa [PF PR]]].
    assert (NN : OrderSim.needs (Some a) (it_cp it) -> it_parent it <> None).
    { intros X Y. specialize (NP X). destruct (kinds u w v fname v1 f H1 Hf Hplain _ _ L) as [[h [p K]]|[val [j0 [jt [h [k K]]]]]].
      - destruct p as [|m p]; [|destruct (na_parent _ _ _ _ _ _ _ _ K ltac:(discriminate)) as [? [Z _]]; congruence].
        pose proof (na_cp _ _ _ _ _ _ _ _ K) as CP. pose proof (na_addr _ _ _ _ _ _ _ _ K) as AD. assert (E0 : it_cp it = []) by (inversion CP; auto; destruct p; discriminate).
        destruct X as [X|[x [X1 X2]]]; [rewrite E0 in X; discriminate|]. injection X1 as <-. assert (E1 : a = path_text []) by congruence. rewrite E1 in X2. vm_compute in X2. discriminate.
      - pose proof (va_parent _ _ _ _ _ _ _ _ K). congruence. }
    pose proof (OrderSim.sim_check (u_env u) w w' fname f f' (u_patterns u) (u_reclimit u) (u_field_minOccurs u) Hf Hf' Hr Hplain Hd i i' (st_find sa) (st_find sa')
      (it_obj it) (it_name it) (Some a) (it_cp it) (it_parent it) (it_parent it') po pa (obj_in_file u w v fname v1 f H1 Hf Hplain _ _ L) PF (tw_root _ _ T)) as SIM.
    assert (LR : OrderSim.lrel (u_env u) w w' fname (u_patterns u) (u_reclimit u) (u_field_minOccurs u) i i' (st_find sa) (st_find sa')
      (it_obj it) (it_name it) (Some a) (it_cp it) (it_parent it) (it_parent it') po pa sa sa').
    { constructor.
      - exists []. rewrite !app_nil_r. auto.
      - exists it0, it0'. split; [exact (so_item _ _ _ _ _ _ _ _ _ _ S)|]. split; [exact (so_item _ _ _ _ _ _ _ _ _ _ S')|].
        pose proof (tw_obj _ _ T). pose proof (tw_name _ _ T). pose proof (tw_cp _ _ T). pose proof (so_vals _ _ _ _ _ _ _ _ _ _ S). pose proof (so_vals _ _ _ _ _ _ _ _ _ _ S').
        repeat (split; [congruence|]). congruence.
      - intros X. destruct (PR X (NN X)) as [j [j' [jt [jt' [Z1 [Z2 [Z3 [Z4 [Z5 [Z6 [Z7 Z8]]]]]]]]]]]. exists j, j', jt, jt'. repeat (split; [assumption|]). assumption.
      - exact (so_cache _ _ _ _ _ _ _ _ _ _ S).
      - exact (so_cache _ _ _ _ _ _ _ _ _ _ S').
      - rewrite (so_classes _ _ _ _ _ _ _ _ _ _ S), (so_classes _ _ _ _ _ _ _ _ _ _ S'). reflexivity. }
    destruct (SIM _ _ LR) as [LR2 _].
    change (mkCtx (u_env u) w (open_root fname) (u_patterns u) (u_reclimit u) (u_field_minOccurs u)) with (mk_ctx u w fname) in LR2.
    change (mkCtx (u_env u) w' (open_root fname) (u_patterns u) (u_reclimit u) (u_field_minOccurs u)) with (mk_ctx u w' fname) in LR2.
    rewrite (so_run _ _ _ _ _ _ _ _ _ _ S), (so_run _ _ _ _ _ _ _ _ _ _ S') in LR2. cbn [fst] in LR2.
    destruct (OrderSim.lr_find _ _ _ _ _ _ _ _ _ _ _ _ _ _ _ _ _ _ _ _ _ LR2) as [l [G1 G2]].
    rewrite (tr_find _ _ _ TR) in G1. rewrite (tr_find _ _ _ TR') in G2. apply app_inv_head in G1. apply app_inv_head in G2. congruence.
  Qed.
End Two.
