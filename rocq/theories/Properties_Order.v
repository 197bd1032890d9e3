(** * C132: the order of members and attributes in a file *)

From Coq Require Import List NArith ZArith Bool String Lia Permutation.
From Verif Require Import PyBase PyFacts H5 Findings Nxdl Core Catalog GroupChecks Validate Samples Spec_Run Spec_Catalog PathFacts CatalogSamples Spec_Plot PlotLink PlotSamples Report Spec_Report ReportFacts Spec_Order OrderWorld OrderRun OrderPlot.
Import ListNotations.

(** two plots, in either order *)
Definition ab_file : h5file :=
  [ grp [("entry"%string, 1)] [];
    grp [("a"%string, 2); ("b"%string, 3)] [("NX_class"%string, str "NXentry")];
    grp [("counts"%string, 4)] [("NX_class"%string, str "NXdata"); ("signal"%string, str "counts")];
    grp [("counts"%string, 4)] [("NX_class"%string, str "NXdata"); ("signal"%string, str "counts")];
    ds (VArrNum [py "1"; py "2"]) [] ].
Definition ba_file : h5file :=
  [ grp [("entry"%string, 1)] [];
    grp [("b"%string, 3); ("a"%string, 2)] [("NX_class"%string, str "NXentry")];
    grp [("counts"%string, 4)] [("NX_class"%string, str "NXdata"); ("signal"%string, str "counts")];
    grp [("counts"%string, 4)] [("signal"%string, str "counts"); ("NX_class"%string, str "NXdata")];
    ds (VArrNum [py "1"; py "2"]) [] ].
Definition ab_run : validator := fst (run ab_file).
Definition ba_run : validator := fst (run ba_file).

Lemma ab_ok : validate setup0 (world_of ab_file) (new_validator classes0) fn = (ab_run, Ok tt).
Proof. vm_compute. reflexivity. Qed.
Lemma ba_ok : validate setup0 (world_of ba_file) (new_validator classes0) fn = (ba_run, Ok tt).
Proof. vm_compute. reflexivity. Qed.
Lemma ab_plain : plain_file ab_file /\ distinct_names ab_file /\ no_at_names ab_file.
Proof. split; [apply plainb_ok; vm_compute; reflexivity|]. split; [apply distinctb_ok; vm_compute; reflexivity|apply no_atb_ok; vm_compute; reflexivity]. Qed.
Lemma ab_ba : reordered ab_file ba_file.
Proof. unfold ab_file, ba_file. repeat constructor. Qed.

(** a @signal that names nothing, before or after a good one *)
Definition owt_file : h5file :=
  [ grp [("entry"%string, 1)] [];
    grp [("b"%string, 3); ("a"%string, 2)] [("NX_class"%string, str "NXentry")];
    grp [] [("NX_class"%string, str "NXdata"); ("signal"%string, str "nothing")];
    grp [("counts"%string, 4)] [("NX_class"%string, str "NXdata"); ("signal"%string, str "counts")];
    ds (VArrNum [py "1"; py "2"]) [] ].
Definition owt_run : validator := fst (run owt_file).
Lemma owt_ok : validate setup0 (world_of owt_file) (new_validator classes0) fn = (owt_run, Ok tt).
Proof. vm_compute. reflexivity. Qed.
Lemma two_owt : reordered two_file owt_file.
Proof. unfold two_file, owt_file. repeat constructor. Qed.

(** a file with one @signal *)
Definition doog_file : h5file :=
  [ grp [("scratch"%string, 7); ("entry"%string, 1)] [("default"%string, str "entry"); ("file_name"%string, str "good.nxs")];
    grp [("Data"%string, 3); ("title"%string, 2); ("notes"%string, 6)] [("NX_class"%string, str "NXentry"); ("default"%string, str "Data")];
    ds (str "hello") [];
    grp [("x"%string, 5); ("counts"%string, 4)] [("NX_class"%string, str "NXdata"); ("axes"%string, VArrO [py "x"]); ("signal"%string, str "counts")];
    ds (VArrNum [py "1"; py "2"]) [("units"%string, str "counts")];
    ds (VArrNum [py "0"; py "1"]) [("2bad"%string, VInt 3)];
    grp [("any old thing"%string, 2)] [("NX_class"%string, str "NXcollection")];
    grp [("deep"%string, 8)] [("note"%string, str "not NeXus")];
    ds (VInt 3) [("units"%string, str "mm")] ].
Definition doog_run : validator := fst (run doog_file).
Lemma doog_ok : validate setup0 (world_of doog_file) (new_validator classes0) fn = (doog_run, Ok tt).
Proof. vm_compute. reflexivity. Qed.
Lemma good_doog : reordered good_file doog_file.
Proof. unfold good_file, doog_file. repeat constructor. Qed.

Definition signal_item (it : vitem) : bool :=
  negb (endswith (it_cp it) (py "@signal")) || ostr_eqb (it_addr it) (Some (py "/entry/Data@signal")).
Lemma good_one : one_signal good_run.
Proof.
  assert (B : forall it, In it (st_items (v_st good_run)) -> signal_item it = true) by (apply forallb_forall; vm_compute; reflexivity).
  assert (C : forall a o cp, catalogued_as good_run a o cp -> (exists d, cp = d ++ py "@signal") -> a = py "/entry/Data@signal").
  { intros a o cp [i [it [[L _] [Ea [_ Ec]]]]] [d Ed]. apply nth_error_In in L. apply B in L. unfold signal_item in L. rewrite Ec, (proj2 (endswith_spec cp (py "@signal")) (ex_intro _ d Ed)), Ea in L. cbn [negb orb] in L. apply ostr_eqb_eq in L. congruence. }
  intros a o cp a' o' cp' A A' D D'. rewrite (C _ _ _ A D), (C _ _ _ A' D'). reflexivity.
Qed.

(** every @signal of ab_file names something *)
Definition ab_item (it : vitem) : bool :=
  match it_obj it with
  | ONode h => negb (str_eqb (it_cp it) signal_path) && implb (str_eqb (it_cp it) (py "/NXentry/NXdata"))
      ((ostr_eqb (it_addr it) (Some (py "/entry/a")) && Nat.eqb (h_oid h) 2) || (ostr_eqb (it_addr it) (Some (py "/entry/b")) && Nat.eqb (h_oid h) 3))
  | OVal _ => true
  end.
Lemma ab_signals : signals_name_members env0 ab_file.
Proof.
  destruct ab_plain as [G1 [G2 G3]]. assert (HF : dget fn (world_of ab_file) = Some (FHdf5 ab_file)) by reflexivity.
  assert (B : forall i it, nth_error (st_items (v_st ab_run)) i = Some it -> ab_item it = true).
  { intros i it Hi. apply nth_error_In in Hi. revert it Hi. apply forallb_forall. vm_compute. reflexivity. }
  split.
  - intros p Hp. destruct (path_item _ _ _ _ _ _ ab_ok HF G1 G3 _ _ Hp) as [i [it [h [o [_ [[A1 _] [A2 [_ [_ [A5 _]]]]]]]]]].
    apply B in A1. unfold ab_item in A1. rewrite A2, A5 in A1. vm_compute in A1. discriminate.
  - intros p o Hp Ho _. destruct (path_item _ _ _ _ _ _ ab_ok HF G1 G3 _ _ Hp) as [i [it [h [o' [A0 [[A1 _] [A2 [A3 [A4 [A5 A6]]]]]]]]]].
    pose proof (leads_fun _ _ _ _ Ho _ A0) as ->. apply B in A1. unfold ab_item in A1. rewrite A2, A5 in A1.
    change (str_eqb (py "/NXentry/NXdata") signal_path) with false in A1. rewrite str_eqb_refl in A1. cbn [negb implb andb] in A1.
    apply orb_true_iff in A1 as [A1|A1]; apply andb_true_iff in A1 as [A1 A7]; apply ostr_eqb_eq in A1; apply Nat.eqb_eq in A7; rewrite A4 in A1; inversion A1 as [A8].
    + assert (A9 : path_text p = path_text [py "entry"; py "a"]) by (rewrite A8; reflexivity). apply path_text_inj in A9; [|exact A6|].
      * exists (py "entry"), (py "a"), (str "counts"), (py "counts"), 4. split; auto. rewrite <- A3, A7. split; [vm_compute; reflexivity|]. split; [reflexivity|].
        apply hard1; [vm_compute; reflexivity|simpl; lia].
      * repeat constructor; try discriminate; vm_compute; intuition discriminate.
    + assert (A9 : path_text p = path_text [py "entry"; py "b"]) by (rewrite A8; reflexivity). apply path_text_inj in A9; [|exact A6|].
      * exists (py "entry"), (py "b"), (str "counts"), (py "counts"), 4. split; auto. rewrite <- A3, A7. split; [vm_compute; reflexivity|]. split; [reflexivity|].
        apply hard1; [vm_compute; reflexivity|simpl; lia].
      * repeat constructor; try discriminate; vm_compute; intuition discriminate.
Qed.

(** lists of findings with the same statuses *)
Lemma same_statuses : forall l m : list finding, Permutation (map f_status l) (map f_status m) ->
  finding_score l = finding_score m /\ finding_summary [] l = finding_summary [] m.
Proof.
  intros l m P. assert (N : forall s, number_with s l = number_with s m).
  { assert (K : forall s k, number_with s k = List.length (filter (fun x => status_eqb x s) (map f_status k))).
    { intros s k. unfold number_with. induction k as [|g k IH]; auto. cbn [filter map]. destruct (f_status g), s; cbn [status_eqb filter List.length]; rewrite IH; reflexivity. }
    intros s. rewrite !K. apply Permutation_length. apply filter_perm. auto. }
  split.
  - rewrite !score_exact. assert (T : documented_total l = documented_total m) by (unfold documented_total; rewrite !N; reflexivity).
    assert (C : number_counted l = number_counted m) by (unfold number_counted; rewrite !N; reflexivity). rewrite T, C. reflexivity.
  - rewrite !summary_exact. unfold all_counts. f_equal. apply map_ext. intros s. rewrite N. reflexivity.
Qed.

(** The findings do depend on the order: of two groups with a plot, the last one listed
    is reported as the default. *)
Theorem C132_refuted : exists u w w' v fname f f' v1 v2, dget fname w = Some (FHdf5 f) /\ dget fname w' = Some (FHdf5 f') /\ reordered f f'
  /\ plain_file f /\ distinct_names f /\ no_at_names f
  /\ validate u w v fname = (v1, Ok tt) /\ validate u w' v fname = (v2, Ok tt)
  /\ findings_for v1 (Some (py "/")) (py "NeXus default plot") = [mkF (Some (py "/")) (py "NeXus default plot") OK (py "found by v3: /entry/b/counts")]
  /\ findings_for v2 (Some (py "/")) (py "NeXus default plot") = [mkF (Some (py "/")) (py "NeXus default plot") OK (py "found by v3: /entry/a/counts")].
Proof.
  exists setup0, (world_of ab_file), (world_of ba_file), (new_validator classes0), fn, ab_file, ba_file, ab_run, ba_run.
  split; [reflexivity|]. split; [reflexivity|]. split; [exact ab_ba|]. split; [apply ab_plain|]. split; [apply ab_plain|]. split; [apply ab_plain|].
  split; [exact ab_ok|]. split; [exact ba_ok|]. split; vm_compute; reflexivity.
Qed.
Print Assumptions C132_refuted.

(** So does the score: a @signal that names nothing ends the search, and the groups
    listed after it are not reported. *)
Theorem C132_score_refuted : exists u w w' v fname f f' v1 v2, dget fname w = Some (FHdf5 f) /\ dget fname w' = Some (FHdf5 f') /\ reordered f f'
  /\ plain_file f /\ distinct_names f /\ no_at_names f
  /\ validate u w v fname = (v1, Ok tt) /\ validate u w' v fname = (v2, Ok tt)
  /\ fst (fst (finding_score (st_find (v_st v1)))) <> fst (fst (finding_score (st_find (v_st v2)))).
Proof.
  exists setup0, (world_of two_file), (world_of owt_file), (new_validator classes0), fn, two_file, owt_file, two_run, owt_run.
  split; [reflexivity|]. split; [reflexivity|]. split; [exact two_owt|]. split; [apply two_plain|]. split; [apply two_plain|]. split; [apply two_plain|].
  split; [exact two_ok|]. split; [exact owt_ok|]. vm_compute. discriminate.
Qed.
Print Assumptions C132_score_refuted.

(** The findings of all other tests, those of version 2 and of the chain of @default among them, do not:
    they are the same, with the same addresses, statuses and comments, and as many of each. *)
Theorem C132_partial : forall u w w' v fname f f' v1 v2, dget fname w = Some (FHdf5 f) -> dget fname w' = Some (FHdf5 f') -> reordered f f' ->
  plain_file f -> distinct_names f -> no_at_names f ->
  validate u w v fname = (v1, Ok tt) -> validate u w' v fname = (v2, Ok tt) ->
  Permutation (settled_findings v1) (settled_findings v2).
Proof. intros u w w' v fname f f' v1 v2 Hf Hf' Hr P D A H1 H2. exact (settled_perm u w w' v fname v1 v2 f f' H1 H2 Hf Hf' Hr P D A). Qed.
Print Assumptions C132_partial.

(** The verdict on the file is the same, but for its comment. *)
Theorem C132_verdict : forall u w w' v fname f f' v1 v2, dget fname w = Some (FHdf5 f) -> dget fname w' = Some (FHdf5 f') -> reordered f f' ->
  plain_file f -> distinct_names f -> no_at_names f ->
  validate u w v fname = (v1, Ok tt) -> validate u w' v fname = (v2, Ok tt) ->
  forall d g, dget (py "NXentry") (st_classes (v_st v)) = Some d -> NoDup (map fst (d_groups d)) -> dget (py "data") (d_groups d) = Some g ->
  exists x y, of_test v1 (py "NeXus default plot") = [x] /\ of_test v2 (py "NeXus default plot") = [y] /\ f_addr x = f_addr y /\ f_status x = f_status y.
Proof. intros u w w' v fname f f' v1 v2 Hf Hf' Hr P D A H1 H2. exact (verdict_same u w w' v fname v1 v2 f f' H1 H2 Hf Hf' Hr P D A). Qed.
Print Assumptions C132_verdict.

(** If every @signal of an NXdata group names something, only the comment of the verdict can differ;
    score and summary are the same. *)
Theorem C132_signals : forall u w w' v fname f f' v1 v2, dget fname w = Some (FHdf5 f) -> dget fname w' = Some (FHdf5 f') -> reordered f f' ->
  plain_file f -> distinct_names f -> no_at_names f -> signals_name_members (u_env u) f ->
  validate u w v fname = (v1, Ok tt) -> validate u w' v fname = (v2, Ok tt) ->
  forall d g, dget (py "NXentry") (st_classes (v_st v)) = Some d -> NoDup (map fst (d_groups d)) -> dget (py "data") (d_groups d) = Some g ->
  Permutation (map but_comment (st_find (v_st v1))) (map but_comment (st_find (v_st v2)))
  /\ Permutation (of_test v1 (py "NeXus default plot v3, NXdata@signal")) (of_test v2 (py "NeXus default plot v3, NXdata@signal"))
  /\ finding_score (st_find (v_st v1)) = finding_score (st_find (v_st v2))
  /\ finding_summary [] (st_find (v_st v1)) = finding_summary [] (st_find (v_st v2)).
Proof.
  intros u w w' v fname f f' v1 v2 Hf Hf' Hr P D A S H1 H2 d g HD ND HG.
  assert (X : all_exist u w v1) by exact (signals_exist u w v fname v1 f H1 Hf P D A S).
  pose proof (entries_perm u w w' v fname v1 v2 f f' H1 H2 Hf Hf' Hr P D A X d g HD ND HG) as E. split; [exact E|].
  split; [exact (v3_perm u w w' v fname v1 v2 f f' H1 H2 Hf Hf' Hr P D A X)|]. apply same_statuses. apply (Permutation_map snd) in E. rewrite !map_map in E. exact E.
Qed.
Print Assumptions C132_signals.

(** If the file has one @signal at most, all findings are the same. *)
Theorem C132_one_signal : forall u w w' v fname f f' v1 v2, dget fname w = Some (FHdf5 f) -> dget fname w' = Some (FHdf5 f') -> reordered f f' ->
  plain_file f -> distinct_names f -> no_at_names f ->
  validate u w v fname = (v1, Ok tt) -> validate u w' v fname = (v2, Ok tt) -> one_signal v1 ->
  forall d g, dget (py "NXentry") (st_classes (v_st v)) = Some d -> NoDup (map fst (d_groups d)) -> dget (py "data") (d_groups d) = Some g ->
  Permutation (st_find (v_st v1)) (st_find (v_st v2)).
Proof. intros u w w' v fname f f' v1 v2 Hf Hf' Hr P D A H1 H2 O. exact (one_perm u w w' v fname v1 v2 f f' H1 H2 Hf Hf' Hr P D A O). Qed.
Print Assumptions C132_one_signal.

(** The catalogue does not depend on the order either. *)
Theorem C132_catalog : forall u w w' v fname f f' v1 v2, dget fname w = Some (FHdf5 f) -> dget fname w' = Some (FHdf5 f') -> reordered f f' ->
  plain_file f -> distinct_names f -> no_at_names f ->
  validate u w v fname = (v1, Ok tt) -> validate u w' v fname = (v2, Ok tt) ->
  forall a o cp, catalogued_as v1 a o cp <-> catalogued_as v2 a o cp.
Proof. intros u w w' v fname f f' v1 v2 Hf Hf' Hr P D A H1 H2. exact (same_catalogue u w w' v fname v1 v2 f f' H1 H2 Hf Hf' Hr P D). Qed.
Print Assumptions C132_catalog.

Example C132_case : dget fn (world_of ab_file) = Some (FHdf5 ab_file) /\ dget fn (world_of ba_file) = Some (FHdf5 ba_file) /\ reordered ab_file ba_file
  /\ plain_file ab_file /\ distinct_names ab_file /\ no_at_names ab_file
  /\ validate setup0 (world_of ab_file) (new_validator classes0) fn = (ab_run, Ok tt) /\ validate setup0 (world_of ba_file) (new_validator classes0) fn = (ba_run, Ok tt)
  /\ ab_file <> ba_file /\ st_find (v_st ab_run) <> st_find (v_st ba_run)
  /\ List.length (settled_findings ab_run) = 50 /\ catalogued_as ab_run (py "/entry/b@signal") (OVal (str "counts")) (py "/NXentry/NXdata@signal").
Proof.
  split; [reflexivity|]. split; [reflexivity|]. split; [exact ab_ba|]. split; [apply ab_plain|]. split; [apply ab_plain|]. split; [apply ab_plain|].
  split; [exact ab_ok|]. split; [exact ba_ok|]. split; [discriminate|]. split; [intros X; apply (f_equal (fun l => map f_addr l)) in X; vm_compute in X; discriminate|].
  split; [vm_compute; reflexivity|].
  exists 9. eexists. split; [split; [vm_compute; reflexivity|exists (py "/NXentry/NXdata@signal"), [5; 9]; split; [vm_compute; auto 10|simpl; auto]]|]. split; [vm_compute; reflexivity|]. split; vm_compute; reflexivity.
Qed.

(** the classes in use have a data group in NXentry; and the other hypotheses *)
Example C132_more :
  (exists d g, dget (py "NXentry") (st_classes (v_st (new_validator classes0))) = Some d /\ NoDup (map fst (d_groups d)) /\ dget (py "data") (d_groups d) = Some g)
  /\ signals_name_members (u_env setup0) ab_file /\ map f_status (of_test ab_run v3_test) = [OK; OK]
  /\ reordered good_file doog_file /\ plain_file good_file /\ distinct_names good_file /\ no_at_names good_file
  /\ validate setup0 (world_of good_file) (new_validator classes0) fn = (good_run, Ok tt) /\ validate setup0 (world_of doog_file) (new_validator classes0) fn = (doog_run, Ok tt)
  /\ one_signal good_run /\ catalogued_as good_run (py "/entry/Data@signal") (OVal (str "counts")) (py "/NXentry/NXdata@signal")
  /\ map f_addr (st_find (v_st good_run)) <> map f_addr (st_find (v_st doog_run)).
Proof.
  split; [eexists; eexists; split; [reflexivity|]; split; [vm_compute; repeat constructor; simpl; intuition discriminate|reflexivity]|]. split; [exact ab_signals|]. split; [vm_compute; reflexivity|].
  split; [exact good_doog|]. split; [apply good_plain|]. split; [apply good_plain|]. split; [apply good_plain|]. split; [exact good_ok|]. split; [exact doog_ok|]. split; [exact good_one|].
  split; [|vm_compute; discriminate].
  exists 10. eexists. split; [split; [vm_compute; reflexivity|exists signal_path, [10]; split; [apply dget_In; vm_compute; reflexivity|simpl; auto]]|]. split; [vm_compute; reflexivity|]. split; vm_compute; reflexivity.
Qed.
