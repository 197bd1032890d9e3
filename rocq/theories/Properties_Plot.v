(** * C36 - C39: the default plot *)

From Coq Require Import List NArith ZArith Bool String.
From Verif Require Import PyBase H5 Findings Nxdl Core Validate Samples Spec_Run Spec_Catalog Spec_Plot PlotLink PlotSamples.
Import ListNotations.

(** C36: when validate() returns there is exactly one verdict, on the root *)
Theorem C36_one : forall u w v fname v', validate u w v fname = (v', Ok tt) ->
  exists f, of_test v' (py "NeXus default plot") = [f] /\ f_addr f = Some (py "/")
    /\ (f_status f = OK \/ f_status f = NOTE \/ f_status f = ERROR)
    /\ (f_status f = OK <-> v3_found (u_env u) w v' \/ v2_found w v')
    /\ (f_status f = ERROR <-> ~ v3_found (u_env u) w v' /\ ~ v2_found w v' /\ needs_data (st_classes (v_st v'))).
Proof. exact verdict_one. Qed.
Print Assumptions C36_one.

(** ... and what it says *)
Theorem C36_verdict : forall u w v fname v', validate u w v fname = (v', Ok tt) ->
  exists f, of_test v' (py "NeXus default plot") = [f] /\ plot_verdict (u_env u) w v' f.
Proof. exact verdict_final. Qed.
Print Assumptions C36_verdict.

Example C36_case :
  validate setup0 (world_of good_file) (new_validator classes0) fn = (good_run, Ok tt)
  /\ of_test good_run verdict_test = [mkF (Some (py "/")) verdict_test OK (py "found by v3: /entry/Data@signal")]
  /\ validate setup0 (world_of v2_file) (new_validator classes0) fn = (v2_run, Ok tt)
  /\ of_test v2_run verdict_test = [mkF (Some (py "/")) verdict_test OK (py "found by v2: /entry/c/last")]
  /\ validate setup0 (world_of no_plot_file) (new_validator classes0) fn = (no_plot_run, Ok tt)
  /\ of_test no_plot_run verdict_test = [mkF (Some (py "/")) verdict_test NOTE (py "no default plot described")].
Proof.
  split; [exact good_ok|]. split; [vm_compute; reflexivity|]. split; [exact v2_ok|]. split; [vm_compute; reflexivity|].
  split; [exact no_plot_ok|]. vm_compute. reflexivity.
Qed.

(** C37: an address found by v3 is that of a dataset named by @signal, or of the
    @signal itself if it alone is reached by @default *)
Theorem C37_dataset : forall u w v fname v', validate u w v fname = (v', Ok tt) ->
  forall f a, of_test v' (py "NeXus default plot") = [f] -> f_comment f = py "found by v3: " ++ a ->
  exists i it t, listed_at v' (py "/NXentry/NXdata@signal") i it /\ signal_plots (u_env u) w v' it t
    /\ (a = t \/ only_chain_plot (u_env u) w v' i it /\ it_addr it = Some a).
Proof. exact v3_comment_signal. Qed.
Print Assumptions C37_dataset.

(** ... more exactly *)
Theorem C37_address : forall u w v fname v', validate u w v fname = (v', Ok tt) ->
  forall f a, of_test v' (py "NeXus default plot") = [f] -> f_comment f = py "found by v3: " ++ a ->
  v3_found (u_env u) w v' /\ v3_address (u_env u) w v' a.
Proof. exact v3_comment. Qed.
Print Assumptions C37_address.

(** the findings about each @signal of an NXdata group *)
Theorem C37_findings : forall u w v fname v', validate u w v fname = (v', Ok tt) ->
  (forall l, In (py "/NXentry/NXdata@signal", l) (st_cp (v_st v')) -> v3_report (u_env u) w v' l (of_test v' v3_test))
  /\ (~ In (py "/NXentry/NXdata@signal") (map fst (st_cp (v_st v'))) -> of_test v' v3_test = []).
Proof. exact v3_findings. Qed.
Print Assumptions C37_findings.

(** ... and about the plot that @default leads to *)
Theorem C37_default : forall u w v fname v', validate u w v fname = (v', Ok tt) ->
  niac_report (u_env u) w v' (of_test v' (py "NeXus default plot v3 NIAC2014")).
Proof. exact niac_findings. Qed.
Print Assumptions C37_default.

Example C37_case :
  validate setup0 (world_of good_file) (new_validator classes0) fn = (good_run, Ok tt)
  /\ of_test good_run verdict_test = [mkF (Some (py "/")) verdict_test OK (py "found by v3: " ++ py "/entry/Data@signal")]
  /\ In (py "/NXentry/NXdata@signal") (map fst (st_cp (v_st good_run)))
  /\ map f_status (of_test good_run v3_test) = [OK] /\ map f_addr (of_test good_run v3_test) = [Some (py "/entry/Data@signal")]
  /\ of_test good_run niac_test = [mkF (Some (py "/entry/Data@signal")) niac_test OK (py "default plot setup in /NXentry/NXdata")].
Proof.
  split; [exact good_ok|]. split; [vm_compute; reflexivity|]. split; [vm_compute; auto 20|]. split; [vm_compute; reflexivity|]. split; vm_compute; reflexivity.
Qed.

(** C38: a good group does not suffice: another group with a bad @signal hides it *)
Theorem C38_refuted : exists u w v fname v' f e d s fd, validate u w v fname = (v', Ok tt)
  /\ dget fname w = Some (FHdf5 f) /\ plain_file f /\ distinct_names f /\ no_at_names f
  /\ plottable (u_env u) f e d s /\ of_test v' (py "NeXus default plot") = [fd] /\ f_status fd = NOTE.
Proof.
  exists setup0, (world_of two_file), (new_validator classes0), fn, two_run, two_file, (py "entry"), (py "b"), (py "counts"),
    (mkF (Some (py "/")) verdict_test NOTE (py "no default plot described")).
  split; [exact two_ok|]. split; [reflexivity|]. split; [apply two_plain|]. split; [apply two_plain|]. split; [apply two_plain|].
  split; [exact two_plottable|]. split; [vm_compute; reflexivity|reflexivity].
Qed.
Print Assumptions C38_refuted.

(** ... but if every @signal of an NXdata group names a member of its group, then one naming a dataset suffices *)
Theorem C38_partial : forall u w v fname v', validate u w v fname = (v', Ok tt) ->
  forall f e d s, dget fname w = Some (FHdf5 f) -> plain_file f -> distinct_names f -> no_at_names f ->
  plottable (u_env u) f e d s -> signals_name_members (u_env u) f ->
  exists fd a, of_test v' (py "NeXus default plot") = [fd] /\ f_status fd = OK /\ f_comment fd = py "found by v3: " ++ a.
Proof. exact plottable_ok. Qed.
Print Assumptions C38_partial.

Example C38_case :
  validate setup0 (world_of good_file) (new_validator classes0) fn = (good_run, Ok tt)
  /\ dget fn (world_of good_file) = Some (FHdf5 good_file) /\ plain_file good_file /\ distinct_names good_file /\ no_at_names good_file
  /\ plottable env0 good_file (py "entry") (py "Data") (py "counts") /\ signals_name_members env0 good_file.
Proof.
  split; [exact good_ok|]. split; [reflexivity|]. split; [apply good_plain|]. split; [apply good_plain|]. split; [apply good_plain|].
  split; [exact good_plottable|exact good_signals].
Qed.

(** C39: an address found by v2 is that of a field with @signal=1, the only one in its group *)
Theorem C39_address : forall u w v fname v', validate u w v fname = (v', Ok tt) ->
  forall f a, of_test v' (py "NeXus default plot") = [f] -> f_comment f = py "found by v2: " ++ a ->
  ~ v3_found (u_env u) w v' /\ v2_address w v' a.
Proof. exact v2_comment. Qed.
Print Assumptions C39_address.

(** ... and such an address is found exactly when there is one, if v3 finds nothing *)
Theorem C39_found : forall u w v fname v', validate u w v fname = (v', Ok tt) ->
  forall f, of_test v' (py "NeXus default plot") = [f] -> ~ v3_found (u_env u) w v' ->
  ((exists a, f_status f = OK /\ f_comment f = py "found by v2: " ++ a /\ v2_address w v' a)
    <-> exists i it pit gp, only_signal_field w v' i it pit gp)
  /\ (f_status f = OK <-> exists i it pit gp, only_signal_field w v' i it pit gp).
Proof. exact v2_iff. Qed.
Print Assumptions C39_found.

(** ... the findings: each @signal, each only field, each group with several *)
Theorem C39_findings : forall u w v fname v', validate u w v fname = (v', Ok tt) -> ~ v3_found (u_env u) w v' ->
  (exists gss, Forall2 (v2_item_report w v') (all_items v') gss /\ of_tests v' [signal_1_test; signal_not_1_test] = List.concat gss)
  /\ (exists gss, Forall2 (v2_plot_report w v') (all_items v') gss /\ of_test v' v2_test = List.concat gss)
  /\ Forall several_finding (of_test v' several_test) /\ NoDup (map f_addr (of_test v' several_test))
  /\ forall a, In a (map f_addr (of_test v' several_test)) <-> several_signal_fields w v' a.
Proof. exact v2_findings. Qed.
Print Assumptions C39_findings.

(** ... and none if v3 finds a plot *)
Theorem C39_none : forall u w v fname v', validate u w v fname = (v', Ok tt) -> v3_found (u_env u) w v' ->
  of_tests v' [signal_1_test; signal_not_1_test; v2_test; several_test] = [].
Proof. exact v2_findings_none. Qed.
Print Assumptions C39_none.

Example C39_case :
  validate setup0 (world_of v2_file) (new_validator classes0) fn = (v2_run, Ok tt)
  /\ of_test v2_run verdict_test = [mkF (Some (py "/")) verdict_test OK (py "found by v2: " ++ py "/entry/c/last")]
  /\ ~ v3_found env0 (world_of v2_file) v2_run
  /\ map f_addr (of_test v2_run several_test) = [Some (py "/entry/a")]
  /\ map f_addr (of_test v2_run v2_test) = [Some (py "/entry/b/counts@signal"); Some (py "/entry/c/last@signal")]
  /\ map f_status (of_tests v2_run [signal_1_test; signal_not_1_test]) = [OK; OK; OK; WARN; OK].
Proof.
  assert (X : of_test v2_run verdict_test = [mkF (Some (py "/")) verdict_test OK (py "found by v2: " ++ py "/entry/c/last")]) by (vm_compute; reflexivity).
  split; [exact v2_ok|]. split; [exact X|]. split; [exact (proj1 (C39_address _ _ _ _ _ v2_ok _ _ X eq_refl))|].
  split; [vm_compute; reflexivity|]. split; vm_compute; reflexivity.
Qed.

Example C39_none_case : validate setup0 (world_of good_file) (new_validator classes0) fn = (good_run, Ok tt) /\ v3_found env0 (world_of good_file) good_run.
Proof.
  split; [exact good_ok|]. destruct good_plain as [G1 [G2 G3]].
  exact (plottable_v3 _ _ _ _ _ _ good_ok eq_refl G1 G2 G3 _ _ _ good_plottable good_signals).
Qed.
