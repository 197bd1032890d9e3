(** * Theorems about validators used for several files (C25-C27) *)

From Coq Require Import List NArith ZArith Bool String.
From Verif Require Import PyBase H5 Findings Nxdl Core Validate Handles Samples Spec_Run Spec_Catalog Spec_Groups Spec_History Spec_Handles
  SimFacts HistoryFacts HandleFacts HistoryEnd NameSamples GroupSamples.
Import ListNotations.
Local Open Scope nat_scope.

(** ** C25: earlier files *)

(** false: after a file with an entry, a file without one gets another finding *)
Theorem C25_refuted : exists u cl calls w fname v1 v2,
  validate u w (after u cl calls) fname = (v1, Ok tt) /\ validate u w (new_validator cl) fname = (v2, Ok tt)
  /\ In (mkF (Some (py "/")) (py "NeXus default plot") NOTE (py "no default plot described")) (st_find (v_st v1))
  /\ In (mkF (Some (py "/")) (py "NeXus default plot") ERROR (py "no default plot described")) (st_find (v_st v2))
  /\ st_find (v_st v1) <> st_find (v_st v2).
Proof.
  exists setup0, classes0, [CValidate (world_of good_file) fn], (world_of [grp [] []]), fn.
  eexists. eexists. split; [vm_compute; reflexivity|]. split; [vm_compute; reflexivity|].
  split; [vm_compute; tauto|]. split; [vm_compute; tauto|]. vm_compute. discriminate.
Qed.
Print Assumptions C25_refuted.

(** nothing else differs: same exception or none, same catalogues, same findings
    but for the status of that one *)
Theorem C25_partial : forall u cl calls w fname h v1 r1 v2 r2, dget fname w = Some (FHdf5 h) ->
  validate u w (after u cl calls) fname = (v1, r1) -> validate u w (new_validator cl) fname = (v2, r2) ->
  r1 = r2 /\ v_fname v1 = v_fname v2 /\ v_h5 v1 = v_h5 v2 /\ same_catalogues v1 v2 /\ same_but_plot (st_find (v_st v1)) (st_find (v_st v2)).
Proof. exact history_alike. Qed.
Print Assumptions C25_partial.

(** and with a catalogued group of class NXentry, nothing differs *)
Theorem C25_entry : forall u cl calls w fname v1,
  validate u w (after u cl calls) fname = (v1, Ok tt) ->
  (exists i it g, catalogued_group w v1 i it g /\ has_class (u_env u) w it g (py "NXentry")) ->
  exists v2, validate u w (new_validator cl) fname = (v2, Ok tt)
    /\ st_find (v_st v1) = st_find (v_st v2) /\ st_items (v_st v1) = st_items (v_st v2)
    /\ st_addr (v_st v1) = st_addr (v_st v2) /\ st_cp (v_st v1) = st_cp (v_st v2).
Proof. exact history_equal. Qed.
Print Assumptions C25_entry.

(** two other files, one of them no HDF5 file, and a close before [good_file] *)
Definition before_good : list call :=
  [CValidate (world_of unknown_file) fn; CValidate [(py "text", FOther)] (py "text"); CClose; CValidate (world_of [grp [] []]) fn].

Example C25_case : let v1 := fst (validate setup0 (world_of good_file) (after setup0 classes0 before_good) fn) in
  validate setup0 (world_of good_file) (after setup0 classes0 before_good) fn = (v1, Ok tt)
  /\ (exists i it g, catalogued_group (world_of good_file) v1 i it g /\ has_class (u_env setup0) (world_of good_file) it g (py "NXentry")).
Proof.
  split; [vm_compute; reflexivity|]. exists 3, (item_of good_file 3), (handle_of good_file 3).
  assert (E1 : st_addr (v_st (fst (validate setup0 (world_of good_file) (after setup0 classes0 before_good) fn))) = st_addr (v_st (done good_file))) by (vm_compute; reflexivity).
  assert (E2 : st_items (v_st (fst (validate setup0 (world_of good_file) (after setup0 classes0 before_good) fn))) = st_items (v_st (done good_file))) by (vm_compute; reflexivity).
  split; [unfold catalogued_group; rewrite E1, E2; apply catalogued_groupb_ok; vm_compute; reflexivity|].
  right. split; [vm_compute; discriminate|]. split; [vm_compute; discriminate|].
  exists (str "NXentry"), (py "entry"). split; [vm_compute; reflexivity|]. split; vm_compute; reflexivity.
Qed.

(** ** C26: failed calls *)

(** false: after validating one file and failing on another, the validator names the
    second and holds the findings of the first *)
Theorem C26_refuted : exists u cl calls w1 f1 w2 f2 v1 v2, f1 <> f2
  /\ validate u w1 (after u cl calls) f1 = (v1, Ok tt) /\ st_find (v_st v1) <> []
  /\ validate u w2 v1 f2 = (v2, Exn HDF5_Open_Error)
  /\ v_fname v2 = Some f2 /\ st_find (v_st v2) = st_find (v_st v1).
Proof.
  exists setup0, classes0, [], (world_of good_file), fn, [(py "text", FOther)], (py "text").
  eexists. eexists. split; [discriminate|]. split; [vm_compute; reflexivity|]. split; [vm_compute; discriminate|]. split; [vm_compute; reflexivity|]. split; vm_compute; reflexivity.
Qed.
Print Assumptions C26_refuted.

(** the findings are always those of the last HDF5 file that was opened (none before
    the first), and the file name is that file's if the calls since then failed for
    missing files only *)
Theorem C26_partial : forall u cl calls,
  (st_find (v_st (after u cl calls)) = [] /\ (forall c, In c calls -> ~ readable c))
  \/ exists c1 w f c2, calls = c1 ++ CValidate w f :: c2 /\ readable (CValidate w f) /\ (forall c, In c c2 -> ~ readable c)
       /\ v_st (after u cl calls) = v_st (after u cl (c1 ++ [CValidate w f]))
       /\ (Forall idle c2 -> v_fname (after u cl calls) = Some f).
Proof. exact findings_and_name. Qed.
Print Assumptions C26_partial.

(** a missing file: FileNotFound, and nothing at all changes *)
Theorem C26_missing : forall u w v fname, dget fname w = None -> validate u w v fname = (v, Exn FileNotFound).
Proof. exact missing_nothing. Qed.
Print Assumptions C26_missing.

Example C26_case : readable (CValidate (world_of good_file) fn) /\ Forall idle [CValidate [] fn; CClose; CValidate (world_of good_file) (py "other")]
  /\ ~ idle (CValidate [(py "text", FOther)] (py "text"))
  /\ v_fname (after setup0 classes0 [CValidate (world_of good_file) fn; CValidate [] fn; CClose]) = Some fn.
Proof.
  split; [simpl; eexists; vm_compute; reflexivity|]. split; [repeat constructor|]. split; [vm_compute; discriminate|]. vm_compute. reflexivity.
Qed.

(** ** C27: open files *)
Theorem C27_open : forall u cl calls o, left_open calls o ->
  match o with
  | Some f => exists id, p_open (p_after u cl calls) = [(id, f)] /\ p_h5 (p_after u cl calls) = Some id
  | None => p_open (p_after u cl calls) = [] /\ p_h5 (p_after u cl calls) = None
  end.
Proof. exact handle_state. Qed.
Print Assumptions C27_open.

Theorem C27_one : forall u cl calls, List.length (p_open (p_after u cl calls)) <= 1.
Proof. exact at_most_one. Qed.
Print Assumptions C27_one.

Theorem C27_close : forall u cl calls, p_open (p_close (p_after u cl calls)) = [] /\ p_close (p_close (p_after u cl calls)) = p_close (p_after u cl calls).
Proof. exact close_none. Qed.
Print Assumptions C27_close.

(** the model with explicit file objects and the one of the other theorems agree *)
Theorem C27_model : forall u cl calls,
  p_fname (p_after u cl calls) = v_fname (after u cl calls) /\ p_st (p_after u cl calls) = v_st (after u cl calls)
  /\ left_open calls (v_h5 (after u cl calls))
  /\ forall w f, snd (p_validate u w (p_after u cl calls) f) = snd (validate u w (after u cl calls) f).
Proof. exact handle_agrees. Qed.
Print Assumptions C27_model.

Example C27_case :
  left_open [CValidate (world_of good_file) fn; CClose; CValidate [(py "text", FOther)] (py "text"); CValidate (world_of unknown_file) fn; CValidate [] fn] (Some fn)
  /\ p_open (p_after setup0 classes0 [CValidate (world_of good_file) fn; CValidate (world_of unknown_file) fn; CValidate [] fn]) = [(1, fn)]
  /\ p_open (p_after setup0 classes0 [CValidate (world_of good_file) fn; CValidate [(py "text", FOther)] (py "text")]) = [].
Proof.
  split; [|split; vm_compute; reflexivity].
  change [CValidate (world_of good_file) fn; CClose; CValidate [(py "text", FOther)] (py "text"); CValidate (world_of unknown_file) fn; CValidate [] fn]
    with (([CValidate (world_of good_file) fn; CClose; CValidate [(py "text", FOther)] (py "text")] ++ [CValidate (world_of unknown_file) fn]) ++ [CValidate [] fn]).
  apply lo_missing; [reflexivity|]. eapply lo_open. vm_compute. reflexivity.
Qed.
