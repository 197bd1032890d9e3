(** * Theorems about how findings are kept (C16-C18) *)

From Coq Require Import List NArith ZArith Bool String Lia.
From Verif Require Import PyBase H5 Findings Nxdl Core Catalog GroupChecks Validate Samples Spec_Run Spec_Moments
  RunFacts MomentFacts StepOne NameSamples CatalogSamples FindingSamples.
Import ListNotations.
Local Open Scope nat_scope.

(** ** C16: findings are only appended *)
Theorem C16_moments : forall u w v fname v' r f, dget fname w = Some (FHdf5 f) -> validate u w v fname = (v', r) ->
  forall s, moment unit (validate_open (mk_ctx u w fname)) (fresh_state (st_classes (v_st v))) s -> prefix (st_find s) (st_find (v_st v')).
Proof. exact validate_moments. Qed.
Print Assumptions C16_moments.

(** between any two moments as well *)
Theorem C16_between : forall A m s s', moment A m s s' ->
  prefix (st_find s) (st_find s') /\ prefix (st_find s') (st_find (fst (m s))).
Proof. exact moment_prefix. Qed.
Print Assumptions C16_between.

(** every step of the validator is such an operation *)
Theorem C16_built : forall c, built unit (validate_open c).
Proof. exact validate_built. Qed.
Print Assumptions C16_built.

(** the moment after step 1 of a run that fails in step 2: findings present, and kept *)
Example C16_case : exists s, moment unit (validate_open (ctx_of slash_file)) (fresh_state classes0) s /\ st_find s <> []
  /\ snd (run slash_file) = Exn AttributeError /\ List.length (st_find s) < List.length (st_find (v_st (fst (run slash_file)))).
Proof.
  eexists. split; [eapply after_step1; vm_compute; reflexivity|].
  split; [vm_compute; discriminate|split; [vm_compute; reflexivity|apply Nat.ltb_lt; vm_compute; reflexivity]].
Qed.

(** ** C17: an item shows the last finding of each test *)
(** there is a history of the run, naming the item of each finding, of which every item shows the last entries *)
Theorem C17_history : forall u w v fname v' r f, dget fname w = Some (FHdf5 f) -> validate u w v fname = (v', r) ->
  exists h : history, map snd h = st_find (v_st v')
    /\ (forall i g, In (i, g) h -> exists it, nth_error (st_items (v_st v')) i = Some it /\ f_addr g = it_addr it)
    /\ forall i it, nth_error (st_items (v_st v')) i = Some it -> forall t, dget t (it_vals it) = last_for h i t.
Proof. exact run_history. Qed.
Print Assumptions C17_history.

Theorem C17_validations : forall u w v fname v' r f, dget fname w = Some (FHdf5 f) -> validate u w v fname = (v', r) ->
  forall i it t g, nth_error (st_items (v_st v')) i = Some it -> dget t (it_vals it) = Some g ->
  f_test g = t /\ f_addr g = it_addr it /\ In g (st_find (v_st v')).
Proof. exact validations_of_run. Qed.
Print Assumptions C17_validations.

Theorem C17_by_address : forall u w v fname v' r f, dget fname w = Some (FHdf5 f) -> validate u w v fname = (v', r) ->
  forall i it, nth_error (st_items (v_st v')) i = Some it ->
  (forall j jt, nth_error (st_items (v_st v')) j = Some jt -> it_addr jt = it_addr it -> j = i) ->
  forall t, dget t (it_vals it) = last_at (st_find (v_st v')) (it_addr it) t.
Proof. exact validations_by_address. Qed.
Print Assumptions C17_by_address.

(** /entry has two findings "NeXus base class" and shows the second *)
Example C17_case : nth_error (st_items (final good_file)) 3 = Some (item_of good_file 3)
  /\ (forall j jt, nth_error (st_items (final good_file)) j = Some jt -> it_addr jt = it_addr (item_of good_file 3) -> j = 3)
  /\ map f_status (findings_for (done good_file) (it_addr (item_of good_file 3)) (py "NeXus base class")) = [OK; TODO]
  /\ option_map f_status (dget (py "NeXus base class") (it_vals (item_of good_file 3))) = Some TODO.
Proof.
  split; [vm_compute; reflexivity|]. split; [apply own_index_ok; vm_compute; reflexivity|]. split; vm_compute; reflexivity.
Qed.

(** ** C18: false; the ERROR for a definition naming a base class is hidden by a TODO *)
Theorem C18_refuted : exists f v' i it g, validate setup0 (world_of f) (new_validator classes0) fn = (v', Ok tt) /\ listed v' i it /\ own_address v' i
  /\ In g (st_find (v_st v')) /\ f_addr g = it_addr it /\ f_status g = ERROR
  /\ forall t g', dget t (it_vals it) = Some g' -> f_status g' <> ERROR.
Proof.
  exists basedef_file, (done basedef_file), 1, (item_of basedef_file 1).
  exists (mkF (Some (py "/entry")) (py "NeXus application definition") ERROR (py "NXentry: unknown application definition")).
  split; [vm_compute; reflexivity|]. split; [apply item_listed; vm_compute; reflexivity|]. split; [apply own_ok; vm_compute; reflexivity|].
  split; [apply finding_in; vm_compute; reflexivity|]. split; [vm_compute; reflexivity|]. split; [reflexivity|].
  apply no_error_ok. vm_compute. reflexivity.
Qed.
Print Assumptions C18_refuted.

(** the findings about names and attribute values are never hidden *)
Theorem C18_partial : forall u w v fname v', validate u w v fname = (v', Ok tt) ->
  forall i it f, listed v' i it -> own_address v' i -> In f (st_find (v_st v')) -> f_addr f = it_addr it ->
  f_test f = py "validItemName" \/ f_test f = py "attribute value" -> dget (f_test f) (it_vals it) = Some f.
Proof. exact error_visible. Qed.
Print Assumptions C18_partial.

(** an ERROR for the attribute x@2bad *)
Example C18_case : listed (done good_file) 14 (item_of good_file 14) /\ own_address (done good_file) 14
  /\ exists f, In f (st_find (final good_file)) /\ f_addr f = it_addr (item_of good_file 14) /\ f_test f = py "validItemName" /\ f_status f = ERROR.
Proof.
  split; [apply item_listed; vm_compute; reflexivity|]. split; [apply own_ok; vm_compute; reflexivity|].
  exists (mkF (Some (py "/entry/Data/x@2bad")) (py "validItemName") ERROR (py "no matching pattern found")).
  split; [apply finding_in; vm_compute; reflexivity|]. split; [vm_compute; reflexivity|]. split; reflexivity.
Qed.
