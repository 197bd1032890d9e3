(** * C40, C41: application definitions *)

From Coq Require Import List NArith ZArith Bool String Lia.
From Verif Require Import PyBase H5 Findings Nxdl Core Catalog AppDef Validate Samples CatalogSamples Spec_Run Spec_Catalog Spec_Attributes Spec_Plot Spec_AppDef AppFacts AppRun.
Import ListNotations.

(** ** Concrete cases *)
(** an entry that follows NXtest but has no title, and a subentry that names an unknown definition *)
Definition app_file : h5file :=
  [ grp [("entry"%string, 1)] [];
    grp [("definition"%string, 2); ("other"%string, 3)] [("NX_class"%string, str "NXentry")];
    ds (str "NXtest") [];
    grp [("definition"%string, 4)] [("NX_class"%string, str "NXsubentry")];
    ds (str "NXmystery") [] ].
Definition app_run : validator := fst (run app_file).

(** the definition is a class without groups *)
Definition no_groups_file : h5file :=
  [ grp [("entry"%string, 1)] [];
    grp [("definition"%string, 2)] [("NX_class"%string, str "NXentry")];
    ds (str "NXdata") [] ].

(** a definition whose entry has an enumerated field that the file lacks *)
Definition mode_classes : classes :=
  classes0 ++ [def0 "NXmode" "applications" [] [] [(py "entry", NXG (py "entry") [] [field0 "mode" ["single"%string; "multi"%string]] [] [] None)]].
Definition no_mode_file : h5file :=
  [ grp [("entry"%string, 1)] [];
    grp [("definition"%string, 2)] [("NX_class"%string, str "NXentry")];
    ds (str "NXmode") [] ].

Lemma app_ok : validate setup0 (world_of app_file) (new_validator classes0) fn = (app_run, Ok tt).
Proof. vm_compute. reflexivity. Qed.

(** C40: the findings about fields of application definitions are, for each
    definition field in the catalogue, one for each field of the (first group of
    the) definition: OK if the entry has it, ERROR if not *)
Theorem C40_fields : forall u w v fname v', validate u w v fname = (v', Ok tt) ->
  exists fss, Forall2 (fun i fs => exists entry, found_in v' i entry /\ fields_report (u_env u) w (st_classes (v_st v)) entry fs) (definition_items v') fss
    /\ of_test v' (py "NXDL field") = List.concat fss.
Proof. exact fields_run. Qed.
Print Assumptions C40_fields.

(** all that is recorded about application definitions *)
Theorem C40_report : forall u w v fname v', validate u w v fname = (v', Ok tt) ->
  exists fss, Forall2 (fun i fs => exists entry, found_in v' i entry /\ definition_report (u_env u) w (u_field_minOccurs u) (st_classes (v_st v)) entry fs) (definition_items v') fss
    /\ exists before after, st_find (v_st v') = before ++ List.concat fss ++ after
       /\ Forall (fun f => ~ In (f_test f) [definition_test; py "NXDL field"; py "NXDL field enumerations"]) (before ++ after).
Proof. exact definitions_run. Qed.
Print Assumptions C40_report.

(** what having a field means in files without external links *)
Theorem C40_exists : forall u w v fname v', validate u w v fname = (v', Ok tt) ->
  forall f, dget fname w = Some (FHdf5 f) -> plain_file f -> forall i it h field, listed v' i it -> it_obj it = ONode h -> field <> [] ->
  exists fh, getopt w h field = Ok fh /\ (fh <> None <-> leads_somewhere f (h_oid h) field).
Proof. exact field_exists. Qed.
Print Assumptions C40_exists.

Example C40_case :
  validate setup0 (world_of app_file) (new_validator classes0) fn = (app_run, Ok tt)
  /\ List.length (definition_items app_run) = 2
  /\ of_test app_run (py "NXDL field")
     = [mkF (Some (py "/entry@None")) (py "NXDL field") ERROR (py "NXtest:title not found");
        mkF (Some (py "/entry/definition")) (py "NXDL field") OK (py "NXtest:definition found")]
  /\ map f_status (of_test app_run (py "NXDL field enumerations")) = [OK]
  /\ map f_status (of_test app_run definition_test) = [OK; TODO].
Proof. split; [exact app_ok|]. split; [vm_compute; reflexivity|]. split; [vm_compute; reflexivity|]. split; vm_compute; reflexivity. Qed.

Example C40_exists_case : plain_file app_file /\ exists it h, listed app_run 1 it /\ it_obj it = ONode h /\ h_name h = py "/entry".
Proof.
  split; [apply plainb_ok; vm_compute; reflexivity|]. eexists. eexists. split; [split; [vm_compute; reflexivity|]|split; [reflexivity|reflexivity]].
  exists (py "/NXentry"). eexists. split; [vm_compute; auto 10|left; reflexivity].
Qed.

(** C41: the check does raise: a class without groups, and an enumerated field that is missing *)
Theorem C41_refuted :
  snd (validate setup0 (world_of no_groups_file) (new_validator classes0) fn) = Exn IndexError
  /\ snd (validate setup0 (world_of no_mode_file) (new_validator mode_classes) fn) = Exn TypeError.
Proof. split; vm_compute; reflexivity. Qed.
Print Assumptions C41_refuted.

(** ... exactly when it does not: the definition can be read and, if it is known,
    has a group whose fields can be looked up, the enumerated ones being in the file *)
Theorem C41_partial : forall c i s it, nth_error (st_items s) i = Some it ->
  (snd (application_definition_verify c i s) = Ok tt <-> checkable (c_env c) (c_world c) (st_classes s) it).
Proof. exact verify_completes. Qed.
Print Assumptions C41_partial.

Example C41_case : exists it, nth_error (st_items (final app_file)) 1 = Some it /\ checkable env0 (world_of app_file) classes0 it.
Proof.
  eexists. split; [vm_compute; reflexivity|]. apply (C41_partial (ctx_of app_file) 1 (mkSt (st_items (final app_file)) [] [] [] [] classes0)); vm_compute; reflexivity.
Qed.
