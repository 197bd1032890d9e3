(** * The validator: punx/validate.py:96-115 and 221-260 *)

From Coq Require Import List NArith ZArith Bool String.
From Verif Require Import PyBase Regex Utf8 H5 Findings Nxdl Core Catalog ItemName AttributeCheck
  GroupChecks AppDef DefaultPlot.
Import ListNotations.
Open Scope string_scope.
Open Scope list_scope.

(** step 1 (validate.py:241-244), on one item *)
Definition check_item (c : ctx) (i : nat) : M unit :=
  item_name_verify c i ;;; attribute_verify c i.

(** step 2 (validate.py:247-251), on one entry of addresses *)
Definition check_group (c : ctx) (i : nat) : M unit :=
  let* it := item i in
  if hobj_isgroup (c_world c) (it_obj it) || hobj_isfile (it_obj it)
  then validate_group c i else ret tt.

(** step 3 (validate.py:254-257), on one definition field *)
Definition check_definition (c : ctx) (i : nat) : M unit :=
  let* it := item i in
  match it_parent it with
  | Some pi => application_definition_verify c pi
  | None => raise AttributeError
  end.

(** punx/validate.py:240-244: all items, by class path *)
Definition step1 (c : ctx) : M unit :=
  let* s := get in for_each (check_item c) (List.concat (dvals (st_cp s))).
(** punx/validate.py:246-251: all addresses *)
Definition step2 (c : ctx) : M unit :=
  let* s := get in for_each (check_group c) (dvals (st_addr s)).
(** punx/validate.py:253-257: the definition fields *)
Definition step3 (c : ctx) : M unit :=
  let* s := get in
  for_each (check_definition c)
    (flat_map (fun k => match dget k (st_cp s) with Some l => l | None => [] end)
              [py "/NXentry/definition"; py "/NXentry/NXsubentry/definition"]).

(** validate.py:237-260, from build_address_catalog on *)
Definition validate_open (c : ctx) : M unit :=
  build_address_catalog c ;;;
  step1 c ;;; step2 c ;;; step3 c ;;;
  default_plot_verify c.

(** validate.py:101-107 __init_local__ *)
Definition fresh_state (cl : classes) : vstate := mkSt [] [] [] [] [] cl.

(** the file set a validator was created with, and the interpreter it runs in *)
Record setup := mkSetup {
  u_env : env;
  u_patterns : dict (list pystr);
  u_reclimit : nat;
  u_field_minOccurs : option Z
}.

(** what the methods read and do not change: the open file and the file set (punx/validate.py:96-99, 232) *)
Definition mk_ctx (u : setup) (w : world) (file : pystr) : ctx :=
  mkCtx (u_env u) w (open_root file) (u_patterns u) (u_reclimit u) (u_field_minOccurs u).

(** a Data_File_Validator: the open file [h5], [fname] (unset before the first
    validate()), and its findings and catalogues *)
Record validator := mkV {
  v_h5 : option pystr;
  v_fname : option pystr;
  v_st : vstate
}.

(** validate.py:96-99 __init__ *)
Definition new_validator (cl : classes) : validator := mkV None None (fresh_state cl).

(** validate.py:109-115 close *)
Definition close (v : validator) : validator := mkV None (v_fname v) (v_st v).

(** validate.py:221-260 validate *)
Definition validate (u : setup) (w : world) (v : validator) (fname : pystr) : validator * res unit :=
  match dget fname w with
  | None => (v, Exn FileNotFound)
  | Some FOther => (mkV None (Some fname) (v_st v), Exn HDF5_Open_Error)
  | Some (FHdf5 _) =>
      let '(s, r) := validate_open (mk_ctx u w fname) (fresh_state (st_classes (v_st v))) in
      (mkV (Some fname) (Some fname) s, r)
  end.
