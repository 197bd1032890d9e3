(** * Specification of validators that are used for several files *)

From Coq Require Import List NArith Bool String.
From Verif Require Import PyBase H5 Findings Nxdl Core Validate.
Import ListNotations.

(** the calls a user makes; the file system may differ from call to call *)
Inductive call := CValidate (w : world) (fname : pystr) | CClose.

Definition do_call (u : setup) (v : validator) (c : call) : validator :=
  match c with CValidate w fname => fst (validate u w v fname) | CClose => close v end.

(** a new validator of the NXDL classes [cl] after these calls, whatever exceptions they raised *)
Definition after (u : setup) (cl : classes) (calls : list call) : validator := fold_left (do_call u) calls (new_validator cl).

(** the same findings, but for the status of a last "no default plot" finding *)
Definition same_but_plot (a b : list finding) : Prop :=
  a = b \/ exists pre st1 st2,
    a = pre ++ [mkF (Some [47%N]) (py "NeXus default plot") st1 (py "no default plot described")]
    /\ b = pre ++ [mkF (Some [47%N]) (py "NeXus default plot") st2 (py "no default plot described")]
    /\ (st1 = NOTE \/ st1 = ERROR) /\ (st2 = NOTE \/ st2 = ERROR).

(** the same item, whatever findings it shows *)
Definition same_item (a b : vitem) : Prop := set_vals a [] = set_vals b [].

(** the same catalogues: what is where, in both *)
Definition same_catalogues (a b : validator) : Prop :=
  Forall2 same_item (st_items (v_st a)) (st_items (v_st b)) /\ st_addr (v_st a) = st_addr (v_st b) /\ st_cp (v_st a) = st_cp (v_st b).

(** ** Which file a history leaves *)
Definition readable (c : call) : Prop := match c with CValidate w f => exists h, dget f w = Some (FHdf5 h) | CClose => False end.
(** the call neither opens an HDF5 file nor names another existing file *)
Definition idle (c : call) : Prop := match c with CValidate w f => dget f w = None | CClose => True end.
(** the call names a file that exists and is no HDF5 file *)
Definition unreadable (c : call) (f : pystr) : Prop := match c with CValidate w g => g = f /\ dget g w = Some FOther | CClose => False end.
