(** * Specification of the attribute checks *)

From Coq Require Import List NArith ZArith Bool String.
From Verif Require Import PyBase Regex H5 Findings Nxdl Core AttributeCheck Validate Spec_Number Spec_Names Spec_Run Spec_Catalog.
Import ListNotations.

(** a valid item name: strict, or accepted by a pattern of the schema *)
Definition valid_item_name (uw : N -> bool) (patterns : list pystr) (n : pystr) : Prop :=
  or_newline strict_name n \/ relaxed_name uw patterns n.

(** the text is the path of an object: following its components from [o] (from
    the root, if it starts with a slash) leads somewhere *)
Definition leads_somewhere (f : h5file) (o : nat) (text : pystr) : Prop :=
  text <> [] /\ exists b, leads f (if is_abs text then 0 else o) (path_comps text) b.

(** "/a/b/c" for a, b, c *)
Definition absolute (parts : list pystr) : pystr := List.concat (map (fun n => 47%N :: n) parts).

(** what a @target should be: an absolute path, of valid item names, each partial
    path of which exists in the file *)
Definition good_target (uw : N -> bool) (patterns : list pystr) (exists_in_file : pystr -> Prop) (t : pystr) : Prop :=
  exists parts, parts <> [] /\ t = absolute parts /\ Forall (fun n => ~ In 47%N n) parts /\ Forall (valid_item_name uw patterns) parts
    /\ forall a b, parts = a ++ b -> a <> [] -> exists_in_file (absolute a).

(** the comment that goes with a @target: what is wrong with the first bad part of it, if any is *)
Inductive target_comment (uw : N -> bool) (patterns : list pystr) (exists_in_file : pystr -> Prop) (t : pystr) : pystr -> Prop :=
| tc_relative : (forall r, t <> 47%N :: r) -> target_comment uw patterns exists_in_file t (py "value be must absolute HDF5 address, start with ""/""")
| tc_name : forall a p b, t = absolute (a ++ p :: b) -> Forall (fun n => ~ In 47%N n) (a ++ p :: b) ->
    Forall (valid_item_name uw patterns) a -> (forall x y, a = x ++ y -> x <> [] -> exists_in_file (absolute x)) ->
    ~ valid_item_name uw patterns p -> target_comment uw patterns exists_in_file t (py "value must match with a NeXus validItemName")
| tc_absent : forall a p b, t = absolute (a ++ p :: b) -> Forall (fun n => ~ In 47%N n) (a ++ p :: b) ->
    Forall (valid_item_name uw patterns) (a ++ [p]) -> (forall x y, a = x ++ y -> x <> [] -> exists_in_file (absolute x)) ->
    ~ exists_in_file (absolute (a ++ [p])) ->
    target_comment uw patterns exists_in_file t (py "partial HDF5 address not found in file: " ++ absolute (a ++ [p]))
| tc_found : good_target uw patterns exists_in_file t -> target_comment uw patterns exists_in_file t (py "found: @target=" ++ t).

(** the findings an attribute's value check records *)
Definition of_attribute_check (test : pystr) : bool :=
  str_eqb test (py "attribute value") || startswith test (py "valid name @") || startswith test (py "axes['").

Definition attribute_findings (v : validator) (a : option pystr) : list finding :=
  filter (fun f => ostr_eqb (f_addr f) a && of_attribute_check (f_test f)) (st_find (v_st v)).

(** one axis of @axes called [n]: a finding about its name, and one about its presence *)
Definition axis_findings (uw : N -> bool) (patterns : list pystr) (a : option pystr) (present : pystr -> Prop) (n : pystr) (fs : list finding) : Prop :=
  exists st1 cm1 st2 cm2,
    fs = [mkF a (py "valid name @axes['" ++ n ++ py "']") st1 cm1; mkF a (py "axes['" ++ n ++ py "'] exists") st2 cm2]
    /\ name_status uw patterns n st1 /\ name_comment uw patterns (py "not a valid NeXus name") n cm1
    /\ ((st2 = OK /\ present n /\ cm2 = py "found field for named axis") \/ (st2 = ERROR /\ ~ present n /\ cm2 = py "did not find field for named axis")).

(** ** Which attributes can be checked *)
(** the text, or texts, a decoded value gives *)
Definition names_in (o : pyval) : option (list pystr) :=
  match o with VStr n => Some [n] | VList l => Some l | VArrNum [] => Some [] | _ => None end.

(** str(value) consists of digits, but int(value) fails, as for the superscript "2" *)
Definition digits_not_int (E : env) (o : pyval) : Prop := digit_text E (py_str o) /\ forall z, ~ value_number E o z.

(** the regular expression can be compiled *)
Definition compiles (p : pystr) : Prop := exists uw Ls, alternatives uw p Ls.

(** the value check of an attribute of [owner] with this name and value works *)
Inductive checkable (E : env) (w : world) (owner : handle) (val : pyval) : pystr -> Prop :=
| ck_class : forall s, decode_byte_string E val = Ok (VStr s) -> checkable E w owner val (py "NX_class")
| ck_target : forall s, decode_byte_string E val = Ok (VStr s) -> checkable E w owner val (py "target")
| ck_signal_group : forall s, isHdf5Group w owner = true -> decode_byte_string E val = Ok (VStr s) -> checkable E w owner val (py "signal")
| ck_signal_field : forall o, isHdf5Dataset w owner = true -> decode_byte_string E val = Ok o -> ~ digits_not_int E o -> checkable E w owner val (py "signal")
| ck_signal_other : forall o, isHdf5Group w owner = false -> isHdf5Dataset w owner = false -> decode_byte_string E val = Ok o -> checkable E w owner val (py "signal")
| ck_axes : forall o l, decode_byte_string E val = Ok o -> names_in o = Some l ->
    (forall n, In n l -> is_group_obj w owner = true /\ (getitem w owner n = Exn KeyError \/ exists t, getitem w owner n = Ok t)) ->
    checkable E w owner val (py "axes")
| ck_generic : forall name, ~ In name [py "NX_class"; py "target"; py "signal"; py "axes"] -> checkable E w owner val name.

(** ** @NX_class, @signal of fields, other attributes *)
(** a definition that may be the class of a group: a base class, or a contributed
    definition without the entry/definition field of an application definition *)
Definition fit_for_groups (d : nxdef) : Prop :=
  d_category d = py "base_classes"
  \/ (d_category d = py "contributed_definitions"
      /\ ~ exists e, dget (py "entry") (d_groups d) = Some e /\ In (py "definition") (map fst (g_fields e))).

(** status and comment for an @NX_class with text [s] *)
Inductive class_verdict (cl : classes) (s : pystr) : status -> pystr -> Prop :=
| cv_unknown : dget s cl = None -> class_verdict cl s ERROR (py "not a recognized NXDL class: " ++ s)
| cv_fit : forall d, dget s cl = Some d -> fit_for_groups d -> class_verdict cl s OK (py "recognized NXDL base class: " ++ s)
| cv_unfit : forall d, dget s cl = Some d -> ~ fit_for_groups d -> class_verdict cl s ERROR (py "incorrect use of @NX_class attribute: " ++ s).

(** the value marks plottable data: written with digits, it is the number 1 *)
Definition is_one (E : env) (o : pyval) : Prop := digit_text E (py_str o) /\ value_number E o 1%Z.

(** the attribute has no check of its own: its name is none of the four, or it is
    @signal of neither a field nor a group below the root *)
Definition unchecked (w : world) (owner : handle) (name : pystr) : Prop :=
  ~ In name [py "NX_class"; py "target"; py "signal"; py "axes"]
  \/ (name = py "signal" /\ isHdf5Group w owner = false /\ isHdf5Dataset w owner = false).
