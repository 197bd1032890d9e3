(** * The classes a file names

    [part_of w p f]: the file [f] is [p] itself or is reached from [p] by external links.

    [names_class E w p n]: some object in the file [p], or in a file it is linked to, has
    an attribute NX_class that reads as the text [n], or some group of these files has a
    member "definition" whose value reads as [n].

    [same_definitions E w p cl cl']: two collections of NXDL classes hold the same
    definition, or none, of every class the file names, and of NXroot and NXentry. *)

From Coq Require Import List NArith String.
From Verif Require Import PyBase Utf8 H5 Findings Nxdl Core AppDef Validate Spec_Copy.
Import ListNotations.

Inductive part_of (w : world) (p : pystr) : pystr -> Prop :=
| part_self : part_of w p p
| part_linked : forall f, linked w p f -> part_of w p f.

Inductive names_class (E : env) (w : world) (p : pystr) : pystr -> Prop :=
| names_attribute : forall f objects o v n,
    part_of w p f -> dget f w = Some (FHdf5 objects) -> In o objects ->
    In (py "NX_class", v) (ob_attrs o) -> decode_byte_string E v = Ok (VStr n) ->
    names_class E w p n
| names_definition : forall g h v v0 d,
    part_of w p (h_file g) -> getitem w g (py "definition") = Ok h ->
    read_data w h = Ok v -> first_if_array v = Ok v0 -> decode_byte_string E v0 = Ok d ->
    names_class E w p (py_str d).

Definition same_definitions (E : env) (w : world) (p : pystr) (cl cl' : classes) : Prop :=
  forall n, names_class E w p n \/ n = py "NXroot" \/ n = py "NXentry" -> dget n cl = dget n cl'.

(** two validators hold the same open file, findings, items, addresses and class paths;
    only the NXDL classes they use differ *)
Definition same_but_classes (v v' : validator) : Prop :=
  v_h5 v = v_h5 v' /\ v_fname v = v_fname v'
  /\ st_find (v_st v) = st_find (v_st v') /\ st_items (v_st v) = st_items (v_st v')
  /\ st_addr (v_st v) = st_addr (v_st v') /\ st_cp (v_st v) = st_cp (v_st v').
