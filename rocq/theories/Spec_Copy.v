(** * What a file consists of, for whoever reads it

    [linked w p f]: some group of the file [p], or of a file that is linked from it,
    holds an external link to the file [f].

    [same_content w p w' p']: the file [p] of one file system and the file [p'] of
    another hold the same (the same objects, or no HDF5, or nothing at all), and so do
    the files they are linked to. *)

From Coq Require Import List NArith.
From Verif Require Import PyBase H5 Findings Core Validate.
Import ListNotations.

Inductive linked (w : world) (p : pystr) : pystr -> Prop :=
| linked_direct : forall objects o links name f path,
    dget p w = Some (FHdf5 objects) -> In o objects -> ob_kind o = KGroup links -> In (name, LExt f path) links ->
    linked w p f
| linked_step : forall f g, linked w p f -> linked w f g -> linked w p g.

Definition same_content (w : world) (p : pystr) (w' : world) (p' : pystr) : Prop :=
  dget p w = dget p' w' /\ forall f, linked w p f -> dget f w = dget f w'.

(** the findings, the addresses and the class paths of two validators, and what they
    say of each item, are the same; only the open file differs *)
Definition same_results (v v' : validator) : Prop :=
  st_find (v_st v) = st_find (v_st v')
  /\ st_addr (v_st v) = st_addr (v_st v') /\ st_cp (v_st v) = st_cp (v_st v') /\ st_classes (v_st v) = st_classes (v_st v')
  /\ map it_name (st_items (v_st v)) = map it_name (st_items (v_st v'))
  /\ map it_addr (st_items (v_st v)) = map it_addr (st_items (v_st v'))
  /\ map it_cp (st_items (v_st v)) = map it_cp (st_items (v_st v'))
  /\ map it_parent (st_items (v_st v)) = map it_parent (st_items (v_st v'))
  /\ map it_vals (st_items (v_st v)) = map it_vals (st_items (v_st v')).
