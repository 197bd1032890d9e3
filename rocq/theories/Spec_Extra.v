(** * Files that are the same but for the values of attributes that no check looks at

    [read_anyway n]: an attribute whose value a validation reads wherever it is found:
    NX_class, target, signal, axes, default, and oddly named attributes, with an at sign
    in the name, that end like NX_class or signal.

    [declared cl n]: some definition in [cl] lists an attribute of this name for its groups.

    [extra cl k n]: the attribute [n] of an object of kind [k] is none of these; what the
    definitions declare matters for groups only.

    [same_but_extra E cl w w']: every file of the two file systems has the same objects,
    members, data and attributes; only the values of extra attributes may differ, and
    both values can be read with the encoding of [E]. *)

From Coq Require Import List NArith String.
From Verif Require Import PyBase H5 Nxdl Core.
Import ListNotations.

Inductive read_anyway : pystr -> Prop :=
| reads_nx_class : read_anyway (py "NX_class")
| reads_target : read_anyway (py "target")
| reads_signal : read_anyway (py "signal")
| reads_axes : read_anyway (py "axes")
| reads_default : read_anyway (py "default")
| reads_like_class : forall a, read_anyway (a ++ py "@NX_class")
| reads_like_signal : forall a, read_anyway (a ++ py "@signal").

Definition declared (cl : classes) (n : pystr) : Prop :=
  exists c d spec, In (c, d) cl /\ In (n, spec) (d_attrs d).

Definition extra (cl : classes) (k : h5kind) (n : pystr) : Prop :=
  ~ read_anyway n /\ match k with KDataset _ => True | _ => ~ declared cl n end.

Definition readable (E : env) (v : pyval) : Prop := exists x, decode_byte_string E v = Ok x.

Inductive attribute_but_extra (E : env) (cl : classes) (k : h5kind) : pystr * pyval -> pystr * pyval -> Prop :=
| attribute_same : forall n v, attribute_but_extra E cl k (n, v) (n, v)
| attribute_extra : forall n v v', extra cl k n -> readable E v -> readable E v' -> attribute_but_extra E cl k (n, v) (n, v').

Inductive object_but_extra (E : env) (cl : classes) : h5obj -> h5obj -> Prop :=
| object_extra : forall k attributes attributes', Forall2 (attribute_but_extra E cl k) attributes attributes' ->
    object_but_extra E cl (mkObj k attributes) (mkObj k attributes').

Inductive file_but_extra (E : env) (cl : classes) : option fstate -> option fstate -> Prop :=
| nofile_extra : file_but_extra E cl None None
| other_extra : file_but_extra E cl (Some FOther) (Some FOther)
| hdf5_extra : forall f f', Forall2 (object_but_extra E cl) f f' -> file_but_extra E cl (Some (FHdf5 f)) (Some (FHdf5 f')).

Definition same_but_extra (E : env) (cl : classes) (w w' : world) : Prop := forall p, file_but_extra E cl (dget p w) (dget p w').

(** the object number 0 of an HDF5 file is its root group *)
Definition root_group (w : world) (p : pystr) : Prop :=
  forall f, dget p w = Some (FHdf5 f) -> exists links attributes rest, f = mkObj (KGroup links) attributes :: rest.
