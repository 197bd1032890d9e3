(** * Files that are the same but for the data in their fields

    [but_data o o']: two objects with the same attributes and, if they are groups, the
    same members; if they are fields, their data may differ, as long as a single value
    stays a single value and an array stays an array.

    [same_but_data w w']: every file of the two file systems is the same but for data.

    [read_by cl n]: the name of a field whose value a validation looks at:
    "definition", and the fields for which the definitions [cl] list the allowed values.

    [kept w w' n]: whatever is found under this name, in any group of any file, is
    the same in both. *)

From Coq Require Import List NArith String.
From Verif Require Import PyBase H5 Nxdl Core.
Import ListNotations.

Definition array (v : pyval) : Prop :=
  match v with VArrO _ | VArrS _ | VArrNum _ | VList _ => True | _ => False end.

Inductive but_data : h5obj -> h5obj -> Prop :=
| data_same : forall o, but_data o o
| data_other : forall d d' attributes, (array d <-> array d') ->
    but_data (mkObj (KDataset d) attributes) (mkObj (KDataset d') attributes).

Inductive file_but_data : option fstate -> option fstate -> Prop :=
| file_none : file_but_data None None
| file_other : file_but_data (Some FOther) (Some FOther)
| file_hdf5 : forall f f', Forall2 but_data f f' -> file_but_data (Some (FHdf5 f)) (Some (FHdf5 f')).

Definition same_but_data (w w' : world) : Prop := forall p, file_but_data (dget p w) (dget p w').

Inductive read_by (cl : classes) : pystr -> Prop :=
| read_definition : read_by cl (py "definition")
| read_listed : forall c d k g n spec, dget c cl = Some d -> In (k, g) (d_groups d) -> In (n, spec) (g_fields g) -> nf_enums spec <> [] ->
    read_by cl n.

Definition kept (w w' : world) (n : pystr) : Prop :=
  forall h o, getitem w h n = Ok o -> obj_of w o = obj_of w' o.
