(** * Which loaded field stands for which element of an NXDL file (C107) *)

From Coq Require Import List NArith ZArith Bool String.
From Verif Require Import PyBase Nxdl NxdlLoad Spec_Nxdl.
Import ListNotations.

(** the group [g] of the class [d] stands for the element [n] of its NXDL file [root]: they have the same
    place among the groups of the class, or of a group that stands for an element *)
Inductive group_at (root : xnode) (d : nxdef) : xnode -> nxgroup -> Prop :=
| ga_top : forall i n name g, nth_error (elements (py "group") root) i = Some n -> nth_error (d_groups d) i = Some (name, g) -> group_at root d n g
| ga_sub : forall n g i n' name g', group_at root d n g -> nth_error (elements (py "group") n) i = Some n' -> nth_error (g_groups g) i = Some (name, g') ->
    group_at root d n' g'.

(** the same for fields *)
Inductive field_at (root : xnode) (d : nxdef) : xnode -> nxfield -> Prop :=
| fa_top : forall i n name f, nth_error (elements (py "field") root) i = Some n -> nth_error (d_fields d) i = Some (name, f) -> field_at root d n f
| fa_sub : forall n g i n' name f, group_at root d n g -> nth_error (elements (py "field") n) i = Some n' -> nth_error (g_fields g) i = Some (name, f) ->
    field_at root d n' f.

(** a group element, or a field element, at any depth of the file *)
Inductive group_below (root : xnode) : xnode -> Prop :=
| gb_here : forall n, In n (elements (py "group") root) -> group_below root n
| gb_below : forall n n', group_below root n -> In n' (elements (py "group") n) -> group_below root n'.
Definition field_below (root n : xnode) : Prop :=
  In n (elements (py "field") root) \/ exists g, group_below root g /\ In n (elements (py "field") g).
