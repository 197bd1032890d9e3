(** * Specification of C144: the tree of a file whose members and attributes are listed in another order *)

From Coq Require Import List NArith Bool Permutation.
From Verif Require Import PyBase H5 H5Tree Spec_Tree Spec_Catalog Spec_Order.
Import ListNotations.

(** the same files, but for the order of the members of groups and of the attributes of
    objects; members of one group have different names, attributes of one object as well *)
Inductive reordered_content : fstate -> fstate -> Prop :=
| rc_hdf5 : forall f f', distinct_names f -> reordered f f' -> reordered_content (FHdf5 f) (FHdf5 f')
| rc_other : reordered_content FOther FOther.

Definition reordered_files (w w' : world) : Prop :=
  Forall2 (fun a b => fst a = fst b /\ reordered_content (snd a) (snd b)) w w'.

(** the same lines in the same order, but for the order of attribute lines that follow one
    another *)
Inductive same_but_attributes : list line -> list line -> Prop :=
| sb_end : same_but_attributes [] []
| sb_line : forall l a b, attribute_line l = false -> same_but_attributes a b -> same_but_attributes (l :: a) (l :: b)
| sb_attributes : forall x y a b, Forall (fun l => attribute_line l = true) x -> Permutation x y ->
    same_but_attributes a b -> same_but_attributes (x ++ a) (y ++ b).
