(** * Specification of C145: what the tree view without attributes depends on *)

From Coq Require Import List NArith Bool String Permutation.
From Verif Require Import PyBase H5.
Import ListNotations.

(** two objects of the same kind with the same members, in any order, the same NX_class and
    the same target; the other attributes and the value of a dataset may differ *)
Definition same_bones (a b : h5obj) : Prop :=
  dget (py "NX_class") (ob_attrs a) = dget (py "NX_class") (ob_attrs b)
  /\ dget (py "target") (ob_attrs a) = dget (py "target") (ob_attrs b)
  /\ match ob_kind a, ob_kind b with
     | KGroup l, KGroup m => NoDup (map fst l) /\ Permutation l m
     | KDataset _, KDataset _ => True
     | KDatatype, KDatatype => True
     | _, _ => False
     end.

(** files made of such objects *)
Inductive same_frame : fstate -> fstate -> Prop :=
| sf_hdf5 : forall f f', Forall2 same_bones f f' -> same_frame (FHdf5 f) (FHdf5 f')
| sf_other : same_frame FOther FOther.

Definition same_skeletons (w w' : world) : Prop :=
  Forall2 (fun a b => fst a = fst b /\ same_frame (snd a) (snd b)) w w'.
