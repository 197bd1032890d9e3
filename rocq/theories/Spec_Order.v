(** * Specification: the same file with its members and attributes listed in another order *)

From Coq Require Import List NArith Bool String Permutation.
From Verif Require Import PyBase H5 Findings Core Validate Spec_Run Spec_Catalog.
Import ListNotations.

(** the same object, but for the order of its members and of its attributes *)
Definition reordered_object (a b : h5obj) : Prop :=
  Permutation (ob_attrs a) (ob_attrs b)
  /\ match ob_kind a, ob_kind b with
     | KGroup l, KGroup m => Permutation l m
     | KDataset x, KDataset y => x = y
     | KDatatype, KDatatype => True
     | _, _ => False
     end.

Definition reordered (f f' : h5file) : Prop := Forall2 reordered_object f f'.

(** the findings of all tests but those for a default plot, which begin so *)
Definition other_findings (v : validator) : list finding :=
  filter (fun f => negb (startswith (f_test f) (py "NeXus default plot"))) (st_find (v_st v)).

(** what a validator says about the item at an address *)
Definition catalogued_as (v : validator) (a : pystr) (o : hobj) (cp : pystr) : Prop :=
  exists i it, listed v i it /\ it_addr it = Some a /\ it_obj it = o /\ it_cp it = cp.

(** the findings of all tests but the one for the default plot of the file, and the one for the @signal of an NXdata group *)
Definition settled_findings (v : validator) : list finding :=
  filter (fun f => negb (existsb (str_eqb (f_test f)) [py "NeXus default plot"; py "NeXus default plot v3, NXdata@signal"])) (st_find (v_st v)).

(** a finding without its comment *)
Definition but_comment (f : finding) : option pystr * pystr * status := (f_addr f, f_test f, f_status f).

(** at most one item of the file is a @signal *)
Definition one_signal (v : validator) : Prop :=
  forall a o cp a' o' cp', catalogued_as v a o cp -> catalogued_as v a' o' cp' ->
    (exists d, cp = d ++ py "@signal") -> (exists d, cp' = d ++ py "@signal") -> a = a'.
