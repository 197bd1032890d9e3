(** * Facts about the concrete runs of Samples.v *)

From Coq Require Import List NArith ZArith Bool String.
From Verif Require Import PyBase Findings Core Validate Samples.
Import ListNotations.

Definition root_ok : finding := mkF (Some (py "/")) (py "NeXus base class") OK (py "NXroot: known NeXus base class").
Definition root_todo : finding := mkF (Some (py "/")) (py "NeXus base class") TODO (py "NXroot: more validations needed").

Lemma In_find : forall (A : Type) (p : A -> bool) l x, find p l = Some x -> In x l.
Proof. intros. apply find_some in H. tauto. Qed.

Lemma md5_collision : snd (run good_file) = Ok tt /\ exists f g, In f (st_find (final good_file)) /\ In g (st_find (final good_file)) /\ f <> g
  /\ f_status f <> f_status g
  /\ forall D (digest : pystr -> D), make_md5 digest f = make_md5 digest g.
Proof.
  split; [vm_compute; reflexivity|]. exists root_ok, root_todo.
  split; [|split; [|split; [discriminate|split; [discriminate|reflexivity]]]].
  - apply (In_find _ (fun f => str_eqb (f_comment f) (py "NXroot: known NeXus base class"))). vm_compute. reflexivity.
  - apply (In_find _ (fun f => str_eqb (f_comment f) (py "NXroot: more validations needed"))). vm_compute. reflexivity.
Qed.
