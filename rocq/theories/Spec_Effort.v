(** * Specification of how much there is to do in a validation *)

From Coq Require Import List NArith Bool String.
From Verif Require Import PyBase H5 Findings Core Validate Spec_Run Spec_Catalog.
Import ListNotations.
Local Open Scope nat_scope.

(** how many items a validator has listed under its class paths *)
Definition items_listed (v : validator) : nat := List.length (List.concat (map snd (st_cp (v_st v)))).

(** an object and its attributes *)
Definition weight (f : h5file) (o : nat) : nat := S (List.length (attributes f o)).

(** every way to every object of a file, each once *)
Definition all_ways (f : h5file) (P : list (list pystr * nat)) : Prop :=
  NoDup P /\ forall p o, In (p, o) P <-> leads f 0 p o.

(** the objects and attributes of a file, each once *)
Definition file_size (f : h5file) : nat := list_sum (map (weight f) (seq 0 (List.length f))).

(** there is only one way to each object *)
Definition one_way (f : h5file) : Prop := forall p q o, leads f 0 p o -> leads f 0 q o -> p = q.

(** all links are hard, no two lead to the same object, and none to the root *)
Definition once_linked (f : h5file) : Prop :=
  (forall o n l, In (n, l) (members f o) -> exists t, l = LHard t /\ t <> 0) /\
  forall o n o' n' t, In (n, LHard t) (members f o) -> In (n', LHard t) (members f o') -> o = o' /\ n = n'.
