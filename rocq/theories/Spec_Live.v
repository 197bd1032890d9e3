(** * Specification of processes that end *)

From Coq Require Import List.
Import ListNotations.

(** the first turns of an endless sequence of them *)
Definition first_turns {A} (turns : nat -> A) (k : nat) : list A := map turns (seq 0 k).
(** [x] has a turn again and again *)
Definition again_and_again {A} (turns : nat -> A) (x : A) : Prop := forall m, exists k, m <= k /\ turns k = x.
