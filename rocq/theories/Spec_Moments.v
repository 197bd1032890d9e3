(** * Moments of a run

    Specification.  A run of the validator is put together, with [bind], from the
    operations below; the moments of a run are the states before and after each of
    them, up to the point where an exception ends it. *)

From Coq Require Import List NArith ZArith Bool String.
From Verif Require Import PyBase Regex H5 Findings Nxdl Core Catalog ItemName GroupChecks DefaultPlot Validate.
Import ListNotations.

Inductive operation : forall A, M A -> Prop :=
| op_ret : forall A (a : A), operation A (ret a)
| op_raise : forall A e, operation A (raise e)
| op_lift : forall A r, operation A (lift r)
| op_get : operation vstate get
| op_item : forall i, operation vitem (item i)
| op_address : forall a, operation nat (address_item a)
| op_classpath : forall k, operation (list nat) (classpath_list k)
| op_last : forall k, operation nat (last_of_classpath k)
| op_new : forall it, operation nat (new_item it)
| op_add_address : forall a i, operation unit (add_address a i)
| op_add_classpath : forall i k, operation unit (add_classpath i k)
| op_regexp : forall k p, operation compiled (cached_regexp k p)
| op_minOccurs : forall t n z, operation unit (store_minOccurs t n z)
| op_record : forall i k st cm, operation unit (record_finding i k st cm).

Inductive built : forall A, M A -> Prop :=
| bu_op : forall A m, operation A m -> built A m
| bu_bind : forall A B (m : M A) (f : A -> M B), built A m -> (forall a, built B (f a)) -> built B (bind m f).

Inductive moment : forall A, M A -> vstate -> vstate -> Prop :=
| mo_before : forall A m s, built A m -> moment A m s s
| mo_after : forall A m s, built A m -> moment A m s (fst (m s))
| mo_first : forall A B (m : M A) (f : A -> M B) s s', built A m -> (forall a, built B (f a)) ->
    moment A m s s' -> moment B (bind m f) s s'
| mo_then : forall A B (m : M A) (f : A -> M B) s s1 a s', built A m -> (forall a, built B (f a)) ->
    m s = (s1, Ok a) -> moment B (f a) s1 s' -> moment B (bind m f) s s'.

Definition prefix {A} (a b : list A) : Prop := exists c, b = a ++ c.

(** ** Histories *)
(** the findings of a run in order, each with the number of the item it was
    recorded for *)
Definition history := list (nat * finding).

Definition last_for (h : history) (i : nat) (test : pystr) : option finding :=
  match rev (filter (fun e => Nat.eqb (fst e) i && str_eqb (f_test (snd e)) test) h) with
  | e :: _ => Some (snd e)
  | [] => None
  end.

Definition last_at (l : list finding) (a : option pystr) (test : pystr) : option finding :=
  match rev (filter (fun f => ostr_eqb (f_addr f) a && str_eqb (f_test f) test) l) with
  | f :: _ => Some f
  | [] => None
  end.
