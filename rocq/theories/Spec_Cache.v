(** * Vocabulary for the transparency of the pattern cache *)

From Coq Require Import List NArith Bool String.
From Verif Require Import PyBase H5 Findings Nxdl Core Catalog ItemName AttributeCheck GroupChecks AppDef DefaultPlot Validate.
Import ListNotations.

(** everything a validator may have done before *)
Inductive history (c : ctx) : vstate -> Prop :=
| hi_start : forall cl, history c (fresh_state cl)
| hi_build : forall cl, history c (fst (build_address_catalog c (fresh_state cl)))
| hi_name : forall s o, history c s -> history c (fst (validItemName_match_key c o s))
| hi_item : forall s i, history c s -> history c (fst (check_item c i s))
| hi_group : forall s i, history c s -> history c (fst (check_group c i s))
| hi_definition : forall s i, history c s -> history c (fst (check_definition c i s))
| hi_plot : forall s, history c s -> history c (fst (default_plot_verify c s)).

(** the class name patterns, item_name.py:104-121 *)
Definition class_match (c : ctx) (o : hobj) : M (option (pystr * pystr)) :=
  let* l := lift (dgetitem (py "validNXClassName") (c_patterns c)) in first_match c o (enum_patterns 0 l).

(** two states that agree on item [i] and on its parent *)
Definition same_here (i : nat) (s s' : vstate) : Prop :=
  nth_error (st_items s) i = nth_error (st_items s') i /\
  forall it p, nth_error (st_items s) i = Some it -> it_parent it = Some p -> nth_error (st_items s) p = nth_error (st_items s') p.

(** the findings a computation adds, and its result *)
Definition outcome {A} (m : M A) (s : vstate) : list finding * res A :=
  let '(s', r) := m s in (skipn (List.length (st_find s)) (st_find s'), r).
