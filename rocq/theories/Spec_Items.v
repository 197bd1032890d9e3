(** * Specification of C148: the number of array items shown in a tree view *)

From Coq Require Import List NArith ZArith Bool String.
From Verif Require Import PyBase H5 H5Tree.
Import ListNotations.

(** a line that holds the items of an array of several dimensions *)
Definition array_line (l : line) : bool := match ln_body l with BArray _ => true | _ => false end.

(** the same line, apart from what a field shows behind " = " *)
Definition same_before_value (a b : line) : Prop :=
  a = b \/ exists depth name before v v',
    a = mkLine depth (BField name (before ++ py " = " ++ v)) /\ b = mkLine depth (BField name (before ++ py " = " ++ v')).

(** no numeric array is longer than [m], in any direction *)
Definition arrays_up_to (m : Z) (ds : handle -> dsview) : Prop :=
  forall h t shape a, ds h = DOther t shape a -> Forall (fun n => (Z.of_nat n <= m)%Z) shape.

(** the same view with another number of items *)
Definition with_items (m : Z) (t : treeview) : treeview := mkTree (t_filename t) (t_nexus t) m.
