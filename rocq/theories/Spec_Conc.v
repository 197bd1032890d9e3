(** * Specification of installations at the same time *)

From Coq Require Import List NArith ZArith Bool String.
From Verif Require Import PyBase Cache Install Cli Conc Spec_Install.
Import ListNotations.

(** each download gives no archive, or one with a single top directory *)
Definition ordinary_job (j : job) : Prop :=
  forall i name, nth_error (j_names j) i = Some name ->
    (forall z, j_net j i 0 <> AnArchive z) \/ exists z top, j_net j i 0 = AnArchive z /\ plain_archive z top name.

(** [n] is a name that is installed, or the top directory of an archive *)
Definition touches (j : job) (n : pystr) : Prop :=
  In n (j_names j) \/ exists i name z, nth_error (j_names j) i = Some name /\ j_net j i 0 = AnArchive z /\ plain_archive z n name.

(** no two jobs have to do with the same directory *)
Definition independent (jobs : list job) : Prop :=
  forall i k a b n, i <> k -> nth_error jobs i = Some a -> nth_error jobs k = Some b -> touches a n -> ~ touches b n.

(** no directory has two entries of one name, at any depth *)
Inductive once_each : tree -> Prop :=
| oe_file : forall c, once_each (TFile c)
| oe_dir : forall es, NoDup (map fst es) -> (forall n t, In (n, t) es -> once_each t) -> once_each (TDir es).
