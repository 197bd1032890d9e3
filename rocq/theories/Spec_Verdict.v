(** * Specification: what a missing default plot is worth *)

From Coq Require Import List NArith ZArith Bool String.
From Verif Require Import PyBase H5 Findings Nxdl NxdlLoad Core Validate Spec_Run Spec_Catalog Spec_Groups Spec_Number.
Import ListNotations.

(** the validated file has a group of class [cls] *)
Definition file_has (E : env) (w : world) (v : validator) (cls : pystr) : Prop :=
  exists i it h, catalogued_group w v i it h /\ has_class E w it h cls.

(** how many of these groups the class asks for, at least: its minOccurs, and none if it does not say *)
Definition declared_minimum (E : env) (g : nxgroup) (z : Z) : Prop :=
  (~ In (py "minOccurs") (map fst (g_attrs g)) /\ z = 0%Z)
  \/ exists s, dget (py "minOccurs") (g_attrs g) = Some (GAText s) /\ whole_number E s z.

(** the same of an NXDL group element *)
Definition element_minimum (E : env) (n : xnode) (z : Z) : Prop :=
  (dget (py "minOccurs") (x_attrib n) = None /\ z = 0%Z) \/ exists s, dget (py "minOccurs") (x_attrib n) = Some s /\ whole_number E s z.

(** the verdict on a file without default plot: an error if the file has no NXentry group, or if NXentry asks for
    data ([minimum] says how many); else a note *)
Definition missing_plot (entry : Prop) (minimum : Z -> Prop) (f : finding) : Prop :=
  f_addr f = Some (py "/") /\ f_comment f = py "no default plot described"
  /\ ((f_status f = NOTE /\ entry /\ exists z, minimum z /\ (z <= 0)%Z)
      \/ (f_status f = ERROR /\ (~ entry \/ exists z, minimum z /\ (0 < z)%Z))).
