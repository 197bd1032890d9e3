(** * Specification: the schema that NXDL files are checked against *)

From Coq Require Import List NArith ZArith Bool String.
From Verif Require Import PyBase H5 Nxdl NxdlLoad NxdlSchema Cache Install Whole Spec_Session.
Import ListNotations.
Open Scope string_scope.
Open Scope list_scope.

(** [c] is the text of an NXDL file in the directory with these entries *)
Definition nxdl_text (es : entries) (c : pystr) : Prop :=
  exists (cat base : pystr), In cat categories /\ ~ In 47%N base /\ tget [cat; base ++ py ".nxdl.xml"] es = Some (TFile c).

(** it is an NXDL document, valid with the schema in the directory with entries [es'] *)
Definition valid_with (L : lxml) (es' : entries) (c : pystr) : Prop :=
  exists root, lx_nxdl L c = Some root
    /\ lx_valid L (text_of (tget [py "nxdl.xsd"] es')) (text_of (tget [py "nxdlTypes.xsd"] es')) root = true.

(** the directory of a file set is in a cache directory *)
Definition in_a_cache (fs : fileset) : Prop := exists dir n, fs_path fs = dir ++ py "/" ++ n /\ n <> [] /\ ~ In 47%N n.

(** the names in the directories are names, not paths *)
Definition plain_names (es : entries) : Prop :=
  forall cat sub n, In (cat, TDir sub) es -> In n (map fst sub) -> ~ In 47%N n.

(** nxdl.xsd declares exactly one element (it is called "definition") *)
Definition one_element (L : lxml) (es : entries) : Prop :=
  forall c kids, tget [py "nxdl.xsd"] es = Some (TFile c) -> lx_schema L c = Some kids ->
  exists a n b, kids = a ++ n :: b /\ l_is (py "element") n = true /\ (forall x, In x a \/ In x b -> l_is (py "element") x = false).
