(** * Specification: what a validation compares a file with, in terms of the file set's own files *)

From Coq Require Import List NArith ZArith Bool String Permutation.
From Verif Require Import PyBase H5 Findings Nxdl NxdlLoad SchemaMgr NxdlSchema Core Validate Session Spec_Run Spec_Catalog Spec_Groups Spec_Attributes Spec_AppDef Spec_Nxdl.
Import ListNotations.

Definition categories : list pystr := [py "base_classes"; py "applications"; py "contributed_definitions"].

(** [root] is the content of the NXDL file of class [t]: if several categories have one, that of the last *)
Definition class_nxdl (D : set_dir) (path cat t : pystr) (root : xnode) : Prop :=
  exists early late, categories = early ++ cat :: late /\ defines (sd_ls D) path cat t
    /\ (forall c, In c late -> ~ defines (sd_ls D) path c t) /\ sd_content D (class_file path cat t) = Some root.

(** the file set has no NXDL file for [t] *)
Definition no_class_nxdl (D : set_dir) (path t : pystr) : Prop := forall c, In c categories -> ~ defines (sd_ls D) path c t.

(** names of files have no slash, those of NXDL files no further dot *)
Definition ordinary_names (D : set_dir) : Prop := listed_names_plain (sd_ls D) /\ nxdl_names_plain (sd_ls D).

(** the entries made of the groups, fields and links in the element [n] are called [gk], [fk] and [lk] *)
Definition entry_names (n : xnode) (gk fk lk : list pystr) : Prop :=
  names_given (raw_names n) (gk ++ fk ++ lk) /\ List.length gk = List.length (elements (py "group") n)
  /\ List.length fk = List.length (elements (py "field") n) /\ List.length lk = List.length (elements (py "link") n).

(** the finding about a member of a group, whose class [cls] has groups [gk] and fields [fk] *)
Definition is_defined (yes : Prop) (cls name cm : pystr) : Prop :=
  (yes /\ cm = py "defined: " ++ cls ++ py "/" ++ name) \/ (~ yes /\ cm = py "not defined: " ++ cls ++ py "/" ++ name).
Inductive member_finding (w : world) (h : handle) (cls : pystr) (gk fk : list pystr) (name : pystr) : finding -> Prop :=
| mf_field : forall obj cm, member w h name obj -> isHdf5Dataset w obj = true -> is_defined (In name fk) cls name cm ->
    member_finding w h cls gk fk name (mkF (Some (h_name obj)) (py "field in base class") OK cm)
| mf_group : forall obj cm, member w h name obj -> isHdf5Group w obj = true -> is_defined (In name gk) cls name cm ->
    member_finding w h cls gk fk name (mkF (Some (h_name obj)) (py "group in base class") OK cm)
| mf_other : forall obj, member w h name obj -> isHdf5Dataset w obj = false -> isHdf5Group w obj = false ->
    member_finding w h cls gk fk name (mkF (Some (h_name obj)) (py "unhandled: group_items_in_base_class") TODO (py "TODO: ")).

(** the findings about the fields of the definition that the group item [it] follows: those of its first group *)
Inductive followed_fields (E : env) (w : world) (D : set_dir) (path : pystr) (it : vitem) : list finding -> Prop :=
| ff_unknown : forall h name, it_obj it = ONode h -> follows E w h name -> no_class_nxdl D path name -> followed_fields E w D path it []
| ff_known : forall h name cat root first rest gk fk lk fs, it_obj it = ONode h -> follows E w h name -> class_nxdl D path cat name root ->
    elements (py "group") root = first :: rest -> entry_names first gk fk lk ->
    Forall2 (fun n f => exists fh, getopt w h n = Ok fh /\ field_finding name n it fh f) fk fs ->
    followed_fields E w D path it fs.
