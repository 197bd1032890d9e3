(** * Specification of C146: NXDL files that can be loaded *)

From Coq Require Import List NArith ZArith Bool String.
From Verif Require Import PyBase Nxdl NxdlLoad Spec_Nxdl.
Import ListNotations.

Definition has_text (k : pystr) (n : xnode) : Prop := exists s, dget k (x_attrib n) = Some s.

(** every attribute element has a name, no two have the same *)
Definition proper_attributes (n : xnode) : Prop :=
  (forall k, In k (elements (py "attribute") n) -> has_text (py "name") k) /\ NoDup (map element_name (elements (py "attribute") n)).

Definition proper_field (n : xnode) : Prop := has_text (py "name") n /\ proper_attributes n.

(** every field, link and attribute element has a name, at any depth, and every group element a type *)
Inductive proper_content (n : xnode) : Prop :=
| pc : proper_attributes n ->
    (forall k, In k (elements (py "group") n) -> has_text (py "type") k /\ proper_content k) ->
    (forall k, In k (elements (py "field") n) -> proper_field k) ->
    (forall k, In k (elements (py "link") n) -> has_text (py "name") k) ->
    proper_content n.

(** an NXDL file that exists, can be parsed, is accepted by the schema processor and has
    proper content *)
Definition proper_file (valid : xnode -> bool) (content : pystr -> option xnode) (file : pystr) : Prop :=
  exists root, content file = Some root /\ valid root = true /\ proper_content root.

(** the schema has the defaults that the loader looks for *)
Definition all_defaults (d : defaults) : Prop :=
  df_attr_optional d <> None /\ df_field_minOccurs d <> None /\ df_group_minOccurs d <> None /\ df_dimensions d = true /\ df_dim d = true.

(** the NXDL files of a file set *)
Definition file_of_set (ls : pystr -> option fsnode) (dir file : pystr) : Prop :=
  exists cat, In cat [py "base_classes"; py "applications"; py "contributed_definitions"] /\ nxdl_file ls dir cat file.

(** the directories of a file set are there *)
Definition set_directories (ls : pystr -> option fsnode) (dir : pystr) : Prop :=
  ls dir <> None /\ forall cat, In cat [py "base_classes"; py "applications"; py "contributed_definitions"] ->
    exists names, ls (path_join dir cat) = Some (FSDir names).
