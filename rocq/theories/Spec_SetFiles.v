(** * Specification of C147: what of a file set's directories matters *)

From Coq Require Import List NArith ZArith Bool String.
From Verif Require Import PyBase Nxdl NxdlLoad Spec_Nxdl Spec_Proper.
Import ListNotations.

(** a directory lists each name once *)
Definition names_once (ls : pystr -> option fsnode) : Prop := forall p names, ls p = Some (FSDir names) -> NoDup names.

(** two directory trees with the same NXDL files of a file set, in any order and among any other files *)
Definition same_nxdl_files (ls ls' : pystr -> option fsnode) (dir : pystr) : Prop :=
  (ls dir = None <-> ls' dir = None)
  /\ forall cat, In cat [py "base_classes"; py "applications"; py "contributed_definitions"] ->
       (no_directory ls (path_join dir cat) <-> no_directory ls' (path_join dir cat))
       /\ forall file, nxdl_file ls dir cat file <-> nxdl_file ls' dir cat file.
