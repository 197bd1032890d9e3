(** * Specification of when an installation succeeds *)

From Coq Require Import List NArith ZArith Bool String.
From Verif Require Import PyBase Cache Install Spec_Install.
Import ListNotations.

(** the files that an installation writes: the definition files of the archive, and the info file *)
Definition target (z : archive) (top : pystr) (p : list pystr) : Prop :=
  p = [top; py "__github_info__.json"] \/ exists m, In m (z_members z) /\ definition_file top (m_name m) /\ destination m p.

(** two definition files at least; none is a directory, or a directory of another *)
Record installable (z : archive) (top : pystr) : Prop := mkInst {
  in_two : exists before m between m' after, z_members z = before ++ m :: between ++ m' :: after /\ definition_file top (m_name m) /\ definition_file top (m_name m');
  in_files : forall m d, In m (z_members z) -> definition_file top (m_name m) -> m_name m <> d ++ py "/";
  in_apart : forall p r, target z top p -> target z top (p ++ r) -> r = []
}.

(** nothing in the cache directory is in the way: no file where a directory is needed, no directory where a
    file is to be written *)
Record unobstructed (z : archive) (top name : pystr) (e : entries) : Prop := mkUn {
  un_parents : forall p q r c, target z top p -> p = q ++ r -> r <> [] -> tget q e <> Some (TFile c);
  un_files : forall p es, target z top p -> tget p e <> Some (TDir es);
  un_name : forall c, dget name e <> Some (TFile c)
}.

(** [s] is what some runs of the installation of the file set, each of them interrupted anywhere, left of
    [e]; the network gave an archive with these members or none *)
Inductive interrupted (z : archive) (name : pystr) : entries -> entries -> Prop :=
| it_none : forall e, interrupted z name e e
| it_more : forall replace net e s s', interrupted z name e s -> (forall z', net 0 = AnArchive z' -> z_members z' = z_members z) ->
    visited s (snd (download_file_set name replace net s)) s' -> interrupted z name e s'.
