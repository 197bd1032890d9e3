(** * Specification of installing a file set *)

From Coq Require Import List NArith ZArith Bool String.
From Verif Require Import PyBase Cache Install.
Import ListNotations.

(** content of the file at a path *)
Definition file_at (p : list pystr) (e : entries) : option pystr :=
  match tget p e with Some (TFile c) => Some c | _ => None end.

(** [c] is what a crash may leave of [data] *)
Definition beginning (c data : pystr) : Prop := exists rest, data = c ++ rest.

(** ** Members *)
(** [p] are the elements of [l] that are not [bad] *)
Inductive without (bad : pystr -> Prop) : list pystr -> list pystr -> Prop :=
| wo_nil : without bad [] []
| wo_drop : forall c l p, bad c -> without bad l p -> without bad (c :: l) p
| wo_keep : forall c l p, ~ bad c -> without bad l p -> without bad (c :: l) (c :: p).

(** [p] are the components of the path [s], that is what is between its slashes, but those that are [bad] *)
Definition components (bad : pystr -> Prop) (s : pystr) (p : list pystr) : Prop :=
  exists l, s = join (py "/") l /\ l <> [] /\ Forall (fun c => ~ In 47%N c) l /\ without bad l p.
Definition no_component (c : pystr) : Prop := c = [] \/ c = py ".".
Definition unsafe_component (c : pystr) : Prop := c = [] \/ c = py "." \/ c = py "..".

(** a path names a file with ending .xsd, .xml or .xsl whose directory is a
    category or the top directory of the archive *)
Definition definition_file (top item : pystr) : Prop :=
  exists dirs parent base ext, components no_component item (dirs ++ [parent; base ++ py "." ++ ext])
    /\ base <> [] /\ In ext [py "xsd"; py "xml"; py "xsl"]
    /\ In parent [py "base_classes"; py "applications"; py "contributed_definitions"; top].

(** where it goes: its path without "..", which zipfile drops *)
Definition destination (m : member) (p : list pystr) : Prop := components unsafe_component (m_name m) p.

(** no entry, at any depth, leads out of its directory *)
Definition safe_name (c : pystr) : Prop := ~ unsafe_component c /\ ~ In 47%N c.
Inductive safe_tree : tree -> Prop :=
| st_file : forall c, safe_tree (TFile c)
| st_dir : forall es, Forall (fun nt => safe_name (fst nt) /\ safe_tree (snd nt)) es -> safe_tree (TDir es).

(** an archive with a single top directory [top], which is not the name of the file
    set; definition files are in it, and not in a directory called like the info file *)
Record plain_archive (z : archive) (top name : pystr) : Prop := mkPA {
  pa_top : exists m rest, z_members z = m :: rest /\ top = hd [] (split 47%N (m_name m));
  pa_plain : top <> [] /\ top <> py "." /\ top <> py "..";
  pa_name : name <> top;
  pa_inside : forall m, In m (z_members z) -> definition_file top (m_name m) ->
    exists rest, destination m (top :: rest) /\ ~ In (py "__github_info__.json") rest
}.

(** the last member that goes to a path, and is not a directory *)
Definition provides (z : archive) (top : pystr) (p : list pystr) (data : pystr) : Prop :=
  exists before m after, z_members z = before ++ m :: after /\ definition_file top (m_name m) /\ destination m p
    /\ ~ (exists d, m_name m = d ++ py "/") /\ data = m_data m
    /\ forall m', In m' after -> definition_file top (m_name m') -> ~ destination m' p.

(** ** What is left of a directory that is being deleted *)
Inductive remains : tree -> tree -> Prop :=
| rm_same : forall t, remains t t
| rm_dir : forall es' es, left_of es' es -> remains (TDir es') (TDir es)
with left_of : list (pystr * tree) -> list (pystr * tree) -> Prop :=
| lo_nil : left_of [] []
| lo_gone : forall n t es' es, left_of es' es -> left_of es' ((n, t) :: es)
| lo_kept : forall n t' t es' es, remains t' t -> left_of es' es -> left_of ((n, t') :: es') ((n, t) :: es).

(** a complete file set of the archive: all its definition files, and the info file *)
Definition complete (z : archive) (top text : pystr) (t : tree) : Prop :=
  exists es, t = TDir es /\ file_at [py "__github_info__.json"] es = Some text
    /\ forall p data, provides z top (top :: p) data -> file_at p es = Some data.

(** the states of a run, the first and the last included *)
Definition visited {A} (e : entries) (r : list entries * entries * res A) (s : entries) : Prop :=
  s = e \/ In s (fst (fst r)) \/ s = snd (fst r).
