(** * Specification of the file sets on offer *)

From Coq Require Import List NArith ZArith Bool String.
From Verif Require Import PyBase Cache.
Import ListNotations.

(** the label of a file set in the directory [path]: "source" if punx/cache is part of
    the path, but not its beginning, otherwise "user" *)
Definition labelled (path label : pystr) : Prop :=
  let below := exists a b, a <> [] /\ path = a ++ py "punx/cache" ++ b in
  let at_start := exists b, path = py "punx/cache" ++ b in
  (label = py "source" /\ below /\ ~ at_start) \/ (label = py "user" /\ ~ (below /\ ~ at_start)).

(** a directory [item] of the cache directory with an info file *)
Definition offered (rj : json_reader) (cpath : pystr) (dir : entries) (item : pystr) (fs : fileset) : Prop :=
  exists sub text i label, dget item dir = Some (TDir sub) /\ dget (py "__github_info__.json") sub = Some (TFile text) /\ rj text = Ok i
    /\ labelled (cpath ++ py "/" ++ item) label /\ fs = mkFS (cpath ++ py "/" ++ item) label i.

(** every directory entry has a name of its own *)
Definition distinct_names (k : disk) : Prop := NoDup (map fst (src_dir k)) /\ NoDup (map fst (usr_dir k)).

(** the info files of a cache directory can all be read *)
Definition readable (rj : json_reader) (dir : entries) : Prop :=
  forall item sub t, In (item, TDir sub) dir -> dget (py "__github_info__.json") sub = Some t ->
    exists text i, t = TFile text /\ rj text = Ok i.

(** dates can be compared: one set at most, or all dated *)
Definition comparable (sets : dict fileset) : Prop :=
  List.length sets <= 1 \/ forall n fs, In (n, fs) sets -> fs_date fs <> None.

(** [a] is later than [b], as text (the dates are written as YYYY-MM-DD HH:MM:SS) *)
Definition later (a b : pystr) : Prop := str_leb a b = false.
Definition the_date (fs : fileset) : pystr := match fs_date fs with Some s => s | None => [] end.

(** the first listed of the sets with the latest date *)
Definition newest (sets : dict fileset) (n : pystr) (fs : fileset) : Prop :=
  exists before after, sets = before ++ (n, fs) :: after
    /\ (forall m f, In (m, f) before -> later (the_date fs) (the_date f))
    /\ (forall m f, In (m, f) after -> ~ later (the_date f) (the_date fs)).

(** the set called [r], or the newest if there is none of that name *)
Definition picked (sets : dict fileset) (r : pystr) (fs : fileset) : Prop :=
  dget r sets = Some fs \/ (dget r sets = None /\ exists n, newest sets n fs).

(** what a set needs to be shown as text: no ref, or a hash *)
Definition described (fs : fileset) : Prop := i_ref (fs_info fs) = None \/ i_sha (fs_info fs) <> None.

(** ** Histories *)
(** the operation asks for a file set by name, and [fs] is what there is for that name in the
    list that the process has (or reads now, if it has none) *)
Definition names (rj : json_reader) (h : list (disk * cop)) (ko : disk * cop) (fs : fileset) : Prop :=
  exists k r c, ko = (k, CValidator (Some r)) /\ snd (cache_manager rj k (crun rj h)) = Ok c
    /\ comparable (cm_sets c) /\ picked (cm_sets c) r fs.

(** [fs] is the choice of the last operation of the history that asks by name *)
Definition last_named (rj : json_reader) (h : list (disk * cop)) (fs : fileset) : Prop :=
  exists h1 ko h2, h = h1 ++ ko :: h2 /\ names rj h1 ko fs
    /\ forall g1 ko' g2 fs', h2 = g1 ++ ko' :: g2 -> ~ names rj (h1 ++ ko :: g1) ko' fs'.

Definition none_named (rj : json_reader) (h : list (disk * cop)) : Prop :=
  forall g1 ko' g2 fs', h = g1 ++ ko' :: g2 -> ~ names rj g1 ko' fs'.

(** [fs] was the newest of the file sets on disk when the process first asked for
    file sets successfully *)
Definition first_newest (rj : json_reader) (h : list (disk * cop)) (fs : fileset) : Prop :=
  exists h1 k o h2 sets n, h = h1 ++ (k, o) :: h2 /\ crun rj h1 = None
    /\ all_file_sets rj k = Ok sets /\ newest sets n fs.

(** ** The table of caches *)
Fixpoint oldest_first (l : dict fileset) : Prop :=
  match l with
  | [] => True
  | (_, f) :: rest => Forall (fun nf => ~ later (the_date f) (the_date (snd nf))) rest /\ oldest_first rest
  end.
Definition row_of (n : pystr) (fs : fileset) (row : list pystr) : Prop :=
  exists sha, i_sha (fs_info fs) = Some sha
    /\ row = [n; fs_cache fs; match fs_date fs with Some d => d | None => py "None" end; firstn 7 sha; fs_path fs].
