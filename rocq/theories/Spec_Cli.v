(** * Specification of the command line *)

From Coq Require Import List NArith ZArith Bool String.
From Verif Require Import PyBase H5 Findings Nxdl Validate Report Cache Install Cli Spec_Report Spec_FileSets Spec_Install.
Import ListNotations.

(** ** Subcommands *)
Definition prefix_of (w c : pystr) : Prop := exists rest, c = w ++ rest.

(** the word is the subcommand, or abbreviates it and no other *)
Definition stands_for (choices : list pystr) (w c : pystr) : Prop :=
  In c choices /\ (w = c \/ (~ In w choices /\ 2 <= List.length w /\ prefix_of w c
                             /\ forall c', In c' choices -> prefix_of w c' -> c' = c)).

(** ** The report option *)
(** the words of a text, separated by commas *)
Definition words_of (s : pystr) (ws : list pystr) : Prop :=
  s = join (py ",") ws /\ ws <> [] /\ forall w, In w ws -> ~ In 44%N w.

(** upper case; [upc] tells what becomes of a character that is not ASCII *)
Inductive uppercase (upc : N -> list N) : pystr -> pystr -> Prop :=
| uc_nil : uppercase upc [] []
| uc_letter : forall c s t, (97 <= c <= 122)%N -> uppercase upc s t -> uppercase upc (c :: s) ((c - 32)%N :: t)
| uc_ascii : forall c s t, (c < 97 \/ 122 < c < 128)%N -> uppercase upc s t -> uppercase upc (c :: s) (c :: t)
| uc_other : forall c s t, (128 <= c)%N -> uppercase upc s t -> uppercase upc (c :: s) (upc c ++ t).

(** the word names the status, in capitals or not *)
Definition names_status (upc : N -> list N) (w : pystr) (s : status) : Prop := uppercase upc w (name_of s).

(** no character of Unicode has a comma in its upper case *)
Definition no_comma (upc : N -> list N) : Prop := forall c, ~ In 44%N (upc c).

(** ** Caches *)
(** the caches can be read, there are file sets, their dates can be compared, and every set that
    has a ref has a hash *)
Record usable (rj : json_reader) (k : disk) (sets : dict fileset) : Prop := mkUsable {
  us_sets : all_file_sets rj k = Ok sets;
  us_some : sets <> [];
  us_dates : comparable sets;
  us_shas : forall n fs, In (n, fs) sets -> described fs
}.

Definition is_nxdl (file : pystr) : Prop := exists a, file = a ++ py ".nxdl.xml".

(** the data file exists and is HDF5 *)
Definition is_hdf5 (w : world) (file : pystr) : Prop := exists f, dget file w = Some (FHdf5 f).

(** the report lists exactly the findings with a status that is chosen, and counts all *)
Definition reports (file : pystr) (chosen : status -> Prop) (l : list finding) (r : report) : Prop :=
  r_fname r = file /\ r_total r = List.length l
  /\ forall f, In f (r_rows r) <-> In f l /\ chosen (f_status f).

(** ** punx install *)
(** every download fails, or yields an archive with one top directory, which is not
    called [n] *)
Definition ordinary_downloads (names : list pystr) (net : nat -> nat -> answer) (n : pystr) : Prop :=
  forall i name, nth_error names i = Some name ->
    (forall z, net i 0 <> AnArchive z) \/ exists z top, net i 0 = AnArchive z /\ plain_archive z top name /\ n <> top.

(** the directory [t] called [n] is complete, with the content of a downloaded archive *)
Definition installed_from (names : list pystr) (net : nat -> nat -> answer) (n : pystr) (t : tree) : Prop :=
  exists i z top text, nth_error names i = Some n /\ net i 0 = AnArchive z /\ z_info z n = Ok text /\ complete z top text t.

(** the states of the user's cache during a command, the first and the last included *)
Definition passes_through {A} (e : entries) (r : list entries * entries * A) (s : entries) : Prop :=
  s = e \/ In s (fst (fst r)) \/ s = snd (fst r).

(** ** punx tree *)
(** the directory of a category of NXDL files *)
Inductive directory_of : pystr -> pystr -> Prop :=
| dir_base : directory_of (py "base") (py "base_classes")
| dir_application : directory_of (py "application") (py "applications")
| dir_contributed : directory_of (py "contributed") (py "contributed_definitions").
