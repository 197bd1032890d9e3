(** * Installing a file set: punx/cache_manager.py download_file_set *)

From Coq Require Import List NArith ZArith Bool String.
From Verif Require Import PyBase Cache.
Import ListNotations.
Open Scope string_scope.
Open Scope list_scope.

(** ** Archives and requests *)
(** a member of a ZIP archive: its name and (decompressed) content *)
Record member := mkM { m_name : pystr; m_data : pystr }.
(** a ZIP archive.  [z_info] is the JSON text for the info file made from the name
    of the file set, the archive comment, the dates of the members and the clock
    (punx/cache_manager.py:215-227); making it may raise (comment not UTF-8, invalid
    date).  It is a parameter: nothing is assumed about the text; InfoFile.v has the real one. *)
Record archive := mkZ { z_members : list member; z_info : pystr -> res pystr }.

(** outcome of one [requests.get] followed by [zipfile.ZipFile]: an archive, a
    requests ConnectionError, or any other exception (e.g. zipfile.BadZipFile) *)
Inductive answer := AnArchive (z : archive) | NoConnection | OtherFailure (e : exn).

(** one round of the loop of punx/cache_manager.py:153-159 *)
Inductive round := RReturn (z : archive) | RRaise (e : exn) | RNext.
Definition try_round (a : answer) : round :=
  match a with
  | AnArchive z => RReturn z
  | NoConnection => RRaise OSError   (* raise IOError(...), punx/cache_manager.py:159 *)
  | OtherFailure e => RRaise e
  end.

(** punx/cache_manager.py:141-159 download_NeXus_zip_archive: [net i] is the outcome
    of request number [i]; yields the number of requests made, and the archive or
    None *)
Fixpoint try_rounds (retries i : nat) (net : nat -> answer) : nat * res (option archive) :=
  match retries with
  | O => (i, Ok None)
  | S n => match try_round (net i) with
           | RReturn z => (S i, Ok (Some z))
           | RRaise e => (S i, Exn e)
           | RNext => try_rounds n (S i) net
           end
  end.
Definition GITHUB_RETRY_COUNT : nat := 3.
Definition download_archive (net : nat -> answer) : nat * res (option archive) := try_rounds GITHUB_RETRY_COUNT 0 net.

(** ** Which members are extracted *)
(** [pathlib.Path(item)]: the parts, empty ones and "." dropped.  Simplification: the
    root of an absolute path is dropped too; it has no name, so this changes
    neither suffix nor the name of the parent. *)
Definition path_parts (item : pystr) : list pystr :=
  filter (fun c => negb (str_eqb c [] || str_eqb c (py "."))) (split ch_slash item).
(** [path.name] *)
Definition path_name (parts : list pystr) : pystr := last parts [].
(** [path.suffix]: from the last dot, which is neither the first nor the last character *)
Definition path_suffix (name : pystr) : pystr :=
  let w := last_part ch_dot name in
  let i := List.length name - List.length w in   (* position after the last dot, 0 if none *)
  if Nat.leb 2 i && negb (str_eqb w []) then ch_dot :: w else [].

(** punx/cache_manager.py:127-138 is_extractable *)
Definition is_extractable (item : pystr) (allowed_endings allowed_parents : list pystr) : bool :=
  let parts := path_parts item in
  existsb (str_eqb (path_suffix (path_name parts))) allowed_endings
  && existsb (str_eqb (path_name (removelast parts))) allowed_parents.

(** punx/cache_manager.py:196 *)
Definition NXDL_file_endings : list pystr := [py ".xsd"; py ".xml"; py ".xsl"].
(** punx/cache_manager.py:195, 199, 200 *)
Definition allowed_parents (top : pystr) : list pystr := [py "base_classes"; py "applications"; py "contributed_definitions"; top].

(** ** Changes of the cache directory *)
(** A computation lists the states the directory passes through (the last one is
    the current state): these are the states a crash can leave behind. *)
Definition W (A : Type) := entries -> list entries * entries * res A.
Definition wret {A} (a : A) : W A := fun e => ([], e, Ok a).
Definition wraise {A} (x : exn) : W A := fun e => ([], e, Exn x).
Definition wbind {A B} (m : W A) (f : A -> W B) : W B := fun e =>
  let '(l, e1, r) := m e in
  match r with
  | Ok a => let '(l2, e2, r2) := f a e1 in (l ++ l2, e2, r2)
  | Exn x => (l, e1, Exn x)
  end.
Notation "'wdo' x <- m ; f" := (wbind m (fun x => f))
  (at level 200, x binder, m at level 100, f at level 200, right associativity).
Definition wlift {A} (r : res A) : W A := fun e => ([], e, r).
Definition wget : W entries := fun e => ([], e, Ok e).
(** pass through the given states *)
Definition wstates (l : list entries) : W unit := fun e => (l, last l e, Ok tt).

(** what is at a path *)
Fixpoint tget (p : list pystr) (e : entries) : option tree :=
  match p with
  | [] => Some (TDir e)
  | n :: p' => match dget n e, p' with
               | Some t, [] => Some t
               | Some (TDir e'), _ => tget p' e'
               | _, _ => None
               end
  end.

(** the directory with [t] at a path whose parent is a directory *)
Fixpoint tput (p : list pystr) (t : tree) (e : entries) : option entries :=
  match p with
  | [] => None
  | [n] => Some (dset n t e)
  | n :: p' => match dget n e with
               | Some (TDir e') => match tput p' t e' with
                                   | Some e'' => Some (dset n (TDir e'') e)
                                   | None => None
                                   end
               | _ => None
               end
  end.

(** make a directory that is missing *)
Definition wmkdir (p : list pystr) : W unit := fun e =>
  match tput p (TDir []) e with
  | Some e' => ([e'], e', Ok tt)
  | None => ([], e, Exn OSError)
  end.

(** [os.makedirs] for the directories [todo] below [done]: one by one, those missing *)
Fixpoint wmakedirs (done todo : list pystr) : W unit :=
  match todo with
  | [] => wret tt
  | n :: rest =>
      wdo e <- wget ;
      match tget (done ++ [n]) e with
      | Some (TDir _) => wmakedirs (done ++ [n]) rest
      | Some (TFile _) => wraise OSError
      | None => wdo _u <- wmkdir (done ++ [n]) ; wmakedirs (done ++ [n]) rest
      end
  end.

(** [open(path, "wb")], then write: the file is empty first, then has more and more
    of the content.  A directory at the path, or no parent directory, is OSError. *)
Definition wwrite (p : list pystr) (data : pystr) : W unit := fun e =>
  match tget p e with
  | Some (TDir _) => ([], e, Exn OSError)
  | _ =>
      match tput p (TFile data) e with
      | None => ([], e, Exn OSError)
      | Some e' =>
          (flat_map (fun k => match tput p (TFile (firstn k data)) e with Some x => [x] | None => [] end)
                    (seq 0 (List.length data)) ++ [e'], e', Ok tt)
      end
  end.

(** [ZipFile.extract(name, cache_path)] (zipfile, Python's standard library): the
    components of the name that are empty, "." or ".." are dropped; names that end
    in a slash are directories *)
Definition safe_parts (name : pystr) : list pystr :=
  filter (fun c => negb (str_eqb c [] || str_eqb c (py ".") || str_eqb c (py ".."))) (split ch_slash name).
Definition wextract (name data : pystr) : W unit :=
  let p := safe_parts name in
  wdo _u <- wmakedirs [] (removelast p) ;
  if endswith name [ch_slash] then
    wdo e <- wget ;
    match tget p e with
    | Some (TDir _) => wret tt
    | Some (TFile _) => wraise OSError
    | None => wmkdir p
    end
  else wwrite p data.

(** [zip_content.getinfo(name)]: the last member of that name *)
Definition getinfo (z : archive) (name : pystr) : pystr :=
  match find (fun m => str_eqb (m_name m) name) (rev (z_members z)) with
  | Some m => m_data m
  | None => []
  end.

(** the loop of punx/cache_manager.py:204-209; yields [item_count] *)
Fixpoint extract_all (z : archive) (top : pystr) (count : nat) (ms : list member) : W nat :=
  match ms with
  | [] => wret count
  | m :: rest =>
      if is_extractable (m_name m) NXDL_file_endings (allowed_parents top) then
        wdo _u <- wextract (m_name m) (getinfo z (m_name m)) ;
        extract_all z top (S count) rest
      else extract_all z top count rest
  end.

(** [shutil.rmtree(path, ignore_errors=True)]: the entries go one by one, depth
    first, in listing order, then the directory.  [ctx o] is the cache directory
    with [o] in place of the tree.  Simplification: all deletions succeed.  A file in
    place of the directory is left alone (NotADirectoryError is ignored). *)
Fixpoint rm_tree (t : tree) (ctx : option tree -> entries) {struct t} : list entries :=
  match t with
  | TFile _ => [ctx None]
  | TDir es =>
      (fix go (es : list (pystr * tree)) : list entries :=
         match es with
         | [] => [ctx None]
         | (n, t') :: rest =>
             rm_tree t' (fun o => ctx (Some (TDir (match o with Some t'' => (n, t'') :: rest | None => rest end)))) ++ go rest
         end) es
  end.
Definition dremove {V} (k : pystr) (d : dict V) : dict V := filter (fun kv => negb (str_eqb (fst kv) k)) d.
Definition wrmtree (name : pystr) : W unit := fun e =>
  match dget name e with
  | Some (TDir es) =>
      let l := rm_tree (TDir es) (fun o => match o with Some t => dset name t e | None => dremove name e end) in
      (l, last l e, Ok tt)
  | _ => ([], e, Ok tt)
  end.

(** [shutil.move(src, dst)] within the cache directory, where [dst] does not exist:
    one atomic rename.  If [src] is missing or [dst] is a file: OSError. *)
Definition wmove (src dst : pystr) : W unit := fun e =>
  match dget src e, dget dst e with
  | Some t, None => let e' := dset dst t (dremove src e) in ([e'], e', Ok tt)
  | _, _ => ([], e, Exn OSError)
  end.

(** punx/cache_manager.py:193-238: what happens with a downloaded archive.
    [filelist[0]] of an empty archive is IndexError; the top directory is the first
    component of the first name.  Simplification: this and the name of the file set
    are plain directory names (not empty, no slash, not "." or ".."), so that both
    directories are entries of the cache directory. *)
Definition top_of (z : archive) : res pystr :=
  match z_members z with
  | [] => Exn IndexError
  | m :: _ => Ok (hd [] (split ch_slash (m_name m)))
  end.
Definition unpack (name : pystr) (z : archive) : W unit :=
  wdo top <- wlift (top_of z) ;
  wdo count <- extract_all z top 0 (z_members z) ;
  if Nat.ltb count 2 then wraise ValueError
  else
    wdo text <- wlift (z_info z name) ;
    wdo _u <- wwrite [top; INFO_FILE_NAME] text ;
    wdo _u <- wrmtree name ;
    wmove top name.

(** punx/cache_manager.py:162-238 download_file_set: the number of requests, and the
    states of the cache directory *)
Definition download_file_set (name : pystr) (replace : bool) (net : nat -> answer) (e : entries) : nat * (list entries * entries * res unit) :=
  if dmem name e && negb replace then (0, ([], e, Ok tt))
  else
    let '(n, r) := download_archive net in
    match r with
    | Exn x => (n, ([], e, Exn x))
    | Ok None => (n, ([], e, Ok tt))
    | Ok (Some z) => (n, unpack name z e)
    end.
