(** * The NXDL file set caches: punx/cache_manager.py, punx/singletons.py *)

From Coq Require Import List NArith ZArith Bool String.
From Verif Require Import PyBase.
Import ListNotations.
Open Scope string_scope.
Open Scope list_scope.

(** ** Directories *)
(** what is on disk below a directory; [entries] in the order of [os.listdir] *)
Inductive tree := TFile (content : pystr) | TDir (entries : list (pystr * tree)).
Definition entries := dict tree.

(** punx/cache_manager.py:86 *)
Definition INFO_FILE_NAME : pystr := py "__github_info__.json".

(** the values read from an info file (punx/cache_manager.py:478-479, 529-531); [None]: the
    key is missing or null.  Simplification: values are text or null. *)
Record info := mkI { i_ref : option pystr; i_sha : option pystr; i_zip_url : option pystr; i_last_modified : option pystr }.

(** punx/cache_manager.py:465-531 NXDL_File_Set, without the schema manager *)
Record fileset := mkFS { fs_path : pystr; fs_cache : pystr; fs_info : info }.
Definition fs_date (f : fileset) : option pystr := i_last_modified (fs_info f).

(** punx/cache_manager.py:522-525: "source" if "punx/cache" is found at a positive
    index in the path *)
Definition cache_label (path : pystr) : pystr :=
  if negb (startswith path (py "punx/cache")) && contains_sub path (py "punx/cache") then py "source" else py "user".

(** The JSON reader applied to the text of an info file, followed by the four
    [obj.get(k)]: a parameter of the model, which may raise; InfoFile.v has the real one. *)
Definition json_reader := pystr -> res info.

(** punx/cache_manager.py:511-531 read_info_file for the directory [path] with
    content [sub]; [None]: no info file, so the directory is no file set (line
    423).  [open] on a directory raises IsADirectoryError. *)
Definition read_info (rj : json_reader) (path : pystr) (sub : entries) : res (option fileset) :=
  match dget INFO_FILE_NAME sub with
  | None => Ok None
  | Some (TDir _) => Exn OSError
  | Some (TFile text) => dor i <- rj text ; Ok (Some (mkFS path (cache_label path) i))
  end.

(** punx/cache_manager.py:412-426 Base_Cache.all_file_sets: the loop over the
    entries of the cache directory [cpath] *)
Fixpoint cache_sets (rj : json_reader) (cpath : pystr) (acc : dict fileset) (l : entries) : res (dict fileset) :=
  match l with
  | [] => Ok acc
  | (item, TFile _) :: rest => cache_sets rj cpath acc rest
  | (item, TDir sub) :: rest =>
      dor o <- read_info rj (cpath ++ [ch_slash] ++ item) sub ;
      match o with
      | None => cache_sets rj cpath acc rest
      | Some fs => cache_sets rj cpath (dset item fs acc) rest
      end
  end.

(** [d.update(e)] *)
Definition dupdate {V} (d e : dict V) : dict V := fold_left (fun a kv => dset (fst kv) (snd kv) a) e d.

(** the two cache directories, which exist (the user's is created when missing,
    punx/cache_manager.py:459) *)
Record disk := mkDisk { src_path : pystr; src_dir : entries; usr_path : pystr; usr_dir : entries }.

(** punx/cache_manager.py:332-342 CacheManager.all_file_sets *)
Definition all_file_sets (rj : json_reader) (k : disk) : res (dict fileset) :=
  dor a <- cache_sets rj (src_path k) [] (src_dir k) ;
  dor b <- cache_sets rj (usr_path k) [] (usr_dir k) ;
  Ok (dupdate (dupdate [] a) b).

(** ** Selecting *)
(** [sorted(sets, key=last_modified, reverse=True)] (punx/cache_manager.py:311-314):
    stable; comparing None with anything is TypeError *)
Definition undated (f : fileset) : bool := match fs_date f with None => true | Some _ => false end.
Definition date_text (f : fileset) : pystr := match fs_date f with Some s => s | None => [] end.
Definition newest_first (sets : dict fileset) : res (list pystr) :=
  if Nat.leb 2 (List.length sets) && existsb (fun kf => undated (snd kf)) sets then Exn TypeError
  else Ok (map fst (ssort (fun a b => str_leb (date_text (snd b)) (date_text (snd a))) sets)).

(** punx/cache_manager.py:301-323 select_NXDL_file_set: the file set that becomes
    the default *)
Definition choose (sets : dict fileset) (ref : option pystr) : res fileset :=
  dor keys <- newest_first sets ;
  dor r <- (match ref with
            | Some r => if existsb (str_eqb r) keys then Ok r else match keys with k :: _ => Ok k | [] => Exn IndexError end
            | None => match keys with k :: _ => Ok k | [] => Exn IndexError end
            end) ;
  dgetitem r sets.

(** punx/cache_manager.py:325 and 500-510: the debug message is put together even if nothing
    is logged, and [str(file_set)] shortens the hash of a set with a ref: [len(None)] *)
Definition has_text (f : fileset) : bool :=
  match i_ref (fs_info f), i_sha (fs_info f) with Some _, None => false | _, _ => true end.

(** punx/cache_manager.py:301-327: what select_NXDL_file_set returns *)
Definition select (sets : dict fileset) (ref : option pystr) : res fileset :=
  dor fs <- choose sets ref ; if has_text fs then Ok fs else Exn TypeError.

(** ** The one CacheManager of the process *)
Record cmgr := mkCM { cm_sets : dict fileset; cm_default : option fileset }.

(** punx/cache_manager.py:277-295 CacheManager.__init__ *)
Definition cm_init (rj : json_reader) (k : disk) : res cmgr :=
  dor sets <- all_file_sets rj k ;
  match select sets None with
  | Ok fs => Ok (mkCM sets (Some fs))
  | Exn KeyError => Ok (mkCM sets None)
  | Exn e => Exn e
  end.

(** the state of the process: the instance, once there is one *)
Definition proc := option cmgr.

(** [CacheManager()] (punx/singletons.py:14-24): [__init__] runs only if there is no
    instance; an exception leaves none *)
Definition cache_manager (rj : json_reader) (k : disk) (p : proc) : proc * res cmgr :=
  match p with
  | Some c => (p, Ok c)
  | None => match cm_init rj k with Ok c => (Some c, Ok c) | Exn e => (None, Exn e) end
  end.

(** punx/nxdl_manager.py:75-90: the file set used by NXDL_Manager(ref), i.e. by
    Data_File_Validator(ref) (punx/validate.py:96-99) *)
Definition used_file_set (rj : json_reader) (k : disk) (p : proc) (ref : option pystr) : proc * res fileset :=
  match cache_manager rj k p with
  | (p', Exn e) => (p', Exn e)
  | (p', Ok c) =>
      match ref with
      | None => (p', match cm_default c with Some fs => Ok fs | None => Exn AssertionError end)
      | Some r => match choose (cm_sets c) (Some r) with
                  | Ok fs => (Some (mkCM (cm_sets c) (Some fs)), select (cm_sets c) (Some r))
                  | Exn e => (p', Exn e)
                  end
      end
  end.

(** the property [cm.all_file_sets] (also behind the table of caches and [punx
    validate]) re-reads the directories and stores what it has read so far *)
Definition refresh (rj : json_reader) (k : disk) (p : proc) : proc :=
  match cache_manager rj k p with
  | (p', Exn e) => p'
  | (p', Ok c) =>
      match cache_sets rj (src_path k) [] (src_dir k) with
      | Exn _ => Some (mkCM [] (cm_default c))
      | Ok a => match cache_sets rj (usr_path k) [] (usr_dir k) with
                | Exn _ => Some (mkCM (dupdate [] a) (cm_default c))
                | Ok b => Some (mkCM (dupdate (dupdate [] a) b) (cm_default c))
                end
      end
  end.

(** ** Histories: what a process did with file sets, with the disk at each time *)
Inductive cop := CValidator (ref : option pystr) | CRefresh.
Definition cstep (rj : json_reader) (p : proc) (ko : disk * cop) : proc :=
  match ko with
  | (k, CValidator ref) => fst (used_file_set rj k p ref)
  | (k, CRefresh) => refresh rj k p
  end.
Definition crun (rj : json_reader) (h : list (disk * cop)) : proc := fold_left (cstep rj) h None.

(** ** Small things *)
(** punx/cache_manager.py:100-106 get_short_sha; [full_sha[: n]] *)
Definition SHORT_SHA_LENGTH : nat := 7.
Definition get_short_sha (full_sha : pystr) : pystr := firstn (Nat.min SHORT_SHA_LENGTH (List.length full_sha)) full_sha.

(** punx/cache_manager.py:349-377 table_of_caches: the rows, in ascending order of
    last_modified; [len(None)] and comparing None are TypeErrors; str(None) is "None" *)
Definition str_opt (o : option pystr) : pystr := match o with Some s => s | None => py "None" end.
Fixpoint table_rows (l : dict fileset) : res (list (list pystr)) :=
  match l with
  | [] => Ok []
  | (k, f) :: rest =>
      match i_sha (fs_info f) with
      | None => Exn TypeError
      | Some sha => dor r <- table_rows rest ; Ok ([k; fs_cache f; str_opt (fs_date f); get_short_sha sha; fs_path f] :: r)
      end
  end.
Definition table_of_caches (rj : json_reader) (k : disk) : res (list (list pystr)) :=
  dor sets <- all_file_sets rj k ;
  if Nat.leb 2 (List.length sets) && existsb (fun kf => undated (snd kf)) sets then Exn TypeError
  else table_rows (ssort (fun a b => str_leb (date_text (snd a)) (date_text (snd b))) sets).
