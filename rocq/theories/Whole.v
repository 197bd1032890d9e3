(** * The whole program, with the files of the caches

    Main.v has the loading of a file set as a parameter.  Here it is done from the
    directories on the disk. *)

From Coq Require Import List NArith ZArith Bool String.
From Verif Require Import PyBase H5 Nxdl NxdlLoad SchemaMgr NxdlSchema Core Validate Cache Install InfoFile Session Cli Main.
Import ListNotations.
Open Scope string_scope.
Open Scope list_scope.

(** what lxml makes of the content of a file: an NXDL file, the children of the root element of a
    schema file (with line numbers), [None] if it cannot be parsed; and the verdict about an NXDL
    document of the schema with this content of nxdl.xsd and nxdlTypes.xsd *)
Record lxml := mkLxml {
  lx_nxdl : pystr -> option xnode;
  lx_schema : pystr -> option (list lnode);
  lx_valid : option pystr -> option pystr -> xnode -> bool
}.

(** recursion limits, see Session.v *)
Record limits := mkLim { lim_schema : nat; lim_summary : nat; lim_walk : nat }.

(** ** Paths *)
(** the components of a path below a directory; none for the directory itself *)
Definition below (dir p : pystr) : option (list pystr) :=
  if str_eqb p dir then Some []
  else if startswith p (dir ++ [ch_slash]) then Some (split ch_slash (skipn (S (List.length dir)) p))
  else None.

(** what [os.path.exists] and [os.listdir] find *)
Definition node_of (t : tree) : fsnode := match t with TFile _ => FSFile | TDir es => FSDir (map fst es) end.
Definition text_of (t : option tree) : option pystr := match t with Some (TFile c) => Some c | _ => None end.

(** ** Loading *)
(** the schema file of this name.  Simplification: one that lxml cannot parse is outside the model. *)
Definition schema_file (L : lxml) (es : entries) (name : pystr) : res (option (list lnode)) :=
  match tget [name] es with
  | None => Ok None
  | Some (TFile c) => match lx_schema L c with Some kids => Ok (Some kids) | None => Exn Unsupported end
  | Some (TDir _) => Exn Unsupported
  end.

(** the directory [path] with content [es], as punx/nxdl_manager.py and punx/schema_manager.py see it *)
Definition files_of (L : lxml) (es : entries) (path : pystr) (nxdl : option (list lnode)) (types : option (list lnode)) : set_dir :=
  mkSD nxdl (option_map (map without_lines) types)
    (fun p => match below path p with Some q => option_map node_of (tget q es) | None => None end)
    (fun p => match below path p with
              | Some q => match text_of (tget q es) with Some c => lx_nxdl L c | None => None end
              | None => None
              end).

(** the directory of a file set.  Simplification: neither cache directory is inside the other. *)
Definition set_entries (k : disk) (path : pystr) : option entries :=
  let sub q d := match tget q d with Some (TDir es) => Some es | _ => None end in
  match below (usr_path k) path with
  | Some q => sub q (usr_dir k)
  | None => match below (src_path k) path with Some q => sub q (src_dir k) | None => None end
  end.

(** punx/validate.py:96-99 Data_File_Validator.__init__ for the content [es] of the directory of a file
    set, in a new process.  The file set is the default one when its NXDL files are checked
    (punx/nxdl_manager.py:79-86, 169), so that the schema is its own. *)
Definition load_entries (L : lxml) (E : env) (lim : limits) (es : entries) (path : pystr) : res (setup * classes) :=
  dor nxdl <- schema_file L es (py "nxdl.xsd") ;
  dor types <- schema_file L es (py "nxdlTypes.xsd") ;
  let valid := lx_valid L (text_of (tget [py "nxdl.xsd"] es)) (text_of (tget [py "nxdlTypes.xsd"] es)) in
  snd (open_file_set E (lim_schema lim) (lim_summary lim) (lim_walk lim) valid (files_of L es path nxdl types) path process_start).

(** the same for a file set of the caches (punx/validate.py:96-99, punx/nxdl_manager.py:70-108) *)
Definition load_set (L : lxml) (E : env) (lim : limits) (k : disk) (fs : fileset) : res (setup * classes) :=
  match set_entries k (fs_path fs) with
  | None => Exn FileNotFound
  | Some es => load_entries L E lim es (fs_path fs)
  end.

(** ** The program *)
(** punx/main.py:434-441; [x_json] and [x_load] of [x] are not used *)
Definition punx (L : lxml) (lim : limits) (x : outside) (k : disk) (w : world) (argv : list pystr)
    : list entries * entries * (list event * res unit) :=
  main (mkOut read_json (load_set L (x_env x) lim k) (x_upper x) (x_env x) (x_type x) (x_views x) (x_fuel x) (x_xml x) (x_xslt x) (x_net x) (x_demo x))
       k w argv.

(** the disk after a command *)
Definition afterwards (k : disk) (r : list entries * entries * (list event * res unit)) : disk :=
  mkDisk (src_path k) (src_dir k) (usr_path k) (snd (fst r)).
