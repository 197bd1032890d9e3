(** * Validators made from file set objects

    Data_File_Validator and NXDL_Manager take nothing, a name or an NXDL_File_Set.  NXDL files are
    checked against the schema of the default file set of the one CacheManager, which for a file set
    object need not be its own. *)

From Coq Require Import List NArith ZArith Bool String.
From Verif Require Import PyBase H5 Nxdl NxdlLoad SchemaMgr NxdlSchema Core Validate Cache Install InfoFile Session Whole.
Import ListNotations.
Open Scope string_scope.
Open Scope list_scope.

(** the argument of Data_File_Validator (punx/validate.py:96-99) and NXDL_Manager
    (punx/nxdl_manager.py:75) *)
Inductive set_arg := ArgNone | ArgName (n : pystr) | ArgSet (fs : fileset).

(** punx/nxdl_manager.py:75-108 for the file set [fs], when the default file set [dfl] is another one:
    [dfl] is called when the first NXDL file is checked (punx/nxdl_manager.py:161-176, 443; punx/schema_manager.py:79-88).
    A default file set whose directory is gone has no schema manager (punx/cache_manager.py:485-498).
    Simplification as in Session.v: the schema manager of [fs] itself is made here, not when the first
    name is checked. *)
Definition load_object (L : lxml) (E : env) (lim : limits) (k : disk) (fs : fileset) (dfl : res fileset) : res (setup * classes) :=
  match set_entries k (fs_path fs) with
  | None => Exn FileNotFound
  | Some es =>
      dor nxdl <- schema_file L es (py "nxdl.xsd") ;
      dor types <- schema_file L es (py "nxdlTypes.xsd") ;
      let D := files_of L es (fs_path fs) nxdl types in
      dor gv <-
        (if first_file_checked E (lim_summary lim) D (fs_path fs) then
           dor d <- dfl ;
           match set_entries k (fs_path d) with
           | None => Exn AttributeError
           | Some es' =>
               dor nxdl' <- schema_file L es' (py "nxdl.xsd") ;
               dor types' <- schema_file L es' (py "nxdlTypes.xsd") ;
               match schema_manager E (lim_schema lim) (xsd_of (files_of L es' (fs_path d) nxdl' types')) process_start with
               | (_, Exn e) => Exn e
               | (g, Ok _) => Ok (g, lx_valid L (text_of (tget [py "nxdl.xsd"] es')) (text_of (tget [py "nxdlTypes.xsd"] es')))
               end
           end
         else Ok (process_start, fun _ => false)) ;
      dor dcl <- nxdl_manager E (lim_summary lim) (snd gv) D (fs_path fs) ;
      dor sm <- snd (schema_manager E (lim_schema lim) (xsd_of D) (fst gv)) ;
      Ok (mkSetup E (map (fun kp => (fst kp, sp_res (snd kp))) (SchemaMgr.sm_patterns sm)) (lim_walk lim) (minOccurs_of (fst dcl)), snd dcl)
  end.

(** punx/nxdl_manager.py:75-90, and the validator.  Simplifications: in a process that has read no
    schema yet; a file set object in the directory of the default file set counts as the default one;
    the CacheManager is made even if there is no NXDL file to check. *)
Definition make_validator (L : lxml) (E : env) (lim : limits) (k : disk) (p : proc) (a : set_arg) : proc * res (fileset * (setup * classes)) :=
  let by_ref ref :=
    match used_file_set read_json k p ref with
    | (p', Exn e) => (p', Exn e)
    | (p', Ok fs) => (p', dor ucl <- load_set L E lim k fs ; Ok (fs, ucl))
    end in
  match a with
  | ArgNone => by_ref None
  | ArgName n => by_ref (Some n)
  | ArgSet fs =>
      let '(p', r) := cache_manager read_json k p in
      let dfl := dor c <- r ; match cm_default c with Some d => Ok d | None => Exn AssertionError end in
      match dfl with
      | Ok d => (p', dor ucl <- (if str_eqb (fs_path fs) (fs_path d) then load_set L E lim k fs else load_object L E lim k fs dfl) ; Ok (fs, ucl))
      | Exn _ => (p', dor ucl <- load_object L E lim k fs dfl ; Ok (fs, ucl))
      end
  end.
