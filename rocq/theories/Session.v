(** * A validator and the files of its file set

    Puts the models of the parts together: the defaults from nxdl.xsd (NxdlSchema), the NXDL
    files (NxdlLoad), the schema manager (SchemaMgr) and the validator (Validate). *)

From Coq Require Import List NArith ZArith Bool String.
From Verif Require Import PyBase H5 Nxdl NxdlLoad SchemaMgr NxdlSchema Core Validate.
Import ListNotations.
Open Scope string_scope.
Open Scope list_scope.

(** a schema file as punx/schema_manager.py sees it: the line numbers do not matter *)
Fixpoint without_lines (n : lnode) : snode :=
  match n with
  | LComment => SComment
  | LN t _ a k => SN t a (map without_lines k)
  end.

(** what a file set directory has: nxdl.xsd and nxdlTypes.xsd, if they are there, the names of
    the files, and the content of those that lxml can parse *)
Record set_dir := mkSD {
  sd_nxdl : option (list lnode);
  sd_types : option (list snode);
  sd_ls : pystr -> option fsnode;
  sd_content : pystr -> option xnode
}.

(** [default_value] of an attribute of the schema, before anything is stored there *)
Definition dflt_of (a : adefault) : dflt := match ad_default a with Some s => DText s | None => DNone end.
(** the three objects that the NXDL loader changes (punx/nxdl_manager.py:196-206, 227-282), and the
    components that it looks for (punx/nxdl_manager.py:511-515, 540-541) *)
Definition defaults_of (su : summary) : defaults :=
  mkDf (option_map dflt_of (attribute_of (su_heap su) (su_attribute su) (py "optional")))
       (option_map dflt_of (attribute_of (su_heap su) (su_field su) (py "minOccurs")))
       (option_map dflt_of (attribute_of (su_heap su) (su_group_attrs su) (py "minOccurs")))
       (is_some (dget (py "dimensions") (kids_of KElement (su_heap su) (su_field su))))
       (match dget (py "dimensions") (kids_of KElement (su_heap su) (su_field su)) with
        | Some i => is_some (dget (py "dim") (kids_of KElement (su_heap su) i))
        | None => false
        end).

(** punx/nxdl_manager.py:75-108 NXDL_Manager.__init__ for a file set in directory [path], with
    get_nxdl_defaults (punx/nxdl_manager.py:122-128).  Without nxdl.xsd the assertion of NXDL__definition
    (punx/nxdl_manager.py:381) fails for the first NXDL file.  [limit] is the recursion limit, [valid] the verdict
    of the XML Schema processor.  Yields the shared defaults as they are in the end, and the classes. *)
Definition nxdl_manager (E : env) (limit : nat) (valid : xnode -> bool) (D : set_dir) (path : pystr) : res (option defaults * classes) :=
  match sd_ls D path with
  | None => Exn FileNotFound
  | Some _ =>
      match sd_nxdl D with
      | None =>
          dor files <- get_NXDL_file_list (sd_ls D) path ;
          match files with [] => Ok (None, []) | _ :: _ => Exn AssertionError end
      | Some kids =>
          dor su <- nxdl_summary E limit kids ;
          match load_manager (sd_ls D) valid (sd_content D) (defaults_of su) path with
          | (d, Ok cl) => Ok (Some d, cl)
          | (_, Exn e) => Exn e
          end
      end
  end.

(** the schema files, for punx/schema_manager.py *)
Definition xsd_of (D : set_dir) : xsd_dir := mkXD (option_map (map without_lines) (sd_nxdl D)) (sd_types D).

(** what punx/validations/application_definition.py:74 compares with 1.  Simplification: a schema
    without minOccurs for fields counts like one with another default (the program raises KeyError
    when it gets to an enumerated field). *)
Definition minOccurs_of (d : option defaults) : option Z :=
  match d with
  | Some (mkDf _ (Some (DInt z)) _ _ _) => Some z
  | _ => None
  end.

(** the manager gets to the check of its first NXDL file (punx/nxdl_manager.py:443): the defaults can
    be read, there is an NXDL file, and lxml can parse the first one *)
Definition first_file_checked (E : env) (limit : nat) (D : set_dir) (path : pystr) : bool :=
  match sd_nxdl D, get_NXDL_file_list (sd_ls D) path with
  | Some kids, Ok (f :: _) => match nxdl_summary E limit kids with Ok _ => is_some (sd_content D f) | Exn _ => false end
  | _, _ => false
  end.

(** punx/validate.py:96-99 Data_File_Validator.__init__ for that file set: what validate() uses.
    [g] is what earlier schemas left in the process (SchemaMgr), [fuel] and [limit] bound the
    recursion when reading the schema, [reclimit] when walking through a data file.  The schema
    manager is made when the first NXDL file is checked (punx/nxdl_manager.py:169,
    punx/schema_manager.py:79-88, punx/cache_manager.py:485-498).  Simplification: a file set without
    NXDL files has it made here too; the program makes it when a name is checked for the first time,
    so that what it raises comes from validate(). *)
Definition open_file_set (E : env) (fuel limit reclimit : nat) (valid : xnode -> bool) (D : set_dir) (path : pystr)
    (g : shared) : shared * res (setup * classes) :=
  let ready d (sm : smanager) := mkSetup E (map (fun kp => (fst kp, sp_res (snd kp))) (SchemaMgr.sm_patterns sm)) reclimit (minOccurs_of d) in
  if first_file_checked E limit D path then
    match schema_manager E fuel (xsd_of D) g with
    | (g', Exn e) => (g', Exn e)
    | (g', Ok sm) => (g', dor dcl <- nxdl_manager E limit valid D path ; Ok (ready (fst dcl) sm, snd dcl))
    end
  else
    match nxdl_manager E limit valid D path with
    | Exn e => (g, Exn e)
    | Ok (d, cl) =>
        match schema_manager E fuel (xsd_of D) g with
        | (g', Exn e) => (g', Exn e)
        | (g', Ok sm) => (g', Ok (ready d sm, cl))
        end
    end.
