(** * Application definitions: punx/validations/application_definition.py *)

From Coq Require Import List NArith ZArith Bool String.
From Verif Require Import PyBase Regex Utf8 H5 Findings Nxdl Core Catalog ItemName AttributeCheck GroupChecks.
Import ListNotations.
Open Scope string_scope.
Open Scope list_scope.

(** [group[name]] on an item's object *)
Definition hobj_getitem (w : world) (o : hobj) (name : pystr) : res handle :=
  match o with
  | ONode h => if is_group_obj w h then getitem w h name else Exn TypeError
  | OVal _ => Exn TypeError
  end.
Definition hobj_getopt (w : world) (o : hobj) (name : pystr) : res (option handle) :=
  match o with
  | ONode h => if is_group_obj w h then getopt w h name else Exn AttributeError
  | OVal _ => Exn AttributeError
  end.

(** [h5_obj[()]] where h5_obj may be None: TypeError (punx/validations/application_definition.py:66) *)
Definition field_value (w : world) (h : option handle) : res pyval :=
  match h with
  | None => Exn TypeError
  | Some h => dor v <- read_data w h ; first_if_array v
  end.

(** the loop of punx/validations/application_definition.py:65-71: which enumeration value was found, if any.  The value
    is read again for each enumeration item. *)
Fixpoint find_enum (E : env) (w : world) (h : option handle) (l : list (option pystr)) : res (option pystr) :=
  match l with
  | [] => Ok None
  | e :: rest =>
      dor v <- field_value w h ;
      dor d <- decode_byte_string E v ;
      match e, d with
      | Some s, VStr t => if str_eqb s t then Ok (Some s) else find_enum E w h rest
      | _, _ => find_enum E w h rest
      end
  end.

(** [" | ".join(spec.enumerations)]: TypeError if an item is None *)
Definition join_enums (l : list (option pystr)) : res pystr :=
  rmap (join (py " | ")) (traverse (need_text TypeError) l).

(** ValidationItem(v_item, h5_obj) of punx/validations/application_definition.py:60; h5_obj None is treated as an
    attribute without a name *)
Definition field_item (E : env) (w : world) (pi : nat) (p : vitem) (h : option handle) : res vitem :=
  match h with
  | Some h => node_item E w (Some (pi, p)) h
  | None => Ok (attr_item pi p VNone None)
  end.

(** one field of the definition (punx/validations/application_definition.py:52-87).  [spec.xml_attributes["minOccurs"]]
    is the object all fields share; see NxdlLoad.  It is only read for a field
    with enumerations. *)
Definition ad_field (c : ctx) (i : nat) (it : vitem) (ad_name : pystr) (fs : pystr * nxfield) : M unit :=
  let field := fst fs in
  let spec := snd fs in
  let* h := lift (hobj_getopt (c_world c) (it_obj it) field) in
  let* vi := lift (field_item (c_env c) (c_world c) i it h) in
  let* v_obj := new_item vi in
  record_finding v_obj (py "NXDL field") (TF_RESULT (is_some h))
    (ad_name ++ (py ":") ++ field ++ (if is_some h then [] else (py " not")) ++ (py " found")) ;;;
  match nf_enums spec with
  | [] => ret tt
  | enums =>
      let* found := lift (find_enum (c_env c) (c_world c) h enums) in
      let req := match c_field_minOccurs c with Some z => Z.eqb z 1 | None => false end in
      let msg := ad_name ++ (py ":") ++ field ++ (if req then (py " (required)") else (py " (optional)")) in
      match found with
      | Some e => record_finding v_obj (py "NXDL field enumerations") OK (msg ++ (py " has expected value: ") ++ e)
      | None =>
          let* txt := lift (join_enums enums) in
          record_finding v_obj (py "NXDL field enumerations") ERROR (msg ++ (py " does not have value: ") ++ txt)
      end
  end.

(** [str(utils.decode_byte_string(item))] of the definition field (punx/validations/application_definition.py:22-25) *)
Definition definition_name (c : ctx) (it : vitem) : res pystr :=
  dor h <- hobj_getitem (c_world c) (it_obj it) (py "definition") ;
  dor v <- read_data (c_world c) h ;
  dor v0 <- first_if_array v ;
  dor d <- decode_byte_string (c_env c) v0 ;
  Ok (py_str d).

(** punx/validations/application_definition.py:18-87 verify *)
Definition application_definition_verify (c : ctx) (i : nat) : M unit :=
  let* it := item i in
  let* ad_name := lift (definition_name c it) in
  let* s := get in
  let ad := dget ad_name (st_classes s) in
  record_finding i (py "known NXDL") (TF_RESULT (is_some ad))
    (ad_name ++ (py ": ") ++ (if is_some ad then [] else (py "un")) ++ (py "recognized NXDL specification")) ;;;
  match ad with
  | None => ret tt
  | Some d =>
      let key := py "NeXus application definition" in
      (if str_eqb (d_category d) (py "applications") then
         record_finding i key OK (ad_name ++ (py ": known NeXus application definition"))
       else if str_eqb (d_category d) (py "contributed_definitions") then
         record_finding i key OK (ad_name ++ (py ": known NeXus contributed definition used as application definition"))
       else
         record_finding i key ERROR (ad_name ++ (py ": unknown application definition"))) ;;;
      record_finding i key TODO (ad_name ++ (py ": more validations needed")) ;;;
      match d_groups d with
      | [] => raise IndexError
      | (_, entry) :: _ => for_each (ad_field c i it ad_name) (g_fields entry)
      end
  end.
