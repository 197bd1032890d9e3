(** * Attribute checks: punx/validations/attribute.py *)

From Coq Require Import List NArith ZArith Bool String.
From Verif Require Import PyBase Regex Utf8 H5 Findings Nxdl Core Catalog ItemName.
Import ListNotations.
Open Scope string_scope.
Open Scope list_scope.

(** punx/validations/attribute.py:16 TEST_NAME *)
Definition ATTR_TEST : pystr := (py "attribute value").

(** punx/validations/attribute.py:32-55 isBaseClassNXDL *)
Definition isBaseClassNXDL (d : nxdef) : bool :=
  if str_eqb (d_category d) (py "base_classes") then true
  else if str_eqb (d_category d) (py "applications") then false
  else if str_eqb (d_category d) (py "contributed_definitions") then
    match dget (py "entry") (d_groups d) with
    | None => true
    | Some g => negb (dmem (py "definition") (g_fields g))
    end
  else false.

(** status and comment from a match key (attribute.py:70-77, 132-139) *)
Definition name_verdict (k : option pystr) : status * pystr :=
  match k with
  | None => (ERROR, py "not a valid NeXus name")
  | Some k => if startswith k (py "strict") then (OK, k) else (NOTE, k)
  end.

(** [obj.get(name)] where only a group has [get] *)
Definition hobj_get (w : world) (o : hobj) (v : pyval) : res bool :=
  match o with
  | ONode h =>
      if is_group_obj w h then
        match v with
        | VStr s => rmap is_some (getopt w h s)
        | _ => Exn TypeError
        end
      else Exn AttributeError
  | OVal _ => Exn AttributeError
  end.

(** one axis (attribute.py:66-89); only text gets past the name match *)
Definition axis_check (c : ctx) (i : nat) (pobj : hobj) (o : hobj) : M unit :=
  let* k := validItemName_match_key c o in
  let '(st, txt) := name_verdict k in
  record_finding i ((py "valid name @axes['") ++ hobj_str o ++ (py "']")) st txt ;;;
  match o with
  | OVal a =>
      let* found := lift (hobj_get (c_world c) pobj a) in
      record_finding i ((py "axes['") ++ hobj_str o ++ (py "'] exists")) (TF_RESULT found)
        (if found then (py "found field for named axis") else (py "did not find field for named axis"))
  | ONode _ => raise TypeError
  end.

(** the object of the parent item; an attribute always has one *)
Definition parent_item (it : vitem) : M vitem :=
  match it_parent it with
  | Some pi => item pi
  | None => raise AttributeError
  end.

(** the values iterated over by attribute.py:61-66 *)
Definition axes_values (o : hobj) : list hobj :=
  match o with
  | OVal (VList l) => map (fun s => OVal (VStr s)) l
  | OVal (VArrNum l) => map (fun r => OVal (VFloat r)) l
  | _ => [o]
  end.

(** punx/validations/attribute.py:58-92 axes_handler *)
Definition axes_handler (c : ctx) (i : nat) : M unit :=
  let* it := item i in
  let* ax := lift (decode_obj (c_env c) (it_obj it)) in
  let* pit := parent_item it in
  for_each (fun a => axis_check c i (it_obj pit) a) (axes_values ax) ;;;
  record_finding i ATTR_TEST TODO (py "implement").

(** punx/validations/attribute.py:95-109 nxclass_handler.  A value that is not
    text is unhashable or fails in the concatenation: TypeError either way. *)
Definition nxclass_handler (c : ctx) (i : nat) : M unit :=
  let* it := item i in
  let* v := lift (decode_obj (c_env c) (it_obj it)) in
  let* s := get in
  match v with
  | OVal (VStr nx_class) =>
      match dget nx_class (st_classes s) with
      | None => record_finding i ATTR_TEST ERROR ((py "not a recognized NXDL class: ") ++ nx_class)
      | Some d =>
          if isBaseClassNXDL d
          then record_finding i ATTR_TEST OK ((py "recognized NXDL base class: ") ++ nx_class)
          else record_finding i ATTR_TEST ERROR ((py "incorrect use of @NX_class attribute: ") ++ nx_class)
      end
  | _ => raise TypeError
  end.

(** punx/validations/attribute.py:201-205 generic_handler; [v_item.name.endswith]
    needs text *)
Definition generic_handler (c : ctx) (i : nat) : M unit :=
  record_finding i ATTR_TEST TODO (py "implement").

(** [int(v)] for the values for which [str(v).isdigit()] may hold *)
Definition py_int (E : env) (o : hobj) : res Z :=
  match o with
  | OVal (VStr s) => py_int_text E s
  | OVal (VInt z) => Ok z
  | OVal (VFloat r) => py_int_text E r
  | _ => Exn TypeError
  end.

(** punx/validations/attribute.py:112-151 signal_handler *)
Definition signal_handler (c : ctx) (i : nat) : M unit :=
  let* it := item i in
  let* signal := lift (decode_obj (c_env c) (it_obj it)) in
  let* pit := parent_item it in
  if hobj_isdataset (c_world c) (it_obj pit) then
    let* one := (if py_isdigit (c_env c) (hobj_str signal)
                 then let* n := lift (py_int (c_env c) signal) in ret (Z.eqb n 1)
                 else ret false) in
    (if one then record_finding i ATTR_TEST OK (py "found plottable data marker")
     else record_finding i ATTR_TEST NOTE ((py "@signal=") ++ hobj_str signal))
  else if hobj_isgroup (c_world c) (it_obj pit) then
    let* k := validItemName_match_key c signal in
    match signal with
    | OVal v =>
        let* test_name := lift (concat_text (py "valid name @signal=") v) in
        let '(st, txt) := name_verdict k in
        record_finding i test_name st txt ;;;
        let* test := lift (hobj_in (c_world c) v (it_obj pit)) in
        let* cmt := lift (concat_text ((if test then py "found" else py "not found") ++ (py ": @signal=")) v) in
        record_finding i ATTR_TEST (TF_RESULT test) cmt
    | ONode _ => raise TypeError
    end
  else generic_handler c i.

(** the loop of target_handler over path components (attribute.py:164-177);
    [true]: went through *)
Fixpoint target_parts (c : ctx) (i : nat) (addr : pystr) (parts : list pystr) : M bool :=
  match parts with
  | [] => ret true
  | p :: rest =>
      let* k := match_key_text c p in
      match k with
      | None =>
          record_finding i ATTR_TEST ERROR (py "value must match with a NeXus validItemName") ;;; ret false
      | Some _ =>
          let addr' := addr ++ slash ++ p in
          let* found := lift (py_in (c_world c) (c_root c) (VStr addr')) in
          if found then target_parts c i addr' rest
          else
            record_finding i ATTR_TEST ERROR ((py "partial HDF5 address not found in file: ") ++ addr') ;;;
            ret false
      end
  end.

(** punx/validations/attribute.py:154-183 target_handler; only text has
    [startswith] *)
Definition target_handler (c : ctx) (i : nat) : M unit :=
  let* it := item i in
  let* t := lift (decode_obj (c_env c) (it_obj it)) in
  match t with
  | OVal (VStr target) =>
      if negb (startswith target slash) then
        record_finding i ATTR_TEST ERROR (py "value be must absolute HDF5 address, start with ""/""")
      else
        let* through := target_parts c i [] (split ch_slash (tl target)) in
        if through then
          let* test := lift (py_in (c_world c) (c_root c) (VStr target)) in
          record_finding i ATTR_TEST (TF_RESULT test)
            ((if test then py "found" else py "not found") ++ (py ": @target=") ++ target)
        else ret tt
  | _ => raise AttributeError
  end.

(** punx/validations/attribute.py:19-28 verify, with HANDLER_DICT (209-218): all
    names not listed, and "default", "axis", "primary", "units", go to
    generic_handler *)
Definition attribute_verify (c : ctx) (i : nat) : M unit :=
  let* it := item i in
  match it_addr it with
  | None => ret tt
  | Some a =>
      if negb (has_char ch_at a) then ret tt
      else
        match it_name it with
        | None => raise AttributeError
        | Some n =>
            if str_eqb n (py "NX_class") then nxclass_handler c i
            else if str_eqb n (py "target") then target_handler c i
            else if str_eqb n (py "signal") then signal_handler c i
            else if str_eqb n (py "axes") then axes_handler c i
            else generic_handler c i
        end
  end.
