(** * Group checks

    punx/validate.py:310-345 validate_group, 360-390 usedAsBaseClass,
    punx/validations/nx_class_attribute.py,
    punx/validations/hdf5_group_items_in_base_class.py,
    punx/validations/base_class_items_in_hdf5_group.py. *)

From Coq Require Import List NArith ZArith Bool String.
From Verif Require Import PyBase Regex Utf8 H5 Findings Nxdl Core Catalog ItemName AttributeCheck.
Import ListNotations.
Open Scope string_scope.
Open Scope list_scope.

(** punx/validate.py:360-390 usedAsBaseClass.  [nxdl_def.groups.values()[0]] is
    TypeError in Python 3: a dict view cannot be indexed. *)
Definition usedAsBaseClass (cl : classes) (nx_class : pystr) : res bool :=
  match dget nx_class cl with
  | None => Ok false
  | Some d =>
      if str_eqb (d_category d) (py "applications") then Ok false
      else if str_eqb (d_category d) (py "base_classes") then Ok true
      else if Nat.eqb (List.length (d_fields d)) 0
              && Nat.eqb (List.length (d_links d)) 0
              && Nat.eqb (List.length (d_groups d)) 1
      then Exn TypeError
      else Ok true
  end.

(** punx/validations/nx_class_attribute.py:15-39 *)
Definition validate_NX_class_attribute (i : nat) (nx_class : pystr) : M unit :=
  let* s := get in
  let known := dmem nx_class (st_classes s) in
  record_finding i (py "known NXDL") (TF_RESULT known) (nx_class ++ (py ": recognized NXDL specification")) ;;;
  if known then
    let* as_base := lift (usedAsBaseClass (st_classes s) nx_class) in
    let* d := lift (dgetitem nx_class (st_classes s)) in
    record_finding i (py "NeXus base class") (TF_RESULT as_base)
      (nx_class ++ (if str_eqb (d_category d) (py "base_classes") then (py ": known NeXus base class")
                    else (py ": known NeXus contributed definition used as base class")))
  else ret tt.

(** [validator.addresses[a]] *)
Definition address_item (a : option pystr) : M nat := fun s =>
  match aget ostr_eqb a (st_addr s) with
  | Some i => (s, Ok i)
  | None => (s, Exn KeyError)
  end.

(** [c += "/"] unless it ends with one (hdf5_group_items_in_base_class.py:33-34,
    base_class_items_in_hdf5_group.py:32-33) *)
Definition with_slash (c : pystr) : pystr := if endswith c slash then c else c ++ slash.

(** punx/validations/hdf5_group_items_in_base_class.py:23-36 child_exists *)
Definition child_exists (c : ctx) (test_name : pystr) (v : pyval) (it : vitem) (ai : nat) : M unit :=
  let* found := lift (hobj_in (c_world c) v (it_obj it)) in
  let* addr := lift (need_text TypeError (it_addr it)) in
  let* cmt := lift (concat_text (with_slash ((if found then (py "found") else (py "not found")) ++ (py ": ") ++ addr)) v) in
  record_finding ai test_name (TF_RESULT found) cmt.

(** [v in spec.enumerations].  Simplification: an array of numbers counts as different
    from each text. *)
Definition in_enums (v : pyval) (l : list pystr) : bool :=
  match v with VStr s => existsb (str_eqb s) l | _ => false end.

(** one attribute of a group (hdf5_group_items_in_base_class.py:52-116).
    ValidationItem has no attribute [manager] (punx/validations/hdf5_group_items_in_base_class.py:98): AttributeError. *)
Definition group_attribute (c : ctx) (i : nat) (d : nxdef) (kv : pystr * pyval) : M unit :=
  let* it := item i in
  let k := fst kv in
  let* v := lift (decode_byte_string (c_env c) (snd kv)) in
  let known := dmem k (d_attrs d) in
  let* addr := lift (need_text TypeError (it_addr it)) in
  let* ai := address_item (Some (addr ++ [ch_at] ++ k)) in
  record_finding ai (py "known attribute") OK
    ((if negb known && negb (str_eqb k (py "NX_class")) then (py "unknown") else (py "known"))
       ++ (py ": ") ++ d_title d ++ (py "@") ++ k) ;;;
  match dget k (d_attrs d) with
  | None => ret tt
  | Some spec =>
      (match na_enums spec with
       | [] => ret tt
       | enums =>
           let m := in_enums v enums in
           let* cmt := lift (concat_text ((if m then (py "found") else (py "not found")) ++ (py ": ")) v) in
           record_finding ai (py "attribute value enumeration") (TF_RESULT m) cmt
       end) ;;;
      if str_eqb k (py "default")
         && (str_eqb (it_cp it) [] || str_eqb (it_cp it) (py "/NXentry") || str_eqb (it_cp it) (py "/NXentry/NXsubentry"))
      then child_exists c (py "value of @default") v it ai
      else if str_eqb k (py "signal") then child_exists c (py "value of @signal") v it ai
      else if str_eqb k (py "target") then raise AttributeError
      else if str_eqb k (py "axes") then ret tt
      else record_finding ai ((py "value of @") ++ k) TODO
             ((py "TODO: need to validate") ++ (py ": @") ++ k ++ (py " = ") ++ py_str v)
  end.

(** punx/validations/hdf5_group_items_in_base_class.py:39-116 *)
Definition verify_group_attributes (c : ctx) (i : nat) (d : nxdef) : M unit :=
  let* it := item i in
  let* attrs := lift (hobj_attrs (c_world c) (it_obj it)) in
  for_each (group_attribute c i d) (sorted_items attrs).

(** one child of a group (hdf5_group_items_in_base_class.py:122-148) *)
Definition group_child (c : ctx) (h : handle) (d : nxdef) (name : pystr) : M unit :=
  let* obj := lift (getitem (c_world c) h name) in
  let* si := address_item (Some (h_name obj)) in
  if isHdf5Dataset (c_world c) obj then
    record_finding si (py "field in base class") OK
      ((if dmem name (d_fields d) then (py "defined: ") else (py "not defined: ")) ++ d_title d ++ (py "/") ++ name)
  else if isHdf5Group (c_world c) obj then
    record_finding si (py "group in base class") OK
      ((if dmem name (d_groups d) then (py "defined: ") else (py "not defined: ")) ++ d_title d ++ (py "/") ++ name)
  else record_finding si (py "unhandled: group_items_in_base_class") TODO (py "TODO: ").

(** punx/validations/hdf5_group_items_in_base_class.py:119-148; only a group can be
    iterated like this, and only groups come here *)
Definition verify_group_children (c : ctx) (i : nat) (d : nxdef) : M unit :=
  let* it := item i in
  match it_obj it with
  | ONode h => for_each (group_child c h d) (dkeys (links_of (c_world c) h))
  | OVal _ => raise TypeError
  end.

(** one NXDL field (base_class_items_in_hdf5_group.py:22-35) *)
Definition base_field (c : ctx) (i : nat) (it : vitem) (name : pystr) : M unit :=
  let* found := lift (hobj_in (c_world c) (VStr name) (it_obj it)) in
  let* addr := lift (need_text TypeError (it_addr it)) in
  record_finding i (py "NXDL field in data file") (if found then OK else OPTIONAL)
    (with_slash ((if found then (py "found") else (py "not found")) ++ (py ": ") ++ addr) ++ name).

(** [group_object.minOccurs = minOccurs] on the shared NXDL object
    (base_class_items_in_hdf5_group.py:55) *)
Definition store_minOccurs (title name : pystr) (z : Z) : M unit := fun s =>
  (set_classes s
     (match dget title (st_classes s) with
      | Some d =>
          match dget name (d_groups d) with
          | Some g => dset title (set_d_groups d (dset name (set_minOccurs z g) (d_groups d))) (st_classes s)
          | None => st_classes s
          end
      | None => st_classes s
      end), Ok tt).

(** [int(group_object.attributes.get("minOccurs", 0))]
    (base_class_items_in_hdf5_group.py:51-54); NXDL__definition objects have no
    attribute "definition", so the default stays 0; [int] of an NXDL__attribute
    object is TypeError *)
Definition minOccurs_of (E : env) (g : nxgroup) : res Z :=
  match dget (py "minOccurs") (g_attrs g) with
  | None => Ok 0%Z
  | Some (GAText s) => py_int_text E s
  | Some (GAObj _) => Exn TypeError
  end.

(** one NXDL group (base_class_items_in_hdf5_group.py:38-55); [cls] is the key of
    the class in manager.classes *)
Definition base_group (c : ctx) (i : nat) (it : vitem) (cls : pystr) (ng : pystr * nxgroup) : M unit :=
  let* found := lift (hobj_in (c_world c) (VStr (fst ng)) (it_obj it)) in
  let* addr := lift (need_text TypeError (it_addr it)) in
  record_finding i (py "NXDL group in data file") (if found then OK else OPTIONAL)
    ((if found then (py "found: ") else (py "not found: ")) ++ (py " in ") ++ addr ++ (py "/") ++ fst ng) ;;;
  let* z := lift (minOccurs_of (c_env c) (snd ng)) in
  store_minOccurs cls (fst ng) z.

(** punx/validations/base_class_items_in_hdf5_group.py:16-60 verify *)
Definition base_class_items_verify (c : ctx) (i : nat) (cls : pystr) (d : nxdef) : M unit :=
  let* it := item i in
  for_each (base_field c i it) (sorted_strs (dkeys (d_fields d))) ;;;
  for_each (base_group c i it cls) (sorted_items (d_groups d)).

(** punx/validate.py:319-326: the class to check a group against *)
Definition group_class (it : vitem) : res pystr :=
  if startswith (it_cp it) (py "/NX") then need_text AttributeError (it_nxclass it)
  else if str_eqb (it_cp it) [] then Ok (py "NXroot")
  else Exn ValueError.

(** punx/validate.py:310-345 validate_group *)
Definition validate_group (c : ctx) (i : nat) : M unit :=
  let* it := item i in
  if str_eqb (it_cp it) NON_NEXUS then record_finding i (py "NeXus_group") OK (py "not a NeXus group")
  else
    let* nx_class := lift (group_class it) in
    validate_NX_class_attribute i nx_class ;;;
    let* s := get in
    match dget nx_class (st_classes s) with
    | None => record_finding i (py "NeXus base class") ERROR ((py "unknown NeXus base class: ") ++ nx_class)
    | Some d =>
        verify_group_attributes c i d ;;;
        verify_group_children c i d ;;;
        base_class_items_verify c i nx_class d ;;;
        record_finding i (py "NeXus base class") TODO (nx_class ++ (py ": more validations needed"))
    end.
