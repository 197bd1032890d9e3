(** * Name checks: punx/validations/item_name.py *)

From Coq Require Import List NArith ZArith Bool String.
From Verif Require Import PyBase Regex Utf8 H5 Findings Nxdl Core Catalog.
Import ListNotations.
Open Scope string_scope.
Open Scope list_scope.

(** punx/validate.py:47 VALIDITEMNAME_STRICT_PATTERN *)
Definition STRICT_PATTERN : pystr := (py "[a-z_][a-z0-9_]*").

(** punx/validations/item_name.py:23 *)
Definition TEST_NAME : pystr := (py "validItemName").

(** punx/validations/item_name.py:136-149 getValidItemNamePatterns: an ordered
    dictionary from a description to the pattern *)
Definition getValidItemNamePatterns (c : ctx) : dict pystr :=
  let start := dset ((py "strict pattern: ") ++ STRICT_PATTERN) STRICT_PATTERN [] in
  match dget (py "validItemName") (c_patterns c) with
  | Some l => fold_left (fun d p => dset ((py "relaxed pattern: ") ++ p) p d) l start
  | None => start
  end.

(** one cache lookup, compiling on a miss (item_name.py:113-115, 157-158) *)
Definition cached_regexp (k p : pystr) : M compiled := fun s =>
  match dget k (st_cache s) with
  | Some r => (s, Ok r)
  | None =>
      match re_compile p with
      | Ok r => (set_cache s (dset k r (st_cache s)), Ok r)
      | Exn e => (s, Exn e)
      end
  end.

(** [regexp.match(s)]: TypeError when [s] is not text *)
Definition match_value (E : env) (r : compiled) (o : hobj) : res bool :=
  match o with
  | OVal (VStr s) => Ok (re_matches (e_uw E) r s)
  | _ => Exn TypeError
  end.

(** the loop shared by item_name.py:112-121 and 156-164: try patterns in order,
    return the first entry that matches *)
Fixpoint first_match (c : ctx) (o : hobj) (pats : dict pystr) : M (option (pystr * pystr)) :=
  match pats with
  | [] => ret None
  | (k, p) :: rest =>
      let* r := cached_regexp k p in
      let* s := lift (decode_obj (c_env c) o) in
      let* m := lift (match_value (c_env c) r s) in
      if m then ret (Some (k, p)) else first_match c o rest
  end.

(** punx/validations/item_name.py:152-164 validItemName_match_key *)
Definition validItemName_match_key (c : ctx) (o : hobj) : M (option pystr) :=
  let* m := first_match c o (getValidItemNamePatterns c) in
  ret (option_map fst m).

(** the same for a text (punx/validations/item_name.py:152-164) *)
Definition match_key_text (c : ctx) (s : pystr) : M (option pystr) :=
  validItemName_match_key c (OVal (VStr s)).

(** patterns of handle_NX_class, item_name.py:104-108; keys carry the position *)
Fixpoint enum_patterns (i : nat) (l : list pystr) : dict pystr :=
  match l with
  | [] => []
  | p :: l' => ((py "validNXClassName") ++ (py "-") ++ str_nat i, p) :: enum_patterns (S i) l'
  end.

(** punx/validations/item_name.py:102-122 handle_NX_class.  The comment uses the
    loop variable after the loop: the last pattern tried; no pattern at all is
    UnboundLocalError. *)
Definition handle_NX_class (c : ctx) (i : nat) : M unit :=
  let* it := item i in
  let* l := lift (dgetitem (py "validNXClassName") (c_patterns c)) in
  let pats := enum_patterns 0 l in
  let* m := first_match c (it_obj it) pats in
  match m with
  | Some (k, p) => record_finding i TEST_NAME OK ((py "pattern: ") ++ p)
  | None =>
      match rev l with
      | p :: _ => record_finding i TEST_NAME ERROR ((py "pattern: ") ++ p)
      | [] => raise UnboundLocalError
      end
  end.

(** [validItemName_match_key(validator, v_item.name)]; the name of a catalogued
    item is text *)
Definition match_key_name (c : ctx) (name : option pystr) : M (option pystr) :=
  match name with
  | Some n => match_key_text c n
  | None => validItemName_match_key c (OVal VNone)
  end.

(** punx/validations/item_name.py:125-133 handle_any_attribute (called without a
    key): the same effect as record_finding with TEST_NAME *)
Definition handle_any_attribute (c : ctx) (i : nat) : M unit :=
  let* it := item i in
  let* k := match_key_name c (it_name it) in
  record_finding i TEST_NAME (TF_RESULT (is_some k))
    (match k with Some k => k | None => (py "no matching pattern found") end).

(** punx/validations/item_name.py:167-184 handle_groups_and_fields.  The
    UnicodeDecodeError handler is left out: the name is text, so the decoding in
    validItemName_match_key cannot fail. *)
Definition handle_groups_and_fields (c : ctx) (i : nat) : M unit :=
  let* it := item i in
  let* k := match_key_name c (it_name it) in
  if contains_sub (it_cp it) (py "NXcollection") then
    record_finding i TEST_NAME WARN (py "NXcollection contains non-NeXus content")
  else
    match k with
    | None => record_finding i TEST_NAME ERROR (py "valid HDF5 item name, not valid with NeXus")
    | Some k => if startswith k (py "strict") then record_finding i TEST_NAME OK k
                else record_finding i TEST_NAME NOTE k
    end.

(** punx/validations/item_name.py:29-40 isNeXusLinkTarget.  Simplification: a @target that is
    an array of numbers counts as different from the name. *)
Definition isNeXusLinkTarget (c : ctx) (it : vitem) : res bool :=
  dor attrs <- hobj_attrs (c_world c) (it_obj it) ;
  match dget (py "target") attrs with
  | None => Ok false
  | Some v =>
      dor t <- decode_byte_string (c_env c) v ;
      match t, it_addr it with
      | VStr s, Some a => Ok (negb (str_eqb s a))
      | VNone, None => Ok false
      | _, _ => Ok true
      end
  end.

(** utils.isHdf5Link on an item's object (an attribute value has no [parent]) *)
Definition hobj_islink (w : world) (o : hobj) : res bool :=
  match o with ONode h => isHdf5Link w h | OVal _ => Ok false end.

(** the test of item_name.py:85-90.  [isHdf5ExternalLink(v_item.parent, v_item.name)]
    is given a ValidationItem, so it is always False. *)
Definition is_named_object (c : ctx) (o : hobj) : res bool :=
  if hobj_isdataset (c_world c) o || hobj_isgroup (c_world c) o then Ok true
  else hobj_islink (c_world c) o.

(** [v_item.name in v_item.validations] *)
Definition name_done (it : vitem) : bool :=
  match it_name it with Some n => dmem n (it_vals it) | None => false end.

(** punx/validations/item_name.py:43-99 verify *)
Definition item_name_verify (c : ctx) (i : nat) : M unit :=
  let* it := item i in
  match it_parent it with
  | None => ret tt
  | Some pi =>
      if name_done it then ret tt
      else if (match it_addr it with Some a => endswith a (py "@NX_class") | None => false end)
      then handle_NX_class c i
      else if has_char ch_at (it_cp it) then
        let* pit := item pi in
        let* lt := lift (isNeXusLinkTarget c pit) in
        if lt then ret tt else handle_any_attribute c i
      else
        let* b := lift (is_named_object c (it_obj it)) in
        if b then handle_groups_and_fields c i
        else if str_eqb (it_cp it) NON_NEXUS then ret tt
        else record_finding i TEST_NAME TODO (py "not handled yet")
  end.
