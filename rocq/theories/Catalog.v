(** * Cataloguing a file: punx/validate.py:264-298 and 393-504 *)

From Coq Require Import List NArith ZArith Bool String.
From Verif Require Import PyBase Regex Utf8 H5 Findings Nxdl Core.
Import ListNotations.
Open Scope string_scope.
Open Scope list_scope.

(** punx/validate.py:46 CLASSPATH_OF_NON_NEXUS_CONTENT *)
Definition NON_NEXUS : pystr := "non-NeXus content".

(** punx/utils.py:144-147 isNeXusLink: [len(target)] of a value without length is
    TypeError.  Simplification: comparing a numeric array with the name counts as
    different. *)
Definition isNeXusLink (E : env) (w : world) (h : handle) : res bool :=
  dor t <- (match dget "target" (attrs_of w h) with
            | Some v => decode_byte_string E v
            | None => Ok (VStr [])
            end) ;
  match t with
  | VStr s => Ok (negb (str_eqb s []) && negb (str_eqb s (h_name h)))
  | VList l => Ok (negb (Nat.eqb (List.length l) 0))
  | VArrNum l => Ok (negb (Nat.eqb (List.length l) 0))
  | VArrO _ | VArrS _ | VBytes _ => Ok true  (* not a result of decode_byte_string *)
  | VInt _ | VFloat _ | VNone | VOther _ => Exn TypeError
  end.

(** punx/validate.py:430-444 identify_object_type: only its exceptions matter, the
    value is used for printing *)
Definition identify_object_type (E : env) (w : world) (o : hobj) : res unit :=
  match o with
  | ONode h =>
      match obj_of w h with
      | Some ob => match ob_kind ob with
                   | KDatatype => Ok tt
                   | _ => dor b <- isNeXusLink E w h ; Ok tt
                   end
      | None => Ok tt
      end
  | OVal _ => Ok tt
  end.

(** punx/validate.py:446-504 determine_NeXus_classpath, for an object named
    [name] whose parent has class path [pcp] ([None]: no parent, where Python
    would raise AttributeError); yields the class path and the nx_class attribute *)
Definition determine_NeXus_classpath (E : env) (w : world) (pcp : option pystr) (h : handle) (name : pystr)
  : res (pystr * option pystr) :=
  if str_eqb name slash then Ok ([], None)
  else
    match pcp with
    | None => Exn AttributeError
    | Some classpath =>
        if str_eqb classpath NON_NEXUS then Ok (NON_NEXUS, None)
        else if endswith classpath slash then Ok (classpath, None)
        else if isHdf5Group w h then
          dor nx_class <- (match dget "NX_class" (attrs_of w h) with
                           | Some v => decode_byte_string E v
                           | None => Ok VNone
                           end) ;
          match nx_class with
          | VStr s => if startswith s "NX" then Ok (classpath ++ slash ++ s, Some s)
                      else Ok (NON_NEXUS, None)
          | _ => Ok (NON_NEXUS, None)
          end
        else Ok (classpath ++ slash ++ name, None)
    end.

(** punx/validate.py:397-409 ValidationItem.__init__ of an open object *)
Definition node_item (E : env) (w : world) (parent : option (nat * vitem)) (h : handle) : res vitem :=
  let name := if str_eqb (h_name h) slash then slash else last_part ch_slash (h_name h) in
  dor cn <- determine_NeXus_classpath E w (option_map (fun p => it_cp (snd p)) parent) h name ;
  dor _u <- identify_object_type E w (ONode h) ;
  Ok (mkItem (option_map fst parent) (ONode h) (Some name) (Some (h_name h)) (fst cn) (snd cn) []).

(** ["%s" % addr] and [str(name)] for a value that may be None *)
Definition ostr (o : option pystr) : pystr := match o with Some s => s | None => "None" end.

(** punx/validate.py:397-417 ValidationItem.__init__ of an attribute value *)
Definition attr_item (pi : nat) (p : vitem) (v : pyval) (name : option pystr) : vitem :=
  if str_eqb (it_cp p) NON_NEXUS then
    mkItem (Some pi) (OVal v) name None NON_NEXUS None []
  else
    mkItem (Some pi) (OVal v) name (Some (ostr (it_addr p) ++ [ch_at] ++ ostr name))
           (it_cp p ++ [ch_at] ++ ostr name) None [].

(** punx/validate.py:275-279 addClasspath *)
Definition add_classpath (i : nat) (cp : pystr) : M unit := fun s =>
  (mkSt (st_items s) (st_addr s)
        (dset cp ((match dget cp (st_cp s) with Some l => l | None => [] end) ++ [i]) (st_cp s))
        (st_find s) (st_cache s) (st_classes s), Ok tt).

(** [self.addresses[a] = item] *)
Definition add_address (a : option pystr) (i : nat) : M unit := fun s =>
  (mkSt (st_items s) (aset ostr_eqb a i (st_addr s)) (st_cp s) (st_find s) (st_cache s) (st_classes s), Ok tt).

(** registering one new item (punx/validate.py:282-285, 287-289) *)
Definition register (it : vitem) : M nat :=
  let* i := new_item it in
  add_address (it_addr it) i ;;;
  add_classpath i (it_cp it) ;;;
  ret i.

(** [logger.log(INFORMATIVE, "HDF5 address: " + v.h5_address)] needs text, which a
    node's address always is *)

(** punx/validate.py:281-290 get_subject *)
Definition get_subject (c : ctx) (parent : option nat) (h : handle) : M nat :=
  let* p := (match parent with
             | None => ret None
             | Some pi => let* pit := item pi in ret (Some (pi, pit))
             end) in
  let* it := lift (node_item (c_env c) (c_world c) p h) in
  let* i := register it in
  for_each (fun ka => let* _i := register (attr_item i it (snd ka) (Some (fst ka))) in ret tt)
           (sorted_items (attrs_of (c_world c) h)) ;;;
  ret i.

(** [self.classpaths[obj.classpath][-1]]  (punx/validate.py:293) *)
Definition last_of_classpath (cp : pystr) : M nat := fun s =>
  match dget cp (st_cp s) with
  | Some l => match rev l with
              | i :: _ => (s, Ok i)
              | [] => (s, Exn IndexError)
              end
  | None => (s, Exn KeyError)
  end.

(** punx/validate.py:270-298 _group_address_catalog_.  [fuel] is the number of
    nested calls the interpreter still allows. *)
Fixpoint group_address_catalog (fuel : nat) (c : ctx) (parent : option nat) (group : handle) : M unit :=
  match fuel with
  | O => raise RecursionError
  | S n =>
      let* obj := get_subject c parent group in
      let* it := item obj in
      let* p := last_of_classpath (it_cp it) in
      for_each
        (fun name =>
           let* h := lift (getitem (c_world c) group name) in
           if isHdf5Group (c_world c) h
           then group_address_catalog n c (Some p) h
           else let* _i := get_subject c (Some p) h in ret tt)
        (dkeys (links_of (c_world c) group))
  end.

(** punx/validate.py:264-268 build_address_catalog *)
Definition build_address_catalog (c : ctx) : M unit :=
  group_address_catalog (c_reclimit c) c None (c_root c).
