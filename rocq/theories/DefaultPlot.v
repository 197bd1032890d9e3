(** * Default plot: punx/validations/default_plot.py *)

From Coq Require Import List NArith ZArith Bool String.
From Verif Require Import PyBase Regex Utf8 H5 Findings Nxdl Core Catalog ItemName AttributeCheck GroupChecks.
Import ListNotations.
Open Scope string_scope.
Open Scope list_scope.

(** default_plot.py:63-73 build_h5_address; [name] is h5_object.name (or, for an
    attribute item, the parent's), [pointer] a raw attribute value *)
Definition build_h5_address (E : env) (name : pystr) (pointer : pyval) : res pystr :=
  dor p <- decode_byte_string E pointer ;
  concat_text (if endswith name slash then name else name ++ slash) p.

(** [v_item.h5_object.name]; the items used here are open objects, an attribute
    value (punx/validations/default_plot.py:65-67: text has no name, the parent's is used) has no [attrs]
    and never gets this far *)
Definition node_name (o : hobj) : res pystr :=
  match o with ONode h => Ok (h_name h) | OVal _ => Exn AttributeError end.

(** default_plot.py:75-83 attribute_points_at_target *)
Definition attribute_points_at_target (c : ctx) (it : vitem) (attribute_name target : pystr) : res bool :=
  dor attrs <- hobj_attrs (c_world c) (it_obj it) ;
  match dget attribute_name attrs with
  | None => Ok false
  | Some pointer =>
      dor name <- node_name (it_obj it) ;
      dor addr <- build_h5_address (c_env c) name pointer ;
      dor present <- hobj_in (c_world c) (VStr addr) (it_obj it) ;
      if present then Ok (str_eqb target addr) else Ok false
  end.

(** [v_item.h5_address.split("@")[0].split("/")] unpacked into three (punx/validations/default_plot.py:93) *)
Definition entry_and_data (addr : option pystr) : res (pystr * pystr) :=
  dor a <- need_text AttributeError addr ;
  match split ch_slash (hd [] (split ch_at a)) with
  | [_; entry; data] => Ok (entry, data)
  | _ => Exn ValueError
  end.

(** punx/validations/default_plot.py:85 *)
Definition T3 : pystr := (py "NeXus default plot v3").

(** outcome of looking at one /NXentry/NXdata@signal (punx/validations/default_plot.py:91-114) *)
Inductive v3step :=
| V3abort                                   (* return None, punx/validations/default_plot.py:105 *)
| V3next (addr : option pystr) (niac : bool).  (* new h5_address if set; on the NIAC2014 path *)

(** punx/validations/default_plot.py:91-114 *)
Definition v3_item (c : ctx) (i : nat) : M v3step :=
  let* it := item i in
  let* ed := lift (entry_and_data (it_addr it)) in
  let '(entry, data) := ed in
  let* di := address_item (Some (slash ++ entry ++ slash ++ data)) in
  let* nxdata := item di in
  let* ei := address_item (Some (slash ++ entry)) in
  let* nxentry := item ei in
  let* ri := address_item (Some slash) in
  let* nxroot := item ri in
  let* attrs := lift (hobj_attrs (c_world c) (it_obj nxdata)) in
  let* ptr := lift (dgetitem (py "signal") attrs) in
  let* name := lift (node_name (it_obj nxdata)) in
  let* signal_h5_addr := lift (build_h5_address (c_env c) name ptr) in
  let* eaddr := lift (need_text AttributeError (it_addr nxentry)) in
  let* daddr := lift (need_text AttributeError (it_addr nxdata)) in
  let* t1 := lift (attribute_points_at_target c nxroot (py "default") eaddr) in
  let* t2 := lift (attribute_points_at_target c nxentry (py "default") daddr) in
  let* t3 := lift (attribute_points_at_target c nxdata (py "signal") signal_h5_addr) in
  if negb t3 then
    record_finding i (T3 ++ (py ", NXdata@signal")) ERROR (py "field described by @signal does not exist") ;;;
    ret V3abort
  else
    let* si := address_item (Some signal_h5_addr) in
    let* sit := item si in
    let t4 := hobj_isdataset (c_world c) (it_obj sit) in
    if t4 then
      record_finding i (T3 ++ (py ", NXdata@signal")) OK (py "correct default plot setup in /NXentry/NXdata") ;;;
      ret (V3next (Some signal_h5_addr) (t1 && t2))
    else ret (V3next None false).

(** the loop of punx/validations/default_plot.py:89-114 and the end, 117-124 *)
Fixpoint v3_loop (c : ctx) (h5_address : option pystr) (niac : list nat) (l : list nat) : M (option pystr) :=
  match l with
  | [] =>
      match niac with
      | [i] =>
          let* it := item i in
          record_finding i (T3 ++ (py " NIAC2014")) OK (py "default plot setup in /NXentry/NXdata") ;;;
          ret (it_addr it)
      | _ => ret h5_address
      end
  | i :: rest =>
      let* r := v3_item c i in
      match r with
      | V3abort => ret None
      | V3next a n =>
          v3_loop c (match a with Some _ => a | None => h5_address end)
                  (if n then niac ++ [i] else niac) rest
      end
  end.

(** [validator.classpaths.get(k, [])] *)
Definition classpath_list (k : pystr) : M (list nat) := fun s =>
  (s, Ok (match dget k (st_cp s) with Some l => l | None => [] end)).

(** default_plot.py:54-124 *)
Definition default_plot_v3 (c : ctx) : M (option pystr) :=
  let* short_list := classpath_list (py "/NXentry/NXdata@signal") in
  v3_loop c None [] short_list.

(** punx/validations/default_plot.py:133 *)
Definition T2 : pystr := (py "NeXus default plot v2").

(** review of one @signal attribute (punx/validations/default_plot.py:137-158); updates review_dict *)
Definition v2_item (c : ctx) (review : list (option pystr * list nat)) (i : nat)
  : M (list (option pystr * list nat)) :=
  let* it := item i in
  let* pit := parent_item it in
  if hobj_isdataset (c_world c) (it_obj pit) then
    let signal := hobj_str (it_obj it) in
    let* addr := lift (need_text TypeError (it_addr it)) in
    if str_eqb signal (py "1") then
      record_finding i (T2 ++ (py ", @signal=1")) OK ((py "found field with @signal=1: ") ++ addr) ;;;
      let* gp := parent_item pit in
      ret (aset ostr_eqb (it_addr gp)
                ((match aget ostr_eqb (it_addr gp) review with Some l => l | None => [] end) ++ [i]) review)
    else
      record_finding i (T2 ++ (py ", @signal!=1")) WARN ((py "found field with @signal!=1: ") ++ addr ++ (py "=") ++ signal) ;;;
      ret review
  else ret review.

(** the loop of punx/validations/default_plot.py:135-158 *)
Fixpoint v2_collect (c : ctx) (review : list (option pystr * list nat)) (l : list nat)
  : M (list (option pystr * list nat)) :=
  match l with
  | [] => ret review
  | i :: rest => let* r := v2_item c review i in v2_collect c r rest
  end.

(** all items under a class path ending in "@signal", in order (punx/validations/default_plot.py:135-137) *)
Definition signal_items (cp : dict (list nat)) : list nat :=
  flat_map (fun kv => if endswith (fst kv) (py "@signal") then snd kv else []) cp.

(** punx/validations/default_plot.py:160-176 *)
Fixpoint v2_decide (addr : option pystr) (review : list (option pystr * list nat)) : M (option pystr) :=
  match review with
  | [] => ret addr
  | (group_name, l) :: rest =>
      match l with
      | [i] =>
          let* it := item i in
          let* pit := parent_item it in
          let* a := lift (need_text TypeError (it_addr it)) in
          record_finding i T2 OK ((py "found plottable data: ") ++ a) ;;;
          v2_decide (it_addr pit) rest
      | i :: _ :: _ =>
          let* it := item i in
          let* pit := parent_item it in
          let* g := lift (need_text TypeError group_name) in
          let* gi := (match it_parent pit with Some gi => ret gi | None => raise AttributeError end) in
          record_finding gi (T2 ++ (py ", multiple @signal=1")) ERROR
            ((py "multiple fields found with @signal=1 in: ") ++ g) ;;;
          v2_decide addr rest
      | [] => v2_decide addr rest
      end
  end.

(** default_plot.py:127-176 *)
Definition default_plot_v2 (c : ctx) : M (option pystr) :=
  let* s := get in
  let* review := v2_collect c [] (signal_items (st_cp s)) in
  v2_decide None review.

(** default_plot.py:179-185: no return statement *)
Definition default_plot_v1 (c : ctx) : M (option pystr) := ret None.

(** status when nothing was found (punx/validations/default_plot.py:37-49); the group object carries
    minOccurs only after base_class_items_in_hdf5_group.py:55 has seen it *)
Definition no_plot_status (cl : classes) : res status :=
  dor d <- dgetitem (py "NXentry") cl ;
  dor g <- dgetitem (py "data") (d_groups d) ;
  let m := match g_minOccurs g with Some z => z | None => 1%Z end in
  Ok (if Z.ltb 0 m then ERROR else NOTE).

(** the loop over the methods, punx/validations/default_plot.py:31-36: the first that gives an address *)
Fixpoint try_methods (l : list (pystr * M (option pystr))) : M (option (pystr * pystr)) :=
  match l with
  | [] => ret None
  | (k, m) :: rest =>
      let* a := m in
      match a with
      | Some addr => ret (Some (k, addr))
      | None => try_methods rest
      end
  end.

(** default_plot.py:20-51 verify *)
Definition default_plot_verify (c : ctx) : M unit :=
  let* obj := address_item (Some slash) in
  let* r := try_methods [(py "v3", default_plot_v3 c); (py "v2", default_plot_v2 c); (py "v1", default_plot_v1 c)] in
  match r with
  | Some (k, addr) => record_finding obj (py "NeXus default plot") OK ((py "found by ") ++ k ++ (py ": ") ++ addr)
  | None =>
      let* s := get in
      let* st := lift (no_plot_status (st_classes s)) in
      record_finding obj (py "NeXus default plot") st (py "no default plot described")
  end.
