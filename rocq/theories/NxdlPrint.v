(** * The text of the summary of nxdl.xsd: str() of its objects and print_tree
    Line numbers are those of punx/nxdl_schema.py. *)

From Coq Require Import List NArith ZArith Bool String.
From Verif Require Import PyBase H5 SchemaMgr NxdlSchema.
Import ListNotations.
Open Scope string_scope.
Open Scope list_scope.

(** the name of the class of an object, and the part of it after the last underscore (646, 649) *)
Definition class_name (k : okind) : pystr :=
  match k with KAttribute => py "NXDL_schema__attribute" | KElement => py "NXDL_schema__element" | KGroup => py "NXDL_schema__group" end.
Definition kind_name (k : okind) : pystr :=
  match k with KAttribute => py "attribute" | KElement => py "element" | KGroup => py "group" end.

(** [s.lstrip("_")] *)
Fixpoint lstrip_underscore (s : pystr) : pystr :=
  match s with c :: r => if N.eqb c 95 then lstrip_underscore r else s | [] => [] end.

(** [obj.__dict__], sorted, without lists and dictionaries (164-172, 324-329, 363-368); None is [None].
    [maxLength] of an element or group is there only if a simpleType was substituted; without
    it there is nothing to show in either case. *)
Definition members (o : sobj) : list (pystr * option pystr) :=
  match so_kind o with
  | KAttribute =>
      [(py "default_value", so_default o); (py "maxLength", option_map str_Z (so_maxLength o)); (py "name", so_name o);
       (py "required", Some (if so_required o then py "True" else py "False")); (py "type", so_key o)]
  | KElement =>
      [(py "maxLength", option_map str_Z (so_maxLength o)); (py "maxOccurs", so_maxOccurs o); (py "minOccurs", so_minOccurs o);
       (py "name", so_name o); (py "type", so_key o)]
  | KGroup =>
      [(py "maxLength", option_map str_Z (so_maxLength o)); (py "maxOccurs", so_maxOccurs o); (py "minOccurs", so_minOccurs o);
       (py "name", so_name o); (py "ref", so_key o)]
  end.

(** punx/nxdl_schema.py:80-98 render_class_str, for the objects of a summary *)
Definition render_class_str (o : sobj) : pystr :=
  class_name (so_kind o) ++ py "("
  ++ join (py ", ") (flat_map (fun kv => match snd kv with
                                         | Some v => [fst kv ++ py "=" ++ lstrip_underscore v]
                                         | None => []
                                         end) (members o))
  ++ py ")".

(** punx/nxdl_schema.py:645-651: the line of one object *)
Definition tree_line (level : nat) (o : sobj) : pystr :=
  repeat 32%N (4 * level)
  ++ (match so_kind o with KAttribute => py "@" | _ => [] end)
  ++ (match so_name o with Some n => n | None => py "(" ++ kind_name (so_kind o) ++ py ")" end)
  ++ py " : " ++ render_class_str o.

(** punx/nxdl_schema.py:653-659 keep_stats *)
Definition keep_stats (db d : dict nat) : dict nat :=
  fold_left (fun db kv => dset (fst kv) ((match dget (fst kv) db with Some n => n | None => 0 end) + snd kv) db) d db.

(** the dictionary [attributes] of an object: line 605 replaces that of the group *)
Definition attributes_at (su : summary) (i : nat) : dict nat :=
  kids_of KAttribute (su_heap su) (if Nat.eqb i (su_group su) then su_group_attrs su else i).

(** punx/nxdl_schema.py:637-667 print_tree: the lines printed, the count, and the numbers by
    kind.  No object has an attribute [elements]: build_tree calls it [components] (632-634).
    [fuel] is the limit of recursion. *)
Definition printed : Type := list pystr * (nat * dict nat).
Fixpoint print_children (f : nat -> res printed) (kids : dict nat) (acc : printed) : res printed :=
  match kids with
  | [] => Ok acc
  | (_, j) :: rest =>
      dor p <- f j ;
      print_children f rest (fst acc ++ fst p, (fst (snd acc) + fst (snd p), keep_stats (snd (snd acc)) (snd (snd p))))
  end.
Fixpoint print_tree (fuel : nat) (su : summary) (level i : nat) : res printed :=
  match fuel with
  | O => Exn RecursionError
  | S fuel' =>
      match nth_error (su_heap su) i with
      | None => Exn KeyError  (* not an object *)
      | Some o =>
          dor a <- print_children (print_tree fuel' su (S level)) (sorted_items (attributes_at su i))
                     ([tree_line level o], (1, [(kind_name (so_kind o), 1)])) ;
          print_children (print_tree fuel' su (S level)) (sorted_items (kids_of KGroup (su_heap su) i)) a
      end
  end.
