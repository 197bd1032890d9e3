(** * Vocabulary of C104 and C105: what the lines of a tree view say *)

From Coq Require Import List NArith ZArith Bool String.
From Verif Require Import PyBase Utf8 H5 H5Tree Spec_Tree.
Import ListNotations.
Open Scope string_scope.
Open Scope list_scope.

(** the text of a text attribute, stored as text or as bytes *)
Inductive text_value (E : env) : pyval -> pystr -> Prop :=
| tv_str : forall s, text_value E (VStr s) s
| tv_bytes : forall b s, decode_bytes (e_enc E) b = Ok s -> text_value E (VBytes b) s.

(** [name] of group [h] leads to the object [v], directly or through an external
    link to a file that is there *)
Inductive leads_to (w : world) (h : handle) (name : pystr) (v : handle) : Prop :=
| lt_hard : forall o, dget name (links_of w h) = Some (LHard o) -> getitem w h name = Ok v -> leads_to w h name v
| lt_ext : forall f p x, dget name (links_of w h) = Some (LExt f p) -> dget f w = Some x -> getitem w h name = Ok v -> leads_to w h name v.

(** what stands behind the name of a group: its class *)
Inductive class_text (E : env) : option pyval -> pystr -> Prop :=
| ct_none : class_text E None []
| ct_empty : class_text E (Some (VStr [])) []
| ct_text : forall v s, text_value E v s -> v <> VStr [] -> class_text E (Some v) (py ":" ++ s)
| ct_texts : forall s l, class_text E (Some (VArrO (s :: l))) (py ":" ++ s)
| ct_bytes : forall b s l, decode_bytes (e_enc E) b = Ok s -> class_text E (Some (VArrS (b :: l))) (py ":" ++ s).

(** where the attribute "target" of [v], if any, says the object is *)
Definition target (w : world) (v : handle) : option pyval := dget (py "target") (attrs_of w v).

(** [v] is shown in full: it has no target, or the target is its own address; an
    empty target counts as none, except for datasets of NeXus files *)
Inductive in_full (E : env) (w : world) (nexus : bool) (v : handle) : Prop :=
| if_none : target w v = None -> in_full E w nexus v
| if_own : forall x, target w v = Some x -> text_value E x (h_name v) -> in_full E w nexus v
| if_empty : forall x, target w v = Some x -> text_value E x [] -> nexus = false \/ isHdf5Dataset w v = false -> in_full E w nexus v.

(** it is shown as a link to [a] *)
Inductive as_link (E : env) (w : world) (nexus : bool) (v : handle) (a : pystr) : Prop :=
| al_other : forall x, target w v = Some x -> text_value E x a -> a <> h_name v ->
    a <> [] \/ (nexus = true /\ isHdf5Dataset w v = true) -> as_link E w nexus v a.

(** the value of an attribute as it is shown *)
Inductive value_text (E : env) : pyval -> pystr -> Prop :=
| vt_text : forall v s, text_value E v s -> value_text E v (py """" ++ s ++ py """")
| vt_texts : forall l, l <> [] -> value_text E (VArrO l) (py "[""" ++ join (py """, """) l ++ py """]")
| vt_list : forall l, l <> [] -> value_text E (VList l) (py "[""" ++ join (py """, """) l ++ py """]")
| vt_bytes : forall l ss, l <> [] -> Forall2 (fun b s => decode_bytes EncAscii b = Ok s) l ss ->
    value_text E (VArrS l) (py "[""" ++ join (py """, """) ss ++ py """]")
| vt_nothing : forall v, v = VArrO [] \/ v = VArrS [] \/ v = VNone -> value_text E v (py "None")
| vt_int : forall z, value_text E (VInt z) (str_Z z)
| vt_float : forall r, value_text E (VFloat r) r
| vt_numbers : forall l, value_text E (VArrNum l) (py "[" ++ join (py " ") l ++ py "]")
| vt_other : forall r, value_text E (VOther r) r.

(** the lines of attributes of an object whose line has depth [d] *)
Definition attribute_lines (E : env) (d : nat) (show : bool) (attrs : dict pyval) (ls : list line) : Prop :=
  if show then Forall2 (fun nv l => exists t, l = mkLine (S d) (BAttr (fst nv) t) /\ value_text E (snd nv) t) attrs ls
  else ls = [].

(** the file and the path of an external link are shown like attributes *)
Definition link_attributes (l : link) : dict pyval :=
  match l with
  | LExt f p => [(py "file", VStr f); (py "path", VStr p)]
  | _ => []
  end.

(** among [ls] are the lines of the object shown as [b] at depth [d], [own] right
    below it, then those of [attrs], and no more lines of attributes *)
Definition shown_with (E : env) (ls : list line) (d : nat) (b : body) (own : list line) (show : bool) (attrs : dict pyval) : Prop :=
  exists pre al post, ls = pre ++ mkLine d b :: own ++ al ++ post /\ attribute_lines E d show attrs al /\
    match post with [] => True | l :: _ => ~ (attribute_line l = true /\ ln_depth l = S d) end.

(** the lines of the values of an array *)
Definition array_lines (d : nat) (ls : list line) : Prop := ls = [] \/ exists v, ls = [mkLine (S d) (BArray v)].

(** the block of lines of a group in the report [ls], found step by step from the
    root: the root has all lines, and the block of a group is in that of its parent *)
Inductive block_at (E : env) (w : world) (ls : list line) (root : handle) (title : pystr)
  : handle -> pystr -> nat -> link -> pystr -> list line -> Prop :=
| ba_root : forall suffix inside, ls = mkLine 0 (BGroup title suffix) :: inside ->
    block_at E w ls root title root title 0 (LHard 0) suffix inside
| ba_sub : forall h n d l0 suffix inside name l v suffix' inside',
    block_at E w ls root title h n d l0 suffix inside ->
    subgroup E w h name v -> dget name (links_of w h) = Some l ->
    block_of inside (S d) name suffix' inside' ->
    block_at E w ls root title v name (S d) l suffix' inside'.
