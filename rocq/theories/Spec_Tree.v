(** * Vocabulary of the tree view properties (C60-C62, C80, C81) *)

From Coq Require Import List NArith ZArith Bool String Sorting.
From Verif Require Import PyBase H5 H5Tree.
Import ListNotations.
Open Scope string_scope.
Open Scope list_scope.

(** ** Lines *)

(** a line about an attribute: "@name = value" *)
Definition attribute_line (l : line) : bool :=
  match ln_body l with BAttr _ _ => true | _ => false end.

(** the member of a group a line introduces *)
Definition introduces (b : body) : option pystr :=
  match b with
  | BGroup n _ | BSoft n _ | BLink n _ | BMissing n | BField n _ => Some n
  | BAttr _ _ | BArray _ => None
  end.

(** the names introduced by the lines with indentation [2 * d], in order *)
Fixpoint introduced (d : nat) (ls : list line) : list pystr :=
  match ls with
  | [] => []
  | l :: rest =>
      match introduces (ln_body l) with
      | Some n => if Nat.eqb (ln_depth l) d then n :: introduced d rest else introduced d rest
      | None => introduced d rest
      end
  end.

(** alphabetical order, nothing twice in a row of equal names being excluded *)
Definition in_name_order (l : list pystr) : Prop := StronglySorted (fun a b => str_leb a b = true) l.

(** ** Members *)

(** [marked E w v b]: whether the attribute "target" marks [v] as a NeXus link to another
    place: text other than its own address, or an array that is not empty.  (With a
    number there is no answer: it has no length.) *)
Inductive marked (E : env) (w : world) (v : handle) : bool -> Prop :=
| mk_none : dget (py "target") (attrs_of w v) = None -> marked E w v false
| mk_here : forall x s, dget (py "target") (attrs_of w v) = Some x -> decode_byte_string E x = Ok (VStr s) ->
    s = [] \/ s = h_name v -> marked E w v false
| mk_there : forall x s, dget (py "target") (attrs_of w v) = Some x -> decode_byte_string E x = Ok (VStr s) ->
    s <> [] -> s <> h_name v -> marked E w v true
| mk_empty : forall x y, dget (py "target") (attrs_of w v) = Some x -> decode_byte_string E x = Ok y ->
    y = VList [] \/ y = VArrNum [] -> marked E w v false
| mk_texts : forall x s l, dget (py "target") (attrs_of w v) = Some x -> decode_byte_string E x = Ok (VList (s :: l)) -> marked E w v true
| mk_numbers : forall x s l, dget (py "target") (attrs_of w v) = Some x -> decode_byte_string E x = Ok (VArrNum (s :: l)) -> marked E w v true.

(** [name] of group [h] leads to group [v] and is shown as a group: not through a
    soft link, not through an external link to a file that is not there, and not
    marked as a NeXus link to another address *)
Inductive subgroup (E : env) (w : world) (h : handle) (name : pystr) (v : handle) : Prop :=
| sub_hard : forall o, dget name (links_of w h) = Some (LHard o) ->
    getitem w h name = Ok v -> is_group_obj w v = true -> marked E w v false ->
    subgroup E w h name v
| sub_ext : forall f p, dget name (links_of w h) = Some (LExt f p) -> dmem f w = true ->
    getitem w h name = Ok v -> is_group_obj w v = true -> marked E w v false ->
    subgroup E w h name v.

(** the groups below [root] and how deep they are *)
Inductive below (E : env) (w : world) (root : handle) (title : pystr) : handle -> pystr -> nat -> Prop :=
| bl_root : below E w root title root title 0
| bl_sub : forall h n d name v, below E w root title h n d -> subgroup E w h name v ->
    below E w root title v name (S d).

(** the title of the report *)
Definition title_of (t : treeview) (file : pystr) : pystr :=
  file ++ (if t_nexus t then py " : NeXus data file" else []).

(** ** Previews of arrays *)

(** [r] is what is shown of the elements [l] when [m] items may be shown *)
Definition preview (m : nat) (ellipsis : pystr) (l r : list pystr) : Prop :=
  (List.length l <= m /\ r = l) \/
  (exists first middle final, l = first ++ middle ++ [final] /\ m < List.length l /\
     List.length first + 2 = m /\ r = first ++ [ellipsis; final]).

(** a one-dimensional array with elements [els], each by its str() and repr() *)
Definition array1 (els : list (pystr * pystr)) : nd := NArr (map (fun e => NVal (fst e) (snd e)) els).

(** the lines of a report that are the block of one group: [ls = pre ++ block ++ post],
    headed by the line of the group, everything in it deeper, and what comes after
    it not deeper *)
Definition block_of (ls : list line) (d : nat) (name : pystr) (suffix : pystr) (inside : list line) : Prop :=
  exists pre post,
    ls = pre ++ (mkLine d (BGroup name suffix) :: inside) ++ post /\
    Forall (fun l => d < ln_depth l) inside /\
    match post with [] => True | l :: _ => ln_depth l <= d end.

(** an array with the given shape *)
Fixpoint fits (shape : list nat) (a : nd) : Prop :=
  match shape, a with
  | [], NVal _ _ => True
  | n :: rest, NArr l => List.length l = n /\ Forall (fits rest) l
  | _, _ => False
  end.

(** the text of the preview of an array of one or more dimensions: one-dimensional
    arrays inline; two and three dimensions row by row, each row in turn a preview;
    of more dimensions only the number of dimensions of the rows *)
Inductive array_text (m : nat) : list nat -> nd -> pystr -> pystr -> Prop :=
| at_flat : forall els r ind, preview m (py "'...'") (map snd els) r ->
    array_text m [List.length els] (array1 els) ind (py "[" ++ join (py ", ") r ++ py "]")
| at_rows : forall n rest rows ts r ind, List.length rest = 1 \/ List.length rest = 2 ->
    n = List.length rows ->
    Forall2 (fun row t => array_text m rest row (ind ++ py "    ") t) rows ts ->
    preview m (py "...") ts r ->
    array_text m (n :: rest) (NArr rows) ind
      (py "[" ++ [ch_nl] ++ ind ++ py "  " ++ join ([ch_nl] ++ ind ++ py "  ") r ++ [ch_nl] ++ ind ++ py "]")
| at_deep : forall n rest rows r ind, 3 <= List.length rest -> n = List.length rows ->
    preview m (py "...") (repeat (py "rank=" ++ str_nat (List.length rest)) n) r ->
    array_text m (n :: rest) (NArr rows) ind
      (py "[" ++ [ch_nl] ++ ind ++ py "  " ++ join ([ch_nl] ++ ind ++ py "  ") r ++ [ch_nl] ++ ind ++ py "]").

(** ** Files that can be shown *)

(** the text of bytes *)
Definition readable (E : env) (b : list N) : Prop := exists t, Utf8.decode_bytes (e_enc E) b = Ok t.

(** attributes that can be shown: text or numbers, and the class is text *)
Definition class_value (E : env) (v : pyval) : Prop :=
  match v with
  | VStr _ => True
  | VBytes b => b <> [] /\ readable E b
  | VArrO (_ :: _) => True
  | VArrS (b :: _) => readable E b
  | _ => False
  end.
Definition showable_attrs (E : env) (attrs : dict pyval) : Prop :=
  Forall (fun nv => exists d, decode_byte_string E (snd nv) = Ok d /\ d <> VList []) attrs.

(** a dataset that can be shown *)
Definition showable_data (E : env) (v : dsview) : Prop :=
  match v with
  | DBytes b => readable E b
  | DBytesArr l => Forall (readable E) l
  | DBytesNd rows _ => rows = 0
  | DObject _ _ => True
  | DOther _ shape a => fits shape a
  | DNull => False
  end.

(** a group and its members, not counting what is inside its groups *)
Record showable_group (E : env) (w : world) (ds : handle -> dsview) (h : handle) : Prop := {
  sg_class : match dget (py "NX_class") (attrs_of w h) with Some v => class_value E v | None => True end;
  sg_attrs : showable_attrs E (attrs_of w h);
  sg_names : NoDup (dkeys (links_of w h));
  sg_members : forall name l, dget name (links_of w h) = Some l ->
    match l with
    | LSoft _ => True
    | LExt f _ => dmem f w = true -> exists v, getitem w h name = Ok v /\
        (exists b, marked E w v b) /\ showable_attrs E (attrs_of w v) /\
        (is_group_obj w v = true \/ isHdf5Dataset w v = true /\ showable_data E (ds v))
    | LHard _ => exists v, getitem w h name = Ok v /\
        (exists b, marked E w v b) /\ showable_attrs E (attrs_of w v) /\
        (is_group_obj w v = true \/ isHdf5Dataset w v = true /\ showable_data E (ds v))
    end }.

(** a dataset that holds a single value, shown as [s]: text, or a scalar or an
    array with one element of any other type *)
Inductive single_value (E : env) : dsview -> pystr -> Prop :=
| sv_bytes : forall b s, Utf8.decode_bytes (e_enc E) b = Ok s -> single_value E (DBytes b) s
| sv_object : forall s, single_value E (DObject [] s) s
| sv_scalar : forall dt s r, single_value E (DOther dt [] (NVal s r)) s
| sv_one : forall dt s r, single_value E (DOther dt [1] (NArr [NVal s r])) s.

(** [name] is a dataset member of group [h], found at [v], not marked as a link *)
Record plain_dataset (w : world) (h : handle) (name : pystr) (v : handle) : Prop := {
  pd_link : exists o, dget name (links_of w h) = Some (LHard o);
  pd_item : getitem w h name = Ok v;
  pd_kind : isHdf5Dataset w v = true;
  pd_target : dget (py "target") (attrs_of w v) = None }.

(** the type shown for a numeric dataset *)
Definition type_text (t : treeview) (up : pystr -> pystr) (dt : pystr) : pystr :=
  if t_nexus t then py "NX_" ++ up dt else dt.

(** names of members are distinct, in every group of the report *)
Definition distinct_names (E : env) (w : world) (file title : pystr) : Prop :=
  forall h n d, below E w (open_root file) title h n d -> NoDup (dkeys (links_of w h)).
