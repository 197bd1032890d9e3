(** * The tree view of a data file: punx/h5tree.py

    A report is a list of lines of text.  The model keeps each line in two parts,
    the number of two-space steps of indentation and what the line says, and
    [text_of] gives the text.  What h5py gives of a dataset beside its attributes
    (type, shape, elements) is the parameter [ds]. *)

From Coq Require Import List NArith ZArith Bool String.
From Verif Require Import PyBase Utf8 H5 Catalog.
Import ListNotations.
Open Scope string_scope.
Open Scope list_scope.

(** ** Lines *)
Inductive body :=
| BGroup (name suffix : pystr)      (* h5tree.py:111 *)
| BAttr (name value : pystr)        (* h5tree.py:185 *)
| BSoft (name path : pystr)         (* h5tree.py:141 *)
| BLink (name target : pystr)       (* h5tree.py:202 *)
| BMissing (name : pystr)           (* h5tree.py:143 *)
| BField (name text : pystr)        (* h5tree.py:226, 231, 235, 244, 255, 261 *)
| BArray (value : pystr).           (* h5tree.py:257 *)

(** a line of the report: its depth, and what it shows *)
Record line := mkLine { ln_depth : nat; ln_body : body }.

(** two blanks for each level ([indentation + "  "], punx/h5tree.py:90-176) *)
Definition indent (d : nat) : pystr := repeat 32%N (2 * d).

(** the texts of the lines cited at [body] *)
Definition body_text (b : body) : pystr :=
  match b with
  | BGroup n s => n ++ s
  | BAttr n v => py "@" ++ n ++ py " = " ++ v
  | BSoft n p => n ++ py ": --> " ++ p
  | BLink n t => n ++ py " --> " ++ t
  | BMissing n => n ++ py ": missing external file"
  | BField n t => n ++ py ":" ++ t
  | BArray v => py "__array = " ++ v
  end.

(** a line as it is printed *)
Definition text_of (l : line) : pystr := indent (ln_depth l) ++ body_text (ln_body l).

(** ** Arrays *)

(** an element by its str() and its repr(), or a list of sub-arrays *)
Inductive nd :=
| NVal (s r : pystr)
| NArr (l : list nd).

(** [obj[i]] *)
Definition nd_item (a : nd) (i : nat) : res nd :=
  match a with
  | NArr l => match nth_error l i with Some x => Ok x | None => Exn IndexError end
  | NVal _ _ => Exn IndexError
  end.
Definition nd_str (a : nd) : res pystr := match a with NVal s _ => Ok s | NArr _ => Exn TypeError end.
Definition nd_repr (a : nd) : res pystr := match a with NVal _ r => Ok r | NArr _ => Exn TypeError end.

(** punx/h5tree.py:302-307 _decideNumShown; [m] is array_items_shown, always a
    number here *)
Definition decide_num_shown (m : Z) (n : nat) : nat :=
  if (Z.of_nat n >? m)%Z then Z.to_nat (m - 2) else n.

(** which of [n] items are shown: the index of an item, or None for the "..." *)
Definition shown_items (m : Z) (n : nat) : list (option nat) :=
  let k := decide_num_shown m n in
  map Some (seq 0 k) ++ (if Nat.ltb k n then [None; Some (n - 1)] else []).

(** punx/h5tree.py:309-347 _renderNdArray, by recursion on the shape.  OSError
    while reading (320-321) is not modelled.  [str] of the list of a
    one-dimensional array (342) shows repr() of its elements, and '...' in quotes. *)
Fixpoint render_nd (m : Z) (shape : list nat) (a : nd) (ind : pystr) : res pystr :=
  match shape with
  | [] => Ok []                        (* 331-332; not reached: 298 *)
  | n :: rest =>
      let rank := List.length shape in
      let elem i :=
        dor x <- nd_item a i ;
        if Nat.eqb rank 1 then nd_repr x
        else if Nat.ltb rank 4 then render_nd m rest x (ind ++ py "    ")
        else Ok (py "rank=" ++ str_nat (rank - 1)) in
      let entry o := match o with
                     | Some i => elem i
                     | None => Ok (if Nat.eqb rank 1 then py "'...'" else py "...")
                     end in
      dor r <- traverse entry (shown_items m n) ;
      if Nat.eqb rank 1 then Ok (py "[" ++ join (py ", ") r ++ py "]")
      else Ok (py "[" ++ [ch_nl] ++ ind ++ py "  "
               ++ join ([ch_nl] ++ ind ++ py "  ") r
               ++ [ch_nl] ++ ind ++ py "]")
  end.

(** punx/h5tree.py:294-300 _renderArray *)
Definition render_array (m : Z) (shape : list nat) (a : nd) (ind : pystr) : res pystr :=
  match shape with [] => Ok [] | _ => render_nd m shape a (ind ++ py "  ") end.

(** ** Datasets *)

(** what h5py gives of a dataset *)
Inductive dsview :=
| DBytes (b : list N)                   (* dtype.kind 'S', scalar *)
| DBytesArr (l : list (list N))         (* dtype.kind 'S', one-dimensional *)
| DBytesNd (rows width : nat)           (* dtype.kind 'S', two or more dimensions *)
| DObject (shape : list nat) (s : pystr)(* dtype.kind 'O', and str(dset[()]) *)
| DOther (dtype : pystr) (shape : list nat) (a : nd)  (* any other dtype.kind *)
| DNull.                                (* no shape (h5py.Empty) *)

Section Tree.
  Context (E : env).
  Context (up : pystr -> pystr).        (* str.upper *)
  Context (w : world).
  Context (ds : handle -> dsview).
  Context (nexus : bool).               (* self.isNeXus *)
  Context (m : Z).                      (* self.array_items_shown *)
  Context (attrs : bool).               (* self.show_attributes *)

  (** punx/h5tree.py:267-280 _renderDsType; len(None) of a dataset without a shape
      fails in 272 or, for other kinds, in 286 *)
  Definition nx_type (t : pystr) : pystr := if nexus then py "NX_" ++ up t else t.
  Definition render_type (v : dsview) : res pystr :=
    match v with
    | DBytes _ => Ok (nx_type (py "CHAR"))
    | DBytesArr l => Ok (nx_type (py "char[" ++ join (py ",") (map (fun b => str_nat (List.length b)) l) ++ py "]"))
    | DBytesNd r k => Ok (nx_type (py "char[" ++ join (py ",") (repeat (str_nat k) r) ++ py "]"))
    | DObject _ _ => Ok (nx_type (py "CHAR"))
    | DOther t _ _ => Ok (nx_type t)
    | DNull => Exn TypeError
    end.

  (** punx/h5tree.py:282-292 _renderDsShape *)
  Definition render_shape (shape : list nat) : pystr :=
    match shape with
    | [1] => []
    | _ => py "[" ++ join (py ",") (map str_nat shape) ++ py "]"
    end.

  (** punx/h5tree.py:178-185 _renderSingleAttribute *)
  Definition render_value (v : pyval) : res pystr :=
    dor d <- decode_byte_string E v ;
    match d with
    | VList [] => Exn IndexError
    | VList l => Ok (py "[""" ++ join (py """, """) l ++ py """]")
    | VStr s => Ok (py """" ++ s ++ py """")
    | _ => Ok (py_str d)
    end.
  Definition render_single_attribute (d : nat) (name : pystr) (v : pyval) : res line :=
    dor t <- render_value v ; Ok (mkLine (S d) (BAttr name t)).

  (** punx/h5tree.py:187-196 _renderAttributes; [d] is the depth of the owner *)
  Definition render_attributes (h : handle) (d : nat) (extra : dict pyval) : res (list line) :=
    if attrs then
      traverse (fun nv => render_single_attribute d (fst nv) (snd nv)) (attrs_of w h ++ extra)
    else Ok [].

  (** punx/h5tree.py:198-203 _renderLinkedObject *)
  Definition render_linked (h : handle) (name : pystr) (d : nat) : res (list line) :=
    match dget (py "target") (attrs_of w h) with
    | None => Exn KeyError
    | Some v => dor t <- decode_byte_string E v ; Ok [mkLine d (BLink name (py_str t))]
    end.

  (** punx/h5tree.py:205-265 _renderDataset, the lines before the attributes *)
  Definition dataset_lines (h : handle) (name : pystr) (d : nat) : res (list line) :=
    dor ty <- render_type (ds h) ;
    match ds h with
    | DBytes b =>
        dor t <- decode_bytes (e_enc E) b ;
        Ok [mkLine d (BField name (ty ++ py " = " ++ t))]
    | DBytesArr l =>
        dor ss <- traverse (fun b => dor t <- decode_bytes (e_enc E) b ; Ok (py """" ++ t ++ py """")) l ;
        Ok [mkLine d (BField name (ty ++ (if Nat.ltb 1 (List.length ss)
                                          then py " = [" ++ join (py ", ") ss ++ py "]"
                                          else py " = " ++ join (py ", ") ss)))]
    | DBytesNd O _ => Ok [mkLine d (BField name (ty ++ py " = "))]
    | DBytesNd (S _) _ => Exn TypeError      (* 219: text + list *)
    | DObject _ s => Ok [mkLine d (BField name (ty ++ py " = " ++ s))]
    | DOther _ shape a =>
        match shape with
        | [1] =>
            dor x <- nd_item a 0 ; dor s <- nd_str x ;
            Ok [mkLine d (BField name (ty ++ render_shape shape ++ py " = " ++ s))]
        | _ =>
            if (m >? 2)%Z then
              dor v <- render_array m shape a (indent (S d)) ;
              if Nat.ltb (List.length shape) 2
              then Ok [mkLine d (BField name (ty ++ render_shape shape ++ py " = " ++ v))]
              else Ok [mkLine d (BField name (ty ++ render_shape shape ++ py " = __array"));
                       mkLine (S d) (BArray v)]
            else Ok [mkLine d (BField name (ty ++ render_shape shape ++ py " = [ ... ]"))]
        end
    | DNull => Exn TypeError
    end.

  (** punx/h5tree.py:209-213: in a NeXus file, a dataset whose target names another
      address is shown as a link *)
  Definition dataset_elsewhere (h : handle) : res bool :=
    if nexus then
      match dget (py "target") (attrs_of w h) with
      | None => Ok false
      | Some v => dor t <- decode_byte_string E v ;
                  Ok (match t with
                      | VStr s => negb (str_eqb s (h_name h))
                      | VArrNum [] => false
                      | _ => true
                      end)
      end
    else Ok false.

  (** punx/h5tree.py:205-265 _renderDataset: a link to another place, or the dataset itself *)
  Definition render_dataset (h : handle) (name : pystr) (d : nat) : res (list line) :=
    dor elsewhere <- dataset_elsewhere h ;
    if elsewhere then render_linked h name d
    else dor s <- dataset_lines h name d ;
         dor a <- render_attributes h d [] ;
         Ok (s ++ a).

  (** punx/h5tree.py:104-110: the class shown behind the name of a group.  Simplification: an
      empty array of texts as @NX_class raises TypeError here; in numpy, adding it to text
      gives an empty array in place of the line. *)
  Definition class_suffix (h : handle) : res pystr :=
    match dget (py "NX_class") (attrs_of w h) with
    | None => Ok []
    | Some (VStr []) => Ok []
    | Some (VStr s) => Ok (py ":" ++ s)
    | Some (VBytes []) => Exn TypeError        (* 111: text + bytes *)
    | Some (VBytes b) => dor s <- decode_bytes (e_enc E) b ; Ok (py ":" ++ s)
    | Some (VArrO (s :: _)) => Ok (py ":" ++ s)
    | Some (VArrS (b :: _)) => dor s <- decode_bytes (e_enc E) b ; Ok (py ":" ++ s)
    | Some _ => Exn TypeError                  (* no length, or text + something else *)
    end.

  (** punx/h5tree.py:113-115, 144-148, 157-162: the file and path of an external link *)
  Definition link_extra (l : link) : dict pyval :=
    match l with
    | LExt f p => [(py "file", VStr f); (py "path", VStr p)]
    | _ => []
    end.
  Definition link_lines (l : link) (d : nat) : res (list line) :=
    if attrs then traverse (fun nv => render_single_attribute d (fst nv) (snd nv)) (link_extra l)
    else Ok [].

  (** punx/h5tree.py:121-170, one member of a group: its lines, or the group to be
      shown later.  [os.path.exists] of an external file is looking it up in the
      world; the object a link leads to is found by HDF5's path lookup.  A bare
      Exception (170) is RuntimeError. *)
  Inductive shown :=
  | Now (l : list line)
  | Later (h : handle) (name : pystr) (md : link).

  (** the member called [name], punx/h5tree.py:121-170 *)
  Definition render_member (h : handle) (d : nat) (nl : pystr * link) : res shown :=
    let '(name, l) := nl in
    let follow :=
      dor v <- getitem w h name ;
      dor b <- isNeXusLink E w v ;
      if b then rmap Now (render_linked v name d)
      else if is_group_obj w v then Ok (Later v name l)
      else if isHdf5Dataset w v then
        dor s <- render_dataset v name d ;
        dor x <- link_lines l d ;
        Ok (Now (s ++ x))
      else Exn RuntimeError in
    match l with
    | LSoft p => Ok (Now [mkLine d (BSoft name p)])
    | LExt f _ =>
        if dmem f w then follow
        else dor x <- link_lines l d ; Ok (Now (mkLine d (BMissing name) :: x))
    | LHard _ => follow
    end.

  (** the lines of members other than groups come first (punx/h5tree.py:120-176) *)
  Definition now_of (s : shown) : list line := match s with Now l => l | Later _ _ _ => [] end.
  (** then the groups (punx/h5tree.py:171-176) *)
  Definition later_of (s : shown) : list (handle * pystr * link) :=
    match s with Now _ => [] | Later h n md => [(h, n, md)] end.

  (** punx/h5tree.py:90-176 _renderGroup; [fuel] is what is left of Python's
      recursion limit *)
  Fixpoint render_group (fuel : nat) (h : handle) (name : pystr) (d : nat) (md : link) : res (list line) :=
    match fuel with
    | O => Exn RecursionError
    | S k =>
        dor suffix <- class_suffix h ;
        dor a <- render_attributes h d (link_extra md) ;
        dor ms <- traverse (render_member h (S d)) (sorted_items (links_of w h)) ;
        dor gs <- traverse (fun g => render_group k (fst (fst g)) (snd (fst g)) (S d) (snd g))
                           (List.concat (map later_of ms)) ;
        Ok (mkLine d (BGroup name suffix) :: a ++ List.concat (map now_of ms) ++ List.concat gs)
    end.
End Tree.

(** punx/h5tree.py:49-88 Hdf5TreeView(filename) and report(show_attributes): None
    for a file that does not exist *)
Record treeview := mkTree { t_filename : option pystr; t_nexus : bool; t_items : Z }.
Definition new_tree (E : env) (w : world) (file : pystr) : res treeview :=
  match dget file w with
  | None => Ok (mkTree None false 5)
  | Some _ => dor b <- isNeXusFile E w file ;
              Ok (mkTree (Some file) (match b with Some true => true | _ => false end) 5)
  end.

(** punx/h5tree.py:58-88 report, before the lines are made text *)
Definition tree_lines (E : env) (up : pystr -> pystr) (w : world) (ds : handle -> dsview) (fuel : nat)
    (t : treeview) (show_attributes : bool) : res (option (list line)) :=
  match t_filename t with
  | None => Ok None
  | Some file =>
      match dget file w with
      | Some (FHdf5 _) =>
          let title := file ++ (if t_nexus t then py " : NeXus data file" else []) in
          dor ls <- render_group E up w ds (t_nexus t) (t_items t) show_attributes fuel
                      (open_root file) title 0 (LHard 0) ;
          Ok (Some ls)
      | _ => Exn OSError
      end
  end.

(** punx/h5tree.py:58-88 report *)
Definition tree_report (E : env) (up : pystr -> pystr) (w : world) (ds : handle -> dsview) (fuel : nat)
    (t : treeview) (show_attributes : bool) : res (option (list pystr)) :=
  rmap (option_map (map text_of)) (tree_lines E up w ds fuel t show_attributes).
