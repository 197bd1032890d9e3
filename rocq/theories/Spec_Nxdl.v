(** * Specification of loaded NXDL structures and of the NXDL file list *)

From Coq Require Import List NArith ZArith Bool String.
From Verif Require Import PyBase Nxdl NxdlLoad.
Import ListNotations.

(** ** Names *)
(** [new] is what an element called [raw] is called when [taken] are in use: its
    own name, or the first free one of raw1, raw2, ... *)
Inductive new_name (taken : list pystr) (raw : pystr) : pystr -> Prop :=
| nn_own : ~ In raw taken -> new_name taken raw raw
| nn_number : forall i, In raw taken -> 1 <= i -> ~ In (raw ++ str_nat i) taken ->
    (forall j, 1 <= j < i -> In (raw ++ str_nat j) taken) -> new_name taken raw (raw ++ str_nat i).

(** elements called [raws], in order, get the names [keys] *)
Inductive names_given : list pystr -> list pystr -> Prop :=
| ng_nil : names_given [] []
| ng_next : forall raws keys raw new, names_given raws keys -> new_name keys raw new ->
    names_given (raws ++ [raw]) (keys ++ [new]).

(** ** XML elements *)
Definition elements (tag : pystr) (n : xnode) : list xnode := filter (fun k => str_eqb (x_tag k) tag) (x_kids n).
Definition attr_text (k : pystr) (n : xnode) : pystr := match dget k (x_attrib n) with Some s => s | None => [] end.
(** a group without a name is called like its type without the first two letters *)
Definition group_name (n : xnode) : pystr :=
  match dget (py "name") (x_attrib n) with Some s => s | None => skipn 2 (attr_text (py "type") n) end.
Definition element_name (n : xnode) : pystr := attr_text (py "name") n.
Definition enumeration_items (n : xnode) : list xnode := List.concat (map (elements (py "item")) (elements (py "enumeration") n)).

Definition raw_names (n : xnode) : list pystr :=
  map group_name (elements (py "group") n) ++ map element_name (elements (py "field") n) ++ map element_name (elements (py "link") n).

(** the entry [ka] has the content of the attribute element [n]; items without a value are left out *)
Definition attribute_content (n : xnode) (ka : pystr * nxattr) : Prop :=
  fst ka = element_name n /\ na_name (snd ka) = element_name n
  /\ na_enums (snd ka) = flat_map (fun i => match dget (py "value") (x_attrib i) with Some v => [v] | None => [] end) (enumeration_items n).

(** ** Dimensions *)
(** [x] has the texts of the dim element [n] *)
Definition dim_content (n : xnode) (x : nxdim) : Prop :=
  dm_index x = dget (py "index") (x_attrib n) /\ dm_value x = dget (py "value") (x_attrib n) /\ dm_ref x = dget (py "ref") (x_attrib n)
  /\ dm_refindex x = dget (py "refindex") (x_attrib n) /\ dm_incr x = dget (py "incr") (x_attrib n).
Definition index_of (n : xnode) : option pystr := dget (py "index") (x_attrib n).
(** the element [n] is the last of [l] with its index *)
Definition last_with_index (n : xnode) (l : list xnode) : Prop := exists before after, l = before ++ n :: after /\ ~ In (index_of n) (map index_of after).
(** the dimensions that the element [n] describes: its rank, and an entry for each index, with the last dim
    element of this index; the entries are in the order of the elements if these have different indices *)
Record dimensions_content (n : xnode) (x : nxdims) : Prop := mkDC {
  dc_rank : ds_rank x = dget (py "rank") (x_attrib n);
  dc_distinct : NoDup (map fst (ds_dims x));
  dc_indices : forall i, In i (map fst (ds_dims x)) <-> In i (map index_of (elements (py "dim") n));
  dc_dims : forall i y, In (i, y) (ds_dims x) -> exists k, last_with_index k (elements (py "dim") n) /\ index_of k = i /\ dim_content k y;
  dc_order : NoDup (map index_of (elements (py "dim") n)) -> Forall2 (fun k iy => fst iy = index_of k /\ dim_content k (snd iy)) (elements (py "dim") n) (ds_dims x)
}.

(** [f] has the content of the field element [n] *)
Definition field_content (n : xnode) (f : nxfield) : Prop :=
  Forall2 attribute_content (elements (py "attribute") n) (nf_attrs f)
  /\ match elements (py "dimensions") n with
     | [k] => exists x, nf_dims f = Some x /\ dimensions_content k x
     | _ => nf_dims f = None
     end
  /\ nf_enums f = map (fun i => dget (py "value") (x_attrib i)) (enumeration_items n).

(** ** Loaded structures *)
(** the attributes of a group: its attribute elements, and the texts of the XML attributes other than
    name and type, which hide elements of the same name *)
Definition group_attributes (n : xnode) (ga : dict gattr) : Prop :=
  exists attrs, Forall2 attribute_content (elements (py "attribute") n) attrs
    /\ (NoDup (map fst (x_attrib n)) -> forall k,
         dget k ga = match dget k (x_attrib n) with
                     | Some text => if str_eqb k (py "name") || str_eqb k (py "type") then option_map GAObj (dget k attrs) else Some (GAText text)
                     | None => option_map GAObj (dget k attrs)
                     end).

Definition names_of_group (g : nxgroup) : list pystr := map fst (g_groups g) ++ map fst (g_fields g) ++ map fst (g_links g).
Definition names_of_def (d : nxdef) : list pystr := map fst (d_groups d) ++ map fst (d_fields d) ++ map fst (d_links d).

(** [g] (whatever its own name) has one entry for every group, field and link
    element of [n], named as above, and so on downwards; it has not been validated with yet *)
Inductive loaded_group (n : xnode) (g : nxgroup) : Prop :=
| lg : names_given (raw_names n) (names_of_group g) ->
    Forall2 (fun k kg => g_name (snd kg) = fst kg /\ loaded_group k (snd kg)) (elements (py "group") n) (g_groups g) ->
    Forall2 (fun k kf => nf_name (snd kf) = fst kf /\ field_content k (snd kf)) (elements (py "field") n) (g_fields g) ->
    Forall2 (fun k kl => nl_name (snd kl) = fst kl /\ nl_target (snd kl) = dget (py "target") (x_attrib k)) (elements (py "link") n) (g_links g) ->
    group_attributes n (g_attrs g) ->
    g_minOccurs g = None ->
    loaded_group n g.

Record loaded_def (n : xnode) (d : nxdef) : Prop := mkLD {
  ld_names : names_given (raw_names n) (names_of_def d);
  ld_groups : Forall2 (fun k kg => g_name (snd kg) = fst kg /\ loaded_group k (snd kg)) (elements (py "group") n) (d_groups d);
  ld_fields : Forall2 (fun k kf => nf_name (snd kf) = fst kf /\ field_content k (snd kf)) (elements (py "field") n) (d_fields d);
  ld_links : Forall2 (fun k kl => nl_name (snd kl) = fst kl /\ nl_target (snd kl) = dget (py "target") (x_attrib k)) (elements (py "link") n) (d_links d);
  ld_attrs : Forall2 attribute_content (elements (py "attribute") n) (d_attrs d);
  (** the names of the symbols, in order, of all symbols elements; a symbol without a name is left out *)
  ld_symbols : exists named, d_symbols d = map element_name named
    /\ named = filter (fun s => dmem (py "name") (x_attrib s)) (List.concat (map (elements (py "symbol")) (elements (py "symbols") n)))
}.

(** a group of a definition, at any depth *)
Inductive inside (d : nxdef) : nxgroup -> Prop :=
| in_top : forall k g, In (k, g) (d_groups d) -> inside d g
| in_sub : forall k g g', inside d g -> In (k, g') (g_groups g) -> inside d g'.

(** ** Shared defaults *)
(** there is a field element, directly or in nested groups *)
Inductive has_field : xnode -> Prop :=
| hf_here : forall n k, In k (elements (py "field") n) -> has_field n
| hf_below : forall n k, In k (elements (py "group") n) -> has_field k -> has_field n.
(** there is an attribute element, of the element itself, of a field or in nested groups *)
Inductive has_attribute : xnode -> Prop :=
| ha_here : forall n k, In k (elements (py "attribute") n) -> has_attribute n
| ha_field : forall n f k, In f (elements (py "field") n) -> In k (elements (py "attribute") f) -> has_attribute n
| ha_below : forall n k, In k (elements (py "group") n) -> has_attribute k -> has_attribute n.
(** there is a group element *)
Definition has_group (n : xnode) : Prop := exists k, In k (elements (py "group") n).

(** ** The file list *)
Fixpoint ascending (l : list pystr) : Prop :=
  match l with
  | [] => True
  | a :: rest => Forall (fun b => str_leb a b = true) rest /\ ascending rest
  end.

(** the NXDL files of a directory, sorted by name *)
Definition nxdl_files_of (ls : pystr -> option fsnode) (dir : pystr) (l : list pystr) : Prop :=
  exists names files, ls dir = Some (FSDir names) /\ l = map (path_join dir) files /\ ascending files
    /\ (forall f, In f files <-> In f names /\ exists base, f = base ++ py ".nxdl.xml")
    /\ (NoDup names -> NoDup files).

(** a directory lists names, not paths *)
Definition listed_names_plain (ls : pystr -> option fsnode) : Prop :=
  forall p names n, ls p = Some (FSDir names) -> In n names -> ~ In 47%N n.

(** [file] is an NXDL file in the directory [cat] of [dir] *)
Definition nxdl_file (ls : pystr -> option fsnode) (dir cat file : pystr) : Prop :=
  exists names base, ls (path_join dir cat) = Some (FSDir names) /\ In (base ++ py ".nxdl.xml") names
    /\ file = path_join (path_join dir cat) (base ++ py ".nxdl.xml").

(** an application definition with a field is loaded *)
Definition application_with_field (ls : pystr -> option fsnode) (content : pystr -> option xnode) (dir : pystr) : Prop :=
  exists file root, nxdl_file ls dir (py "applications") file /\ content file = Some root /\ has_field root.

(** an application definition of some kind is loaded *)
Definition application_that (P : xnode -> Prop) (ls : pystr -> option fsnode) (content : pystr -> option xnode) (dir : pystr) : Prop :=
  exists file root, nxdl_file ls dir (py "applications") file /\ content file = Some root /\ P root.

Definition no_directory (ls : pystr -> option fsnode) (p : pystr) : Prop := forall names, ls p <> Some (FSDir names).

(** the file of class [t] in a category *)
Definition class_file (dir cat t : pystr) : pystr := path_join (path_join dir cat) (t ++ py ".nxdl.xml").

(** names of NXDL files have no dots but those of ".nxdl.xml" *)
Definition nxdl_names_plain (ls : pystr -> option fsnode) : Prop :=
  forall p names base, ls p = Some (FSDir names) -> In (base ++ py ".nxdl.xml") names -> ~ In 46%N base.

Definition defines (ls : pystr -> option fsnode) (dir cat t : pystr) : Prop := nxdl_file ls dir cat (class_file dir cat t).
