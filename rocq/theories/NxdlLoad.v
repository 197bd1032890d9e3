(** * Loading NXDL files: punx/nxdl_manager.py *)

From Coq Require Import List NArith ZArith Bool String.
From Verif Require Import PyBase Nxdl.
Import ListNotations.
Open Scope string_scope.
Open Scope list_scope.

(** ** Files *)
(** an element of an NXDL file: local tag name, attributes and child elements.
    Simplification: all elements are in the NXDL namespace, so the XPath query
    "nx:field" selects the children with tag "field". *)
Inductive xnode := XN (tag : pystr) (attrib : dict pystr) (kids : list xnode).
Definition x_tag (n : xnode) := let 'XN t _ _ := n in t.
Definition x_attrib (n : xnode) := let 'XN _ a _ := n in a.
Definition x_kids (n : xnode) := let 'XN _ _ k := n in k.
Definition has_tag (t : pystr) (n : xnode) : bool := str_eqb (x_tag n) t.
(** [xml_node.xpath("nx:" + t)] *)
Definition kids_named (t : pystr) (n : xnode) : list xnode := filter (has_tag t) (x_kids n).

(** what a path of the file system holds, for this part of the code *)
Inductive fsnode := FSFile | FSDir (names : list pystr).

(** [os.path.join(a, b)] for a directory [a] and a plain name [b] *)
Definition path_join (a b : pystr) : pystr :=
  if str_eqb a [] then b else if endswith a [ch_slash] then a ++ b else a ++ [ch_slash] ++ b.

(** punx/nxdl_manager.py:147 NXDL_categories *)
Definition NXDL_categories : list pystr := [py "base_classes"; py "applications"; py "contributed_definitions"].

(** [os.listdir(path)]: in no particular order; OSError (NotADirectoryError) on a
    file.  [ls] describes the file system. *)
Definition listdir (ls : pystr -> option fsnode) (p : pystr) : res (list pystr) :=
  match ls p with
  | Some (FSDir l) => Ok l
  | _ => Exn OSError
  end.

(** one category (punx/nxdl_manager.py:149-157); IOError is OSError *)
Definition category_files (ls : pystr -> option fsnode) (nxdl_dir category : pystr) : res (list pystr) :=
  let path := path_join nxdl_dir category in
  match ls path with
  | None => Exn OSError
  | Some _ =>
      dor names <- listdir ls path ;
      Ok (map (path_join path) (filter (fun f => endswith f (py ".nxdl.xml")) (sorted_strs names)))
  end.

(** the loop over the categories (punx/nxdl_manager.py:147-157) *)
Fixpoint categories_files (ls : pystr -> option fsnode) (nxdl_dir : pystr) (l : list pystr) : res (list pystr) :=
  match l with
  | [] => Ok []
  | cat :: rest =>
      dor a <- category_files ls nxdl_dir cat ;
      dor b <- categories_files ls nxdl_dir rest ;
      Ok (a ++ b)
  end.

(** punx/nxdl_manager.py:131-158 get_NXDL_file_list *)
Definition get_NXDL_file_list (ls : pystr -> option fsnode) (nxdl_dir : pystr) : res (list pystr) :=
  match ls nxdl_dir with
  | None => Exn FileNotFound
  | Some _ => categories_files ls nxdl_dir NXDL_categories
  end.

(** ** Defaults from the schema *)
(** value of [default_value] of a schema attribute (punx/nxdl_schema.py:165-188):
    text from nxdl.xsd or None, or what nxdl_manager.py stores there *)
Inductive dflt := DNone | DText (s : pystr) | DInt (z : Z) | DFalse.

(** The schema objects every NXDL structure of one manager shares: parse_xml_attributes
    (punx/nxdl_manager.py:196-206) stores the objects themselves, not copies.
    [None]: the schema has no such attribute.  Only the three objects that are ever
    written or read are kept, and whether the schema describes dimensions and dim elements. *)
Record defaults := mkDf {
  df_attr_optional : option dflt;     (* nxdl_defaults.attribute.attributes["optional"] *)
  df_field_minOccurs : option dflt;   (* nxdl_defaults.field.attributes["minOccurs"] *)
  df_group_minOccurs : option dflt;   (* nxdl_defaults.group.attributes["minOccurs"] *)
  df_dimensions : bool;               (* "dimensions" in nxdl_defaults.field.components *)
  df_dim : bool                       (* "dim" in nxdl_defaults.field.components["dimensions"].components *)
}.

(** [field.xml_attributes["minOccurs"].default_value], whichever the field: the
    object is the one of the schema (punx/nxdl_manager.py:196-206, 574-576); read at
    punx/validations/application_definition.py:74 *)
Definition field_minOccurs (d : defaults) (f : nxfield) : option dflt := df_field_minOccurs d.

(** the same for [group.xml_attributes["minOccurs"].default_value] and
    [attribute.xml_attributes["optional"].default_value] (punx/nxdl_manager.py:480-484, 615-619) *)
Definition group_minOccurs (d : defaults) (g : nxgroup) : option dflt := df_group_minOccurs d.
Definition attr_optional (d : defaults) (a : nxattr) : option dflt := df_attr_optional d.

(** computations that change the shared objects and may raise *)
Definition LM (A : Type) := defaults -> defaults * res A.
Definition lret {A} (a : A) : LM A := fun d => (d, Ok a).
Definition lraise {A} (e : exn) : LM A := fun d => (d, Exn e).
Definition lbind {A B} (m : LM A) (f : A -> LM B) : LM B := fun d =>
  let '(d', r) := m d in match r with Ok a => f a d' | Exn e => (d', Exn e) end.
Definition llift {A} (r : res A) : LM A := fun d => (d, r).
Notation "'ldo' x <- m ; f" := (lbind m (fun x => f))
  (at level 200, x binder, m at level 100, f at level 200, right associativity).

(** [if category in ("applications",): obj.xml_attributes["optional"].default_value = False]
    (punx/nxdl_manager.py:227-230) *)
Definition app_attr (cat : pystr) : LM unit := fun d =>
  if str_eqb cat (py "applications") then
    match df_attr_optional d with
    | Some _ => (mkDf (Some DFalse) (df_field_minOccurs d) (df_group_minOccurs d) (df_dimensions d) (df_dim d), Ok tt)
    | None => (d, Exn KeyError)
    end
  else (d, Ok tt).
(** the same for "minOccurs" of a field (punx/nxdl_manager.py:256-258) *)
Definition app_field (cat : pystr) : LM unit := fun d =>
  if str_eqb cat (py "applications") then
    match df_field_minOccurs d with
    | Some _ => (mkDf (df_attr_optional d) (Some (DInt 1)) (df_group_minOccurs d) (df_dimensions d) (df_dim d), Ok tt)
    | None => (d, Exn KeyError)
    end
  else (d, Ok tt).
(** the same for "minOccurs" of a group (punx/nxdl_manager.py:280-282) *)
Definition app_group (cat : pystr) : LM unit := fun d =>
  if str_eqb cat (py "applications") then
    match df_group_minOccurs d with
    | Some _ => (mkDf (df_attr_optional d) (df_field_minOccurs d) (Some (DInt 1)) (df_dimensions d) (df_dim d), Ok tt)
    | None => (d, Exn KeyError)
    end
  else (d, Ok tt).

(** ** Unique names *)
Definition used (names : list pystr) (n : pystr) : bool := existsb (str_eqb n) names.

(** the loop of punx/nxdl_manager.py:351-354, for at most [fuel] rounds; [None]: still going *)
Fixpoint free_suffix (fuel : nat) (names : list pystr) (base : pystr) (index : nat) : option nat :=
  match fuel with
  | O => None
  | S n => if used names (base ++ str_nat index) then free_suffix n names base (S index) else Some index
  end.

(** punx/nxdl_manager.py:332-355 ensure_unique_name: the new name of an object
    called [name], given the names in use (groups, fields and links).  The number
    of rounds is bounded by the number of names plus one; that the loop ends
    within this bound, so that AssertionError is never returned, is C43. *)
Definition ensure_unique_name (names : list pystr) (name : pystr) : res pystr :=
  if used names name then
    match free_suffix (S (List.length names)) names name 1 with
    | Some i => Ok (name ++ str_nat i)
    | None => Exn AssertionError
    end
  else Ok name.

(** ** Elements *)
(** punx/nxdl_manager.py:486-498 NXDL__attribute.parse_nxdl_xml *)
Definition parse_attribute (n : xnode) : res nxattr :=
  dor name <- dgetitem (py "name") (x_attrib n) ;
  Ok (mkNA name
        (flat_map (fun e => flat_map (fun i => match dget (py "value") (x_attrib i) with Some v => [v] | None => [] end)
                                     (kids_named (py "item") e))
                  (kids_named (py "enumeration") n))).

(** punx/nxdl_manager.py:208-238 parse_attributes: a second attribute of the same
    name is KeyError *)
Fixpoint parse_attributes (cat : pystr) (acc : dict nxattr) (nodes : list xnode) : LM (dict nxattr) :=
  match nodes with
  | [] => lret acc
  | n :: rest =>
      ldo a <- llift (parse_attribute n) ;
      ldo _u <- app_attr cat ;
      if dmem (na_name a) acc then lraise KeyError
      else parse_attributes cat (dset (na_name a) a acc) rest
  end.

(** punx/nxdl_manager.py:507-523 NXDL__dim.parse_nxdl_xml *)
Definition parse_dim (n : xnode) : nxdim :=
  mkDim (dget (py "index") (x_attrib n)) (dget (py "value") (x_attrib n)) (dget (py "ref") (x_attrib n))
        (dget (py "refindex") (x_attrib n)) (dget (py "incr") (x_attrib n)).

(** punx/nxdl_manager.py:555-559: the dim elements; each is made with what the schema says
    of dim elements (punx/nxdl_manager.py:507-515), KeyError if it does not *)
Fixpoint parse_dims (acc : list (option pystr * nxdim)) (nodes : list xnode) : LM (list (option pystr * nxdim)) :=
  match nodes with
  | [] => lret acc
  | n :: rest => fun d =>
      if df_dim d then parse_dims (aset ostr_eqb (dm_index (parse_dim n)) (parse_dim n) acc) rest d else (d, Exn KeyError)
  end.

(** punx/nxdl_manager.py:532-559 NXDL__dimensions *)
Definition parse_dimensions (n : xnode) : LM nxdims := fun d =>
  if df_dimensions d then
    (ldo l <- parse_dims [] (kids_named (py "dim") n) ; lret (mkDims (dget (py "rank") (x_attrib n)) l)) d
  else (d, Exn KeyError).

(** punx/nxdl_manager.py:581-598 NXDL__field.parse_nxdl_xml: dimensions count if there is exactly one such element *)
Definition parse_field (cat : pystr) (n : xnode) : LM nxfield :=
  ldo name <- llift (dgetitem (py "name") (x_attrib n)) ;
  ldo attrs <- parse_attributes cat [] (kids_named (py "attribute") n) ;
  ldo dims <- (match kids_named (py "dimensions") n with
               | [k] => ldo x <- parse_dimensions k ; lret (Some x)
               | _ => lret None
               end) ;
  lret (mkNF name attrs dims
          (flat_map (fun e => map (fun i => dget (py "value") (x_attrib i)) (kids_named (py "item") e))
                    (kids_named (py "enumeration") n))).

(** punx/nxdl_manager.py:657-660 NXDL__link.parse_nxdl_xml *)
Definition parse_link (n : xnode) : res nxlink :=
  dor name <- dgetitem (py "name") (x_attrib n) ;
  Ok (mkNL name (dget (py "target") (x_attrib n))).

(** a new name in case of a clash: [obj.name = ...] (punx/nxdl_manager.py:347-355) *)
Definition rename_field (name : pystr) (f : nxfield) : nxfield := mkNF name (nf_attrs f) (nf_dims f) (nf_enums f).
Definition rename_link (name : pystr) (l : nxlink) : nxlink := mkNL name (nl_target l).
Definition rename_group (name : pystr) (g : nxgroup) : nxgroup :=
  NXG name (g_attrs g) (g_fields g) (g_groups g) (g_links g) (g_minOccurs g).

(** punx/nxdl_manager.py:240-262 parse_fields; [groups] are the names of the
    groups of the same structure *)
Fixpoint parse_fields (cat : pystr) (groups : list pystr) (acc : dict nxfield) (nodes : list xnode) : LM (dict nxfield) :=
  match nodes with
  | [] => lret acc
  | n :: rest =>
      ldo f <- parse_field cat n ;
      ldo _u <- app_field cat ;
      ldo name <- llift (ensure_unique_name (groups ++ dkeys acc) (nf_name f)) ;
      parse_fields cat groups (dset name (rename_field name f) acc) rest
  end.

(** punx/nxdl_manager.py:288-311 parse_links *)
Fixpoint parse_links (others : list pystr) (acc : dict nxlink) (nodes : list xnode) : LM (dict nxlink) :=
  match nodes with
  | [] => lret acc
  | n :: rest =>
      ldo l <- llift (parse_link n) ;
      ldo name <- llift (ensure_unique_name (others ++ dkeys acc) (nl_name l)) ;
      parse_links others (dset name (rename_link name l) acc) rest
  end.

(** the attributes dictionary of a group (punx/nxdl_manager.py:625-629): XML
    attributes other than name and type are added as text *)
Definition group_attrs (attrs : dict nxattr) (attrib : dict pystr) : dict gattr :=
  fold_left (fun d kv => if str_eqb (fst kv) (py "name") || str_eqb (fst kv) (py "type") then d
                         else dset (fst kv) (GAText (snd kv)) d)
            attrib (map (fun ka => (fst ka, GAObj (snd ka))) attrs).

(** punx/nxdl_manager.py:264-286 parse_groups, for a given way to parse a group *)
Section Groups.
  Variable parse_one : xnode -> LM nxgroup.
  Fixpoint parse_groups_with (cat : pystr) (acc : dict nxgroup) (nodes : list xnode) : LM (dict nxgroup) :=
    match nodes with
    | [] => lret acc
    | n :: rest =>
        if has_tag (py "group") n then
          ldo g <- parse_one n ;
          ldo _u <- app_group cat ;
          ldo name <- llift (ensure_unique_name (dkeys acc) (g_name g)) ;
          parse_groups_with cat (dset name (rename_group name g) acc) rest
        else parse_groups_with cat acc rest
    end.
End Groups.

(** punx/nxdl_manager.py:621-632 NXDL__group.parse_nxdl_xml.  [attrib["type"]] is
    evaluated even if there is a name.  [assign_defaults] (357-362) only sets Python
    attributes for XML attributes that nxdl.xsd requires; none of those is read
    later, provided that nxdl.xsd does not require the minOccurs of a group. *)
Fixpoint parse_group (cat : pystr) (n : xnode) {struct n} : LM nxgroup :=
  match n with
  | XN t attrib kids =>
      ldo ty <- llift (dgetitem (py "type") attrib) ;
      let name := match dget (py "name") attrib with Some s => s | None => skipn 2 ty end in
      ldo attrs <- parse_attributes cat [] (filter (has_tag (py "attribute")) kids) ;
      ldo groups <- parse_groups_with (parse_group cat) cat [] kids ;
      ldo fields <- parse_fields cat (dkeys groups) [] (filter (has_tag (py "field")) kids) ;
      ldo links <- parse_links (dkeys groups ++ dkeys fields) [] (filter (has_tag (py "link")) kids) ;
      lret (NXG name (group_attrs attrs attrib) fields groups links None)
  end.

(** punx/nxdl_manager.py:313-330 and 683-693: the names of the symbol elements *)
Definition parse_symbols (n : xnode) : list pystr :=
  flat_map (fun s => flat_map (fun k => match dget (py "name") (x_attrib k) with Some nm => [nm] | None => [] end)
                              (kids_named (py "symbol") s))
           (kids_named (py "symbols") n).

(** title and category of a file (punx/nxdl_manager.py:422-431 set_file) *)
Definition title_of (fname : pystr) : pystr := hd [] (split ch_dot (last_part ch_slash fname)).
Definition category_of (fname : pystr) : pystr := last (removelast (split ch_slash fname)) [].

(** punx/nxdl_manager.py:433-457 NXDL__definition.parse_nxdl_xml.  [valid] is the
    verdict of the XML Schema processor (validate_xml_tree, punx/nxdl_manager.py:161-176), a
    parameter: nothing is assumed about it. *)
Definition parse_definition (valid : xnode -> bool) (fname : pystr) (root : xnode) : LM nxdef :=
  let cat := category_of fname in
  if negb (valid root) then lraise InvalidNxdlFile
  else
    let symbols := parse_symbols root in
    ldo attrs <- parse_attributes cat [] (kids_named (py "attribute") root) ;
    ldo groups <- parse_groups_with (parse_group cat) cat [] (x_kids root) ;
    ldo fields <- parse_fields cat (dkeys groups) [] (kids_named (py "field") root) ;
    ldo links <- parse_links (dkeys groups ++ dkeys fields) [] (kids_named (py "link") root) ;
    lret (mkDef (title_of fname) cat attrs fields groups links symbols).

(** the loop of punx/nxdl_manager.py:94-99; [content] gives the parsed content of a
    file, [None] if lxml cannot parse it (lxml.etree.XMLSyntaxError, here OSError) *)
Fixpoint load_files (valid : xnode -> bool) (content : pystr -> option xnode) (acc : classes) (files : list pystr) : LM classes :=
  match files with
  | [] => lret acc
  | f :: rest =>
      match content f with
      | None => lraise OSError
      | Some root =>
          ldo d <- parse_definition valid f root ;
          load_files valid content (dset (d_title d) d acc) rest
      end
  end.

(** punx/nxdl_manager.py:75-108 NXDL_Manager.__init__ for a file set directory that
    exists; [d0] are the defaults read from its nxdl.xsd.  Yields the classes, and
    the shared defaults as they are afterwards. *)
Definition load_manager (ls : pystr -> option fsnode) (valid : xnode -> bool) (content : pystr -> option xnode)
    (d0 : defaults) (nxdl_dir : pystr) : defaults * res classes :=
  match get_NXDL_file_list ls nxdl_dir with
  | Ok files => load_files valid content [] files d0
  | Exn e => (d0, Exn e)
  end.
