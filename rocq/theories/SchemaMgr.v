(** * The XML Schema of a file set: punx/schema_manager.py, punx/singletons.py

    lxml's own part (parsing, and making an XMLSchema of nxdl.xsd) is not modelled: the
    schema files are given as trees.  Simplification: all elements are in the XML Schema
    namespace, so that [tag.endswith("}x")] and the XPath query "xs:x" both mean that
    the local name is x, and the assertion at punx/schema_manager.py:424 holds. *)

From Coq Require Import List NArith ZArith Bool String.
From Verif Require Import PyBase H5 Cache.
Import ListNotations.
Open Scope string_scope.
Open Scope list_scope.

(** a comment, or an element: local name, attributes, content *)
Inductive snode := SComment | SN (tag : pystr) (attrib : dict pystr) (kids : list snode).
Definition s_attrib (n : snode) : dict pystr := match n with SN _ a _ => a | SComment => [] end.
Definition s_kids (n : snode) : list snode := match n with SN _ _ k => k | SComment => [] end.
Definition s_is (tag : pystr) (n : snode) : bool := match n with SN t _ _ => str_eqb t tag | SComment => false end.
(** [node.xpath("xs:" + tag)] *)
Definition s_named (tag : pystr) (l : list snode) : list snode := filter (s_is tag) l.

(** punx/schema_manager.py:56-63 strip_ns *)
Definition strip_ns (ref : pystr) : pystr := last (split ch_colon ref) [].

(** ** Patterns *)
(** punx/schema_manager.py:209-219 Schema_pattern *)
Record spattern := mkSP { sp_base : pystr; sp_res : list pystr; sp_maxLength : Z }.

(** punx/schema_manager.py:148-155: the content of the restriction *)
Fixpoint restriction_items (E : env) (p : spattern) (l : list snode) : res spattern :=
  match l with
  | [] => Ok p
  | n :: rest =>
      if s_is (py "pattern") n then
        dor v <- dgetitem (py "value") (s_attrib n) ;
        restriction_items E (mkSP (sp_base p) (sp_res p ++ [v]) (sp_maxLength p)) rest
      else if s_is (py "maxLength") n then
        dor v <- dgetitem (py "value") (s_attrib n) ;
        dor z <- py_int_text E v ;
        restriction_items E (mkSP (sp_base p) (sp_res p) z) rest
      else restriction_items E p rest
  end.

(** punx/schema_manager.py:144-155: one simpleType *)
Definition one_pattern (E : env) (n : snode) : res spattern :=
  match s_named (py "restriction") (s_kids n) with
  | [r] =>
      dor b <- dgetitem (py "base") (s_attrib r) ;
      restriction_items E (mkSP (strip_ns b) [] (-1)) (s_kids r)
  | _ => Exn AssertionError
  end.

(** punx/schema_manager.py:136-155: the types called valid... *)
Fixpoint own_patterns (E : env) (db : dict spattern) (l : list snode) : res (dict spattern) :=
  match l with
  | [] => Ok db
  | n :: rest =>
      if s_is (py "simpleType") n then
        dor key <- dgetitem (py "name") (s_attrib n) ;
        if startswith key (py "valid") then
          dor p <- one_pattern E n ;
          own_patterns E (dset key p db) rest
        else own_patterns E db rest
      else own_patterns E db rest
  end.

(** punx/schema_manager.py:157-163: the adjustment for one type, in the order of [db.values()] *)
Definition adjust (db : dict spattern) (key : pystr) : dict spattern :=
  match dget key db with
  | None => db
  | Some v =>
      if str_eqb (sp_base v) (py "token") then db
      else match dget (sp_base v) db with
           | None => db
           | Some b => dset key (mkSP (sp_base b) (sp_res v ++ sp_res b) (sp_maxLength b)) db
           end
  end.

(** punx/schema_manager.py:132-164 parse_nxdl_patterns *)
Definition parse_nxdl_patterns (E : env) (root : list snode) : res (dict spattern) :=
  dor db <- own_patterns E [] root ;
  Ok (fold_left adjust (dkeys db) db).

(** ** Types *)
(** punx/schema_manager.py:222-261 Schema_nxdlType, without schema_root and attrs *)
Record stype := mkTy { ty_name : option pystr; ty_restriction : option pystr; ty_union : option (list pystr); ty_values : option (list pystr) }.

(** [s.split()]: the words between blanks (of XML and ASCII).  Simplification: the results
    of [map] at punx/schema_manager.py:241 and 251 are iterators, that can be read once. *)
Fixpoint words (s cur : pystr) : list pystr :=
  match s with
  | [] => match cur with [] => [] | _ => [cur] end
  | c :: s' => if (c =? 32)%N || ((9 <=? c)%N && (c <=? 13)%N) then match cur with [] => words s' [] | _ => cur :: words s' [] end
               else words s' (cur ++ [c])
  end.

(** punx/schema_manager.py:252-257: the enumerations of a restriction *)
Fixpoint enum_values (l : list snode) : res (list pystr) :=
  match l with
  | [] => Ok []
  | n :: rest => if s_is (py "enumeration") n then
                   dor v <- dgetitem (py "value") (s_attrib n) ; dor r <- enum_values rest ; Ok (v :: r)
                 else enum_values rest
  end.

(** punx/schema_manager.py:236-261: the content of one type *)
Fixpoint type_content (t : stype) (l : list snode) : res stype :=
  match l with
  | [] => Ok t
  | SComment :: rest => type_content t rest
  | (SN tag attrib kids as n) :: rest =>
      if str_eqb tag (py "annotation") then type_content t rest
      else if str_eqb tag (py "list") then
        dor i <- dgetitem (py "itemType") attrib ;
        type_content (mkTy (ty_name t) (ty_restriction t) (ty_union t) (Some [strip_ns i])) rest
      else if str_eqb tag (py "restriction") then
        dor b <- dgetitem (py "base") attrib ;
        dor vs <- enum_values kids ;
        type_content (mkTy (ty_name t) (Some (strip_ns b)) (ty_union t) (Some vs)) rest
      else if str_eqb tag (py "union") then
        dor m <- dgetitem (py "memberTypes") attrib ;
        type_content (mkTy (ty_name t) (ty_restriction t) (Some (map strip_ns (words m []))) (ty_values t)) rest
      else Exn ValueError
  end.

(** punx/schema_manager.py:166-206 parse_nxdlTypes, on the content of nxdlTypes.xsd
    ([None]: there is no such file) *)
Fixpoint types_of (db : dict stype) (l : list snode) : res (dict stype) :=
  match l with
  | [] => Ok db
  | SComment :: rest => types_of db rest
  | (SN tag attrib kids as n) :: rest =>
      if str_eqb tag (py "annotation") then types_of db rest
      else
        dor t <- type_content (mkTy (dget (py "name") attrib) None None None) kids ;
        match ty_name t with
        | Some nm => types_of (dset nm t db) rest
        | None => types_of db rest
        end
  end.
Definition ddel {V} (k : pystr) (d : dict V) : dict V := filter (fun kv => negb (str_eqb (fst kv) k)) d.
Definition parse_nxdlTypes (types : option (list snode)) : res (dict stype * list pystr) :=
  match types with
  | None => Exn FileNotFound
  | Some l =>
      dor db <- types_of [] l ;
      dor u <- dgetitem (py "anyUnitsAttr") db ;
      let db1 := ddel (py "anyUnitsAttr") db in
      if dmem (py "primitiveType") db1 then
        Ok (ddel (py "primitiveType") db1, match ty_values u with Some v => v | None => [] end)
      else Exn KeyError
  end.

(** ** The structures *)
(** punx/schema_manager.py:421-453 Schema_Attribute; the default is text, None or a boolean *)
Inductive sdefault := SText (s : pystr) | SNone | SBool (b : bool).
Record sattr := mkSA { sa_name : option pystr; sa_required : bool; sa_type : pystr; sa_default : sdefault; sa_enum : list pystr; sa_patterns : list pystr }.

(** [s.lower() in ("true", "y", 1)]; no character that is not ASCII has one of these
    letters as its lower case *)
Definition lower_char (c : N) : N := if (65 <=? c)%N && (c <=? 90)%N then (c + 32)%N else c.
Definition is_true (s : pystr) : bool := let t := map lower_char s in str_eqb t (py "true") || str_eqb t (py "y").

(** the XPath queries of punx/schema_manager.py:447-459 *)
Definition values_at (path : list pystr) (n : snode) : list pystr :=
  flat_map (fun m => match dget (py "value") (s_attrib m) with Some v => [v] | None => [] end)
           (fold_left (fun l tag => flat_map (fun m => s_named tag (s_kids m)) l) path [n]).

(** punx/schema_manager.py:429-459 Schema_Attribute *)
Definition schema_attribute (n : snode) : res sattr :=
  let a := s_attrib n in
  let ty := match dget (py "type") a with Some t => t | None => py "str" end in
  dor d <- (if str_eqb ty (py "nx:NX_BOOLEAN")
            then match dget (py "default") a with Some s => Ok (SBool (is_true s)) | None => Exn AttributeError end
            else Ok (match dget (py "default") a with Some s => SText s | None => SNone end)) ;
  Ok (mkSA (dget (py "name") a)
           (str_eqb (match dget (py "use") a with Some u => u | None => py "optional" end) (py "required"))
           ty d
           (values_at [py "simpleType"; py "restriction"; py "enumeration"] n)
           (values_at [py "simpleType"; py "restriction"; py "pattern"] n)).

(** Schema_Element and _Recursion *)
Inductive sobj :=
| SElem (name : option pystr) (type : option pystr) (attrs : dict sattr) (children : dict sobj)
| SRec.

(** a key of the dictionaries: a name or None; the latter is the text of one NUL, which
    does not occur in XML *)
Definition okey (name : option pystr) : pystr := match name with Some n => n | None => [0%N] end.
Definition sobj_name (o : sobj) : option pystr := match o with SElem n _ _ _ => n | SRec => Some (py "group") end.

(** computations that read and set [_GroupParsing().started] (punx/schema_manager.py:587-593), of which
    there is one in the process *)
Definition SM (A : Type) := bool -> bool * res A.
Definition sret {A} (a : A) : SM A := fun b => (b, Ok a).
Definition sraise {A} (e : exn) : SM A := fun b => (b, Exn e).
Definition slift {A} (r : res A) : SM A := fun b => (b, r).
Definition sbind {A B} (m : SM A) (f : A -> SM B) : SM B := fun b =>
  let '(b', r) := m b in match r with Ok a => f a b' | Exn e => (b', Exn e) end.
Notation "'sdo' x <- m ; f" := (sbind m (fun x => f))
  (at level 200, x binder, m at level 100, f at level 200, right associativity).
Definition get_started : SM bool := fun b => (b, Ok b).
Definition set_started : SM unit := fun _ => (true, Ok tt).

(** attributes and children of a structure *)
Definition content := (dict sattr * dict sobj)%type.
(** punx/schema_manager.py:289-298 copy_to *)
Definition copy_to (src target : content) : content := (dupdate (fst target) (fst src), dupdate (snd target) (snd src)).
Definition add_child (o : sobj) (c : content) : content := (fst c, dset (okey (sobj_name o)) o (snd c)).
Definition add_attr (a : sattr) (c : content) : content := (dset (okey (sa_name a)) a (fst c), snd c).

(** punx/schema_manager.py:269-287 get_named_node: the one child of the root with this tag ("*": any) and
    name.  Simplification: a name with a quotation mark is a malformed XPath query for lxml. *)
Definition get_named_node (root : list snode) (tag : option pystr) (value : pystr) : res snode :=
  match filter (fun n => match n with
                         | SComment => false
                         | SN t a _ => match tag with Some x => str_eqb t x | None => true end
                                       && match dget (py "name") a with Some v => str_eqb v value | None => false end
                         end) root with
  | [n] => Ok n
  | _ => Exn ValueError
  end.

Section Structures.
  Context (root : list snode).
  (** Schema_Type(ref) *)
  Context (schema_type : option pystr -> SM content).

  (** punx/schema_manager.py:479-520 Schema_Element: the children when there is no type *)
  Fixpoint inline_types (attrs : dict sattr) (l : list snode) : res (dict sattr) :=
    match l with
    | [] => Ok attrs
    | SComment :: _ => Exn AttributeError
    | SN tag _ kids :: rest =>
        if str_eqb tag (py "complexType") then
          match s_named (py "attribute") kids with
          | [] => Exn AssertionError
          | a :: _ => dor x <- schema_attribute a ; inline_types (dset (okey (sa_name x)) x attrs) rest
          end
        else if str_eqb tag (py "annotation") then inline_types attrs rest
        else Exn ValueError
    end.

  (** punx/schema_manager.py:487-522 Schema_Element *)
  Definition schema_element (n : snode) : SM sobj :=
    let name := dget (py "name") (s_attrib n) in
    match dget (py "type") (s_attrib n) with
    | None => sdo attrs <- slift (inline_types [] (s_kids n)) ; sret (SElem name None attrs [])
    | Some ty =>
        sdo nm <- slift (dgetitem (py "name") (s_attrib n)) ;
        if str_eqb nm (py "group") && str_eqb ty (py "nx:groupType") then
          sdo started <- get_started ;
          sdo _u <- set_started ;
          if started then sret (SElem name (Some ty) [] [(py "group", SRec)])
          else sdo c <- schema_type (Some ty) ; let c' := copy_to c ([], []) in sret (SElem name (Some ty) (fst c') (snd c'))
        else sdo c <- schema_type (Some ty) ; let c' := copy_to c ([], []) in sret (SElem name (Some ty) (fst c') (snd c'))
    end.

  (** punx/schema_manager.py:568-584 Schema_Type.parse_sequence *)
  Fixpoint parse_sequence (c : content) (l : list snode) : SM content :=
    match l with
    | [] => sret c
    | SComment :: _ => sraise AttributeError
    | (SN tag _ _ as n) :: rest =>
        if str_eqb tag (py "element") || str_eqb tag (py "group") then
          sdo o <- schema_element n ; parse_sequence (add_child o c) rest
        else if str_eqb tag (py "any") then parse_sequence c rest
        else sraise ValueError
    end.

  (** punx/schema_manager.py:319-330: the content of an extension *)
  Fixpoint extension_content (c : content) (l : list snode) : SM content :=
    match l with
    | [] => sret c
    | SComment :: _ => sraise AttributeError
    | (SN tag _ kids as n) :: rest =>
        if str_eqb tag (py "annotation") then extension_content c rest
        else if str_eqb tag (py "attribute") then
          sdo a <- slift (schema_attribute n) ; extension_content (add_attr a c) rest
        else if str_eqb tag (py "sequence") then
          sdo c' <- parse_sequence c kids ; extension_content c' rest
        else sraise ValueError
    end.

  (** punx/schema_manager.py:311-333 parse_complexContent: [ref not in ("nx:basicComponent")] is a test for
      a part of the text; [None in "text"] is TypeError *)
  Fixpoint parse_complexContent (c : content) (l : list snode) : SM content :=
    match l with
    | [] => sret c
    | SComment :: _ => sraise AttributeError
    | SN tag attrib kids :: rest =>
        if str_eqb tag (py "extension") then
          match dget (py "base") attrib with
          | None => sraise TypeError
          | Some ref =>
              if negb (contains_sub (py "nx:basicComponent") ref) then sraise ValueError
              else
                sdo o <- schema_type (Some ref) ;
                sdo c' <- extension_content (copy_to o c) kids ;
                parse_complexContent c' rest
          end
        else sraise ValueError
    end.

  (** punx/schema_manager.py:548-566: the content of a type *)
  Fixpoint type_structure (c : content) (l : list snode) : SM content :=
    match l with
    | [] => sret c
    | SComment :: rest => type_structure c rest
    | (SN tag attrib kids as n) :: rest =>
        if str_eqb tag (py "annotation") then type_structure c rest
        else if str_eqb tag (py "attribute") then
          sdo a <- slift (schema_attribute n) ; type_structure (add_attr a c) rest
        else if str_eqb tag (py "attributeGroup") || str_eqb tag (py "group") then
          sdo o <- schema_type (dget (py "ref") attrib) ; type_structure (copy_to o c) rest
        else if str_eqb tag (py "complexContent") then
          sdo c' <- parse_complexContent c kids ; type_structure c' rest
        else if str_eqb tag (py "sequence") then
          sdo c' <- parse_sequence c kids ; type_structure c' rest
        else sraise ValueError
    end.
End Structures.

(** punx/schema_manager.py:523-566 Schema_Type; [fuel] is what is left of Python's stack *)
Fixpoint schema_type (fuel : nat) (root : list snode) (ref : option pystr) : SM content :=
  match fuel with
  | O => sraise RecursionError
  | S fuel' =>
      match ref with
      | None => sraise AttributeError
      | Some r =>
          sdo n <- slift (get_named_node root None (strip_ns r)) ;
          type_structure (schema_type fuel' root) ([], []) (s_kids n)
      end
  end.

(** ** The process *)
(** what is shared by all loads: _GroupParsing().started, and the dictionaries [attrs] and
    [children] of the class Schema_Root (punx/schema_manager.py:346-347), of which every instance has the same *)
Record shared := mkSh { sh_started : bool; sh_attrs : dict sattr; sh_children : dict sobj }.
Definition process_start : shared := mkSh false [] [].

(** computations on it *)
Definition GM (A : Type) := shared -> shared * res A.
Definition gret {A} (a : A) : GM A := fun g => (g, Ok a).
Definition graise {A} (e : exn) : GM A := fun g => (g, Exn e).
Definition gbind {A B} (m : GM A) (f : A -> GM B) : GM B := fun g =>
  let '(g', r) := m g in match r with Ok a => f a g' | Exn e => (g', Exn e) end.
Notation "'gdo' x <- m ; f" := (gbind m (fun x => f))
  (at level 200, x binder, m at level 100, f at level 200, right associativity).
Definition of_sm {A} (m : SM A) : GM A := fun g => let '(b, r) := m (sh_started g) in (mkSh b (sh_attrs g) (sh_children g), r).
Definition glift {A} (r : res A) : GM A := fun g => (g, r).
(** [copy_to(self)], [self.attrs[...] = ...], [self.children[...] = ...] of a Schema_Root *)
Definition change (f : content -> content) : GM unit := fun g =>
  let c := f (sh_attrs g, sh_children g) in (mkSh (sh_started g) (fst c) (snd c), Ok tt).

Section Root.
  Context (fuel : nat) (root : list snode).
  (** punx/schema_manager.py:399-411 Schema_Root.parse_sequence *)
  Fixpoint root_sequence (l : list snode) : GM unit :=
    match l with
    | [] => gret tt
    | SComment :: _ => graise AttributeError
    | (SN tag attrib _ as n) :: rest =>
        if str_eqb tag (py "element") then
          gdo o <- of_sm (schema_element (schema_type fuel root) n) ;
          gdo _u <- change (add_child o) ; root_sequence rest
        else if str_eqb tag (py "group") then
          gdo o <- of_sm (schema_type fuel root (dget (py "ref") attrib)) ;
          gdo _u <- change (copy_to o) ; root_sequence rest
        else graise ValueError
    end.

  (** punx/schema_manager.py:380-391 *)
  Fixpoint root_content (l : list snode) : GM unit :=
    match l with
    | [] => gret tt
    | SComment :: _ => graise AttributeError
    | (SN tag attrib kids as n) :: rest =>
        if str_eqb tag (py "attribute") then
          gdo a <- glift (schema_attribute n) ;
          gdo _u <- change (add_attr a) ; root_content rest
        else if str_eqb tag (py "attributeGroup") then
          gdo o <- of_sm (schema_type fuel root (dget (py "ref") attrib)) ;
          gdo _u <- change (copy_to o) ; root_content rest
        else if str_eqb tag (py "sequence") then gdo _u <- root_sequence kids ; root_content rest
        else if str_eqb tag (py "annotation") then root_content rest
        else graise ValueError
    end.
End Root.

(** what a file set directory holds: the contents of nxdl.xsd and nxdlTypes.xsd *)
Record xsd_dir := mkXD { xd_nxdl : option (list snode); xd_types : option (list snode) }.
(** what a manager holds of its own *)
Record smanager := mkSMgr { sm_types : dict stype; sm_units : list pystr; sm_patterns : dict spattern; sm_schema_types : dict sobj }.

(** punx/schema_manager.py:97-130 SchemaManager.__init__(path) with 353-398
    Schema_Root.__init__.  [sm_schema_types]: the children copied at punx/schema_manager.py:397. *)
Definition schema_manager (E : env) (fuel : nat) (d : xsd_dir) : GM smanager :=
  match xd_nxdl d with
  | None => graise FileNotFound
  | Some root =>
      match s_named (py "element") root with
      | [el] =>
          match dget (py "type") (s_attrib el) with
          | None => graise ValueError
          | Some ty =>
              gdo n <- glift (get_named_node root (Some (py "complexType")) (strip_ns ty)) ;
              gdo _u <- root_content fuel root (s_kids n) ;
              gdo tu <- glift (parse_nxdlTypes (xd_types d)) ;
              gdo ps <- glift (parse_nxdl_patterns E root) ;
              fun g => (g, Ok (mkSMgr (fst tu) (snd tu) ps (sh_children g)))
          end
      | _ => graise InvalidNxdlFile
      end
  end.

(** the process after loading the directories of [h] *)
Definition loads (E : env) (fuel : nat) (h : list xsd_dir) : shared :=
  fold_left (fun g d => fst (schema_manager E fuel d g)) h process_start.

(** what a user sees of [SchemaManager(d).nxdl]: attrs, children, and the rest *)
Definition seen (E : env) (fuel : nat) (h : list xsd_dir) (d : xsd_dir) : res (dict sattr * dict sobj * smanager) :=
  let '(g, r) := schema_manager E fuel d (loads E fuel h) in rmap (fun m => (sh_attrs g, sh_children g, m)) r.
