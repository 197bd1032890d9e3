(** * The defaults of NXDL, from the XML Schema: punx/nxdl_schema.py

    nxdl.xsd is given as a tree of elements with their line numbers.  Simplifications: all
    elements are in the XML Schema namespace, so the XPath query "xs:x" selects the
    elements with local name x.  A simpleType, attributeGroup or complexType at the top of
    the schema that has no name (XML Schema forbids this) is not entered in the catalogue;
    the program enters the first two under None. *)

From Coq Require Import List NArith ZArith Bool String.
From Verif Require Import PyBase H5 SchemaMgr.
Import ListNotations.
Open Scope string_scope.
Open Scope list_scope.

(** a comment, or an element: local name, [sourceline], attributes, content *)
Inductive lnode := LComment | LN (tag : pystr) (line : N) (attrib : dict pystr) (kids : list lnode).
Definition l_attrib (n : lnode) : dict pystr := match n with LN _ _ a _ => a | LComment => [] end.
Definition l_kids (n : lnode) : list lnode := match n with LN _ _ _ k => k | LComment => [] end.
Definition l_line (n : lnode) : N := match n with LN _ l _ _ => l | LComment => 0%N end.
Definition l_is (tag : pystr) (n : lnode) : bool := match n with LN t _ _ _ => str_eqb t tag | LComment => false end.
Definition l_attr (k : string) (n : lnode) : option pystr := dget (py k) (l_attrib n).
(** [node.xpath("xs:" + tag)] *)
Definition l_named (tag : string) (n : lnode) : list lnode := filter (l_is (py tag)) (l_kids n).
(** [node.xpath("xs:a/xs:b")] *)
Definition l_path2 (a b : string) (n : lnode) : list lnode := flat_map (l_named b) (l_named a n).
(** the elements of a tree in document order, with its root *)
Fixpoint l_all (n : lnode) : list lnode :=
  match n with
  | LComment => []
  | LN t l a k => LN t l a k :: flat_map l_all k
  end.
(** [root.xpath("//xs:" + tag)] for the content of the schema element *)
Definition l_anywhere (tag : string) (kids : list lnode) : list lnode :=
  filter (l_is (py tag)) (flat_map l_all kids).

(** ** Objects
    Line numbers below are those of punx/nxdl_schema.py. *)
(** The objects that can be in a list [children]: NXDL_schema__attribute (164-172),
    NXDL_schema__element (324-329) and NXDL_schema__group (363-368).  [so_key] is [type] of
    an attribute or element, [ref] of a group: the only one of "type base ref" such an
    object has.  Objects are shared and changed in place; they live in a heap, and a list of
    children is a list of heap addresses.  [nxdl_attributes], [enum] are never set. *)
Inductive okind := KAttribute | KElement | KGroup.
Record sobj := mkSO {
  so_kind : okind;
  so_name : option pystr;
  so_key : option pystr;
  so_required : bool;
  so_default : option pystr;
  so_patterns : list pystr;
  so_maxLength : option Z;
  so_minOccurs : option pystr;
  so_maxOccurs : option pystr;
  so_children : list nat
}.
Definition heap := list sobj.
Definition so_set_key (k : pystr) (o : sobj) : sobj :=
  mkSO (so_kind o) (so_name o) (Some k) (so_required o) (so_default o) (so_patterns o) (so_maxLength o)
    (so_minOccurs o) (so_maxOccurs o) (so_children o).
Definition so_set_children (c : list nat) (o : sobj) : sobj :=
  mkSO (so_kind o) (so_name o) (so_key o) (so_required o) (so_default o) (so_patterns o) (so_maxLength o)
    (so_minOccurs o) (so_maxOccurs o) c.
Definition so_set_rules (p : list pystr) (m : option Z) (o : sobj) : sobj :=
  mkSO (so_kind o) (so_name o) (so_key o) (so_required o) (so_default o) p m
    (so_minOccurs o) (so_maxOccurs o) (so_children o).
Fixpoint hset (h : heap) (i : nat) (o : sobj) : heap :=
  match h, i with
  | [], _ => []
  | _ :: r, O => o :: r
  | x :: r, S j => x :: hset r j o
  end.
Definition hupd (f : sobj -> sobj) (i : nat) (h : heap) : heap :=
  match nth_error h i with Some o => hset h i (f o) | None => h end.
Definition children_at (h : heap) (i : nat) : list nat :=
  match nth_error h i with Some o => so_children o | None => [] end.

(** NXDL_schema_named_simpleType (396-402) *)
Record simple := mkSimple { sm_base : option pystr; sm_patterns : list pystr; sm_maxLength : option Z }.

(** what [catalog["schema"][name]] can be; [children] of an attributeGroup or complexType
    is a list that is not changed once it is in the catalogue *)
Inductive schemaref := RSimple (name : pystr) | RList (children : list nat) | RGroup (o : nat).

(** [self.db] of the catalogue.  The sections attribute, element and group have keys
    "Line %d" only: here, the line number. *)
Record catalog := mkCat {
  ca_heap : heap;
  ca_schema : option (dict schemaref);   (* None: there is no such section yet *)
  ca_simple : option (dict simple);      (* by name; the entries by line are never read *)
  ca_attribute : list (N * nat);
  ca_element : list (N * nat);
  ca_group : list (N * nat)
}.
Definition empty_catalog : catalog := mkCat [] None None [] [] [].

(** text after the last colon: [x.split(":")[-1]] *)
Definition local_name (s : pystr) : pystr := last (split ch_colon s) [].

(** ** Parsing *)
(** punx/nxdl_schema.py:174-192 NXDL_schema__attribute.parse.  [use in ("required", True)] *)
Definition parse_sattr (n : lnode) : res sobj :=
  dor pats <- match flat_map (l_named "pattern") (l_path2 "simpleType" "restriction" n) with
              | [p] => dor v <- dgetitem (py "value") (l_attrib p) ; Ok [v]
              | _ => Ok []
              end ;
  Ok (mkSO KAttribute (l_attr "name" n)
        (Some (local_name (match l_attr "type" n with Some t => t | None => py "nx:NX_CHAR" end)))
        (match l_attr "use" n with Some u => str_eqb u (py "required") | None => false end)
        (l_attr "default" n) pats None None None []).

(** parsing that allocates objects *)
Definition alloc (o : sobj) (h : heap) : heap * nat := (h ++ [o], List.length h).
Fixpoint alloc_all {A} (f : A -> heap -> res (heap * nat)) (l : list A) (h : heap) : res (heap * list nat) :=
  match l with
  | [] => Ok (h, [])
  | x :: rest =>
      dor r <- f x h ;
      dor r2 <- alloc_all f rest (fst r) ;
      Ok (fst r2, snd r :: snd r2)
  end.
Definition new_sattr (n : lnode) (h : heap) : res (heap * nat) :=
  dor o <- parse_sattr n ; Ok (alloc o h).

(** punx/nxdl_schema.py:331-352 NXDL_schema__element.parse: the content counts if there is exactly one
    complexType in the element.  [fuel] bounds the nesting of elements; it is the height of the
    tree in [new_selem] and never runs out. *)
Fixpoint new_selem_at (fuel : nat) (n : lnode) (h : heap) : res (heap * nat) :=
  match fuel with
  | O => Exn RecursionError
  | S fuel' =>
      dor kids <- match l_named "complexType" n with
                  | [t] =>
                      dor a <- alloc_all (new_selem_at fuel') (l_path2 "sequence" "element" t) h ;
                      dor b <- alloc_all new_sattr (l_named "attribute" t) (fst a) ;
                      Ok (fst b, snd a ++ snd b)
                  | _ => Ok (h, [])
                  end ;
      Ok (alloc (mkSO KElement (l_attr "name" n)
                   (Some (local_name (match l_attr "type" n with Some t => t | None => py "str" end)))
                   false None [] None (l_attr "minOccurs" n) (l_attr "maxOccurs" n) (snd kids))
                (fst kids))
  end.
Fixpoint l_height (n : lnode) : nat :=
  match n with
  | LComment => 1
  | LN _ _ _ k => S (fold_right (fun x m => Nat.max (l_height x) m) 0 k)
  end.
Definition new_selem (n : lnode) (h : heap) : res (heap * nat) := new_selem_at (l_height n) n h.

(** punx/nxdl_schema.py:370-385 NXDL_schema__group.parse *)
Definition new_sgroup (n : lnode) (h : heap) : res (heap * nat) :=
  dor kids <- alloc_all new_selem (l_path2 "sequence" "element" n) h ;
  Ok (alloc (mkSO KGroup (l_attr "name" n) (option_map local_name (l_attr "ref" n))
               false None [] None (l_attr "minOccurs" n) (l_attr "maxOccurs" n) (snd kids))
            (fst kids)).

(** ** Simple types *)
(** punx/nxdl_schema.py:418-425: the rules of one restriction *)
Fixpoint rule_patterns (acc : list pystr) (l : list lnode) : res (list pystr) :=
  match l with
  | [] => Ok acc
  | p :: rest => dor v <- dgetitem (py "value") (l_attrib p) ; rule_patterns (acc ++ [v]) rest
  end.
Fixpoint rule_maxLength (E : env) (m : option Z) (l : list lnode) : res (option Z) :=
  match l with
  | [] => Ok m
  | p :: rest =>
      dor v <- dgetitem (py "value") (l_attrib p) ;
      dor z <- py_int_text E v ; rule_maxLength E (Some z) rest
  end.
Fixpoint restrictions (E : env) (s : simple) (l : list lnode) : res simple :=
  match l with
  | [] => Ok s
  | r :: rest =>
      let base := match l_attr "base" r with Some b => Some b | None => sm_base s end in
      dor ps <- rule_patterns (sm_patterns s) (l_named "pattern" r) ;
      dor m <- rule_maxLength E (sm_maxLength s) (l_named "maxLength" r) ;
      restrictions E (mkSimple (option_map local_name base) ps m) rest
  end.
(** punx/nxdl_schema.py:404-425 NXDL_schema_named_simpleType.parse *)
Definition parse_simple (E : env) (n : lnode) : res simple :=
  restrictions E (mkSimple None [] None) (l_named "restriction" n).

(** a dictionary that is made when it is first needed *)
Definition opt_set {V} (k : pystr) (v : V) (d : option (dict V)) : option (dict V) :=
  Some (dset k v (match d with Some x => x | None => [] end)).

(** punx/nxdl_schema.py:549-558: the first loop of _parse_nxdl_simpleType_nodes.  Only names are kept in
    the section simpleType (its entries by line are never read). *)
Fixpoint simple_types (E : env) (db : dict simple) (l : list lnode) : res (dict simple) :=
  match l with
  | [] => Ok db
  | n :: rest =>
      dor s <- parse_simple E n ;
      simple_types E (match l_attr "name" n with Some k => dset k s db | None => db end) rest
  end.
(** punx/nxdl_schema.py:560-567: one type takes over the rules of its base, as the base is now *)
Definition inherit (db : dict simple) (k : pystr) : dict simple :=
  match dget k db with
  | Some v =>
      match sm_base v with
      | Some b =>
          match dget b db with
          | Some kb => dset k (mkSimple (sm_base kb) (sm_patterns v ++ sm_patterns kb) (sm_maxLength kb)) db
          | None => db
          end
      | None => db
      end
  | None => db
  end.
Definition all_simple_types (E : env) (l : list lnode) : res (dict simple) :=
  dor db <- simple_types E [] l ;
  Ok (fold_left inherit (dkeys db) db).

(** ** The catalogue *)
Definition line_get (n : lnode) (l : list (N * nat)) : option nat := aget N.eqb (l_line n) l.
Definition line_set (n : lnode) (o : nat) (l : list (N * nat)) : list (N * nat) := aset N.eqb (l_line n) o l.

(** punx/nxdl_schema.py:548-567: simpleType nodes.  The objects of simple types are in [ca_simple]. *)
Definition cat_simple (E : env) (kids : list lnode) (c : catalog) : res catalog :=
  let l := filter (l_is (py "simpleType")) kids in
  dor db <- all_simple_types E l ;
  Ok (match l with
      | [] => c
      | _ => mkCat (ca_heap c) (Some (map (fun kv => (fst kv, RSimple (fst kv))) db)) (Some db)
               (ca_attribute c) (ca_element c) (ca_group c)
      end).

(** punx/nxdl_schema.py:512-516 _parse_nxdl_attribute_nodes *)
Fixpoint cat_attributes (l : list lnode) (c : catalog) : res catalog :=
  match l with
  | [] => Ok c
  | n :: rest =>
      dor r <- new_sattr n (ca_heap c) ;
      cat_attributes rest (mkCat (fst r) (ca_schema c) (ca_simple c)
        (line_set n (snd r) (ca_attribute c)) (ca_element c) (ca_group c))
  end.

(** entry of an attributeGroup or complexType (punx/nxdl_schema.py:504-510, with 522-523 and 531-532).
    Simplification: the entry under "Line %d" that the section schema also gets is left out; only
    a reference with a blank in it could find it. *)
Definition enter (n : lnode) (r : schemaref) (d : option (dict schemaref)) : option (dict schemaref) :=
  match l_attr "name" n with
  | Some k => opt_set k r d
  | None => Some (match d with Some x => x | None => [] end)
  end.

(** punx/nxdl_schema.py:518-523 _parse_nxdl_attributeGroup_nodes, with 207-221 *)
Fixpoint cat_attributeGroups (l : list lnode) (c : catalog) : res catalog :=
  match l with
  | [] => Ok c
  | n :: rest =>
      dor r <- alloc_all new_sattr (l_named "attribute" n) (ca_heap c) ;
      cat_attributeGroups rest (mkCat (fst r) (enter n (RList (snd r)) (ca_schema c)) (ca_simple c)
        (ca_attribute c) (ca_element c) (ca_group c))
  end.

(** punx/nxdl_schema.py:534-538 _parse_nxdl_element_nodes *)
Fixpoint cat_elements (l : list lnode) (c : catalog) : res catalog :=
  match l with
  | [] => Ok c
  | n :: rest =>
      dor r <- new_selem n (ca_heap c) ;
      cat_elements rest (mkCat (fst r) (ca_schema c) (ca_simple c)
        (ca_attribute c) (line_set n (snd r) (ca_element c)) (ca_group c))
  end.

(** punx/nxdl_schema.py:540-546 _parse_nxdl_group_nodes: KeyError if there is no section schema yet *)
Fixpoint cat_groups (l : list lnode) (c : catalog) : res catalog :=
  match l with
  | [] => Ok c
  | n :: rest =>
      dor r <- new_sgroup n (ca_heap c) ;
      dor s <- match l_attr "name" n, ca_schema c with
               | None, s => Ok s
               | Some k, Some d => Ok (Some (dset k (RGroup (snd r)) d))
               | Some _, None => Exn KeyError
               end ;
      cat_groups rest (mkCat (fst r) s (ca_simple c)
        (ca_attribute c) (ca_element c) (line_set n (snd r) (ca_group c)))
  end.

(** ** Complex types *)
(** the children of what the name stands for *)
Definition ref_children (c : catalog) (r : schemaref) : list nat :=
  match r with
  | RSimple _ => []
  | RList l => l
  | RGroup o => children_at (ca_heap c) o
  end.
(** [catalog["schema"][name].children] *)
Definition schema_children (c : catalog) (name : pystr) : res (list nat) :=
  match ca_schema c with
  | Some d => dor r <- dgetitem name d ; Ok (ref_children c r)
  | None => Exn KeyError
  end.
(** punx/nxdl_schema.py:258-263, 277-282, 300-305: the object of a node, by its line *)
Definition by_line (section : list (N * nat)) (n : lnode) : res nat :=
  match line_get n section with Some o => Ok o | None => Exn KeyError end.
(** punx/nxdl_schema.py:307-317 _parse_sequence *)
Definition ct_sequence (c : catalog) (n : lnode) : res (list nat) :=
  dor a <- traverse (by_line (ca_element c)) (l_named "element" n) ;
  dor b <- traverse (by_line (ca_group c)) (l_named "group" n) ;
  Ok (a ++ b).
(** punx/nxdl_schema.py:284-298 _parse_extension; the base must be in the catalogue already *)
Definition ct_extension (c : catalog) (n : lnode) : res (list nat) :=
  dor a <- match l_attr "base" n with
           | Some b => schema_children c (local_name b)
           | None => Ok []
           end ;
  dor s <- traverse (ct_sequence c) (l_named "sequence" n) ;
  dor t <- traverse (by_line (ca_attribute c)) (l_named "attribute" n) ;
  Ok (a ++ List.concat s ++ t).
(** punx/nxdl_schema.py:272-275 _parse_complexContent: the first node in it, which may be a comment (no
    [tag.endswith]) *)
Definition ct_content (c : catalog) (n : lnode) : res (list nat) :=
  match l_kids n with
  | [] => Exn IndexError
  | LComment :: _ => Exn AttributeError
  | x :: _ => if l_is (py "extension") x then ct_extension c x else Exn AssertionError
  end.
(** punx/nxdl_schema.py:265-270 _parse_attributeGroup *)
Definition ct_attributeGroup (c : catalog) (n : lnode) : res (list nat) :=
  dor r <- dgetitem (py "ref") (l_attrib n) ; schema_children c (local_name r).

(** punx/nxdl_schema.py:236-256 NXDL_schema__complexType.parse *)
Definition ct_children (c : catalog) (n : lnode) : res (list nat) :=
  dor a <- traverse (ct_sequence c) (l_named "sequence" n) ;
  dor b <- traverse (ct_content c) (l_named "complexContent" n) ;
  dor g <- traverse (by_line (ca_group c)) (l_named "group" n) ;
  dor t <- traverse (by_line (ca_attribute c)) (l_named "attribute" n) ;
  dor r <- traverse (ct_attributeGroup c) (l_named "attributeGroup" n) ;
  Ok (List.concat a ++ List.concat b ++ g ++ t ++ List.concat r).

(** punx/nxdl_schema.py:525-532 _parse_nxdl_complexType_nodes *)
Fixpoint cat_complexTypes (l : list lnode) (c : catalog) : res catalog :=
  match l with
  | [] => Ok c
  | n :: rest =>
      match l_attr "name" n with
      | None => cat_complexTypes rest c
      | Some _ =>
          dor ch <- ct_children c n ;
          cat_complexTypes rest (mkCat (ca_heap c) (enter n (RList ch) (ca_schema c)) (ca_simple c)
            (ca_attribute c) (ca_element c) (ca_group c))
      end
  end.

(** punx/nxdl_schema.py:447-453: all nodes; [kids] is the content of the schema element *)
Definition read_catalog (E : env) (kids : list lnode) : res catalog :=
  dor c <- cat_simple E kids empty_catalog ;
  dor c <- cat_attributes (l_anywhere "attribute" kids) c ;
  dor c <- cat_attributeGroups (filter (l_is (py "attributeGroup")) kids) c ;
  dor c <- cat_elements (l_anywhere "element" kids) c ;
  dor c <- cat_groups (l_anywhere "group" kids) c ;
  cat_complexTypes (filter (l_is (py "complexType")) kids) c.

(** ** Substitution *)
(** [copy.deepcopy] of an object.  No record of what is already copied is kept: it would
    matter only for an object that is in its own content more than once, which takes two
    elements on one line. *)
Fixpoint deepcopy (fuel : nat) (i : nat) (h : heap) : res (heap * nat) :=
  match fuel with
  | O => Exn RecursionError
  | S fuel' =>
      match nth_error h i with
      | None => Exn KeyError
      | Some o =>
          dor r <- alloc_all (deepcopy fuel') (so_children o) h ;
          Ok (alloc (so_set_children (snd r) o) (fst r))
      end
  end.

(** punx/nxdl_schema.py:484-490: the test for the recursive content of a group *)
Definition is_recursion (h : heap) (i : nat) : bool :=
  match nth_error h i with
  | Some o => match so_kind o, so_key o with KGroup, Some k => str_eqb k (py "groupGroup") | _, _ => false end
  | None => false
  end.

(** a for loop that changes objects *)
Fixpoint for_each {A} (f : A -> heap -> res heap) (l : list A) (h : heap) : res heap :=
  match l with
  | [] => Ok h
  | x :: rest => dor h' <- f x h ; for_each f rest h'
  end.

(** one node of the loop of apply_substitutions (punx/nxdl_schema.py:469-500), given the recursive call.
    Simplification: the loops run over the lists as they are when the loop starts; they change
    during the loop only if an object is in its own content. *)
Definition substitute (fuel : nat) (recurse : nat -> heap -> res heap) (schema : dict schemaref) (types : dict simple)
    (i : nat) (h : heap) : res heap :=
  match nth_error h i with
  | None => Exn KeyError
  | Some o =>
      match so_key o with
      | None => Ok h
      | Some key =>
          match dget key schema with
          | None => Ok h
          | Some reference =>
              let h := hupd (so_set_key (py "__" ++ key)) i h in
              dor h <-
                match so_kind o with
                | KAttribute => Ok h
                | _ =>
                    let items := match reference with
                                 | RSimple _ => []
                                 | RList l => l
                                 | RGroup g => children_at h g
                                 end in
                    dor h <- for_each (fun item h =>
                               if is_recursion h item then Ok h
                               else dor r <- deepcopy fuel item h ;
                                    Ok (hupd (fun p => so_set_children (so_children p ++ [snd r]) p) i (fst r)))
                             items h ;
                    recurse i h
                end ;
              match reference with
              | RSimple s =>
                  match dget s types with
                  | Some v => Ok (hupd (so_set_rules (sm_patterns v) (sm_maxLength v)) i h)
                  | None => Ok h
                  end
              | _ => Ok h
              end
          end
      end
  end.

(** punx/nxdl_schema.py:468-500 apply_substitutions; [fuel] is the limit of recursion *)
Fixpoint apply_substitutions (fuel : nat) (schema : dict schemaref) (types : dict simple) (i : nat) (h : heap) : res heap :=
  match fuel with
  | O => Exn RecursionError
  | S fuel' => for_each (substitute fuel (apply_substitutions fuel' schema types) schema types) (children_at h i) h
  end.

(** punx/nxdl_schema.py:457-502 _init_definition_element; yields the definition element *)
Definition init_definition (fuel : nat) (kids : list lnode) (c : catalog) : res (nat * heap) :=
  match filter (l_is (py "element")) kids with
  | [n] =>
      dor d <- by_line (ca_element c) n ;
      dor t <- dgetitem (py "type") (l_attrib n) ;
      dor ch <- schema_children c (local_name t) ;
      let h := hupd (fun p => so_set_children (so_children p ++ ch) p) d (ca_heap c) in
      let schema := match ca_schema c with Some s => s | None => [] end in
      let types := match ca_simple c with Some s => s | None => [] end in
      dor h <- apply_substitutions fuel schema types d h ;
      Ok (d, h)
  | _ => Exn AssertionError
  end.

(** ** The summary *)
Definition okind_eqb (a b : okind) : bool :=
  match a, b with KAttribute, KAttribute | KElement, KElement | KGroup, KGroup => true | _, _ => false end.
(** "(attribute)", "(element)", "(group)" *)
Definition anonymous (k : okind) : pystr :=
  match k with KAttribute => py "(attribute)" | KElement => py "(element)" | KGroup => py "(group)" end.
(** punx/nxdl_schema.py:615-630: the dictionary of one kind of children of an object; an empty name counts
    as none *)
Definition kids_of (k : okind) (h : heap) (i : nat) : dict nat :=
  fold_left (fun d j =>
      match nth_error h j with
      | Some o =>
          if okind_eqb (so_kind o) k then
            dset (match so_name o with Some [] | None => anonymous k | Some s => s end) j d
          else d
      | None => d
      end) (children_at h i) [].
(** does build_tree (punx/nxdl_schema.py:615-634) end within the limit of recursion *)
Fixpoint build_tree (fuel : nat) (h : heap) (i : nat) : res unit :=
  match fuel with
  | O => Exn RecursionError
  | S fuel' => dor _u <- traverse (build_tree fuel' h) (children_at h i) ; Ok tt
  end.

(** NXDL_Summary: the objects it names, in the heap as it is at the end.  Line 605 replaces
    the attributes of [group] by those of its component "group", hence [su_group_attrs]. *)
Record summary := mkSu {
  su_heap : heap;
  su_definition : nat;
  su_group : nat;
  su_group_attrs : nat;
  su_attribute : nat;
  su_doc : nat;
  su_field : nat;
  su_link : nat;
  su_symbols : nat;
  su_simpleType : dict simple
}.
Definition first_value {V} (d : dict V) : res V := match d with (_, v) :: _ => Ok v | [] => Exn IndexError end.

(** punx/nxdl_schema.py:598-613 NXDL_Summary.setup, with 441-455.  [limit] is the limit of recursion. *)
Definition nxdl_summary (E : env) (limit : nat) (kids : list lnode) : res summary :=
  dor c <- read_catalog E kids ;
  dor r <- init_definition limit kids c ;
  let d := fst r in
  let h := snd r in
  dor _u <- build_tree limit h d ;
  dor g <- first_value (kids_of KGroup h d) ;
  let part := fun name : string => dgetitem (py name) (kids_of KElement h g) in
  dor gg <- part "group" ;
  dor a <- part "attribute" ;
  dor doc <- part "doc" ;
  dor f <- part "field" ;
  dor l <- part "link" ;
  dor s <- first_value (kids_of KElement h d) ;
  dor st <- match ca_simple c with Some x => Ok x | None => Exn KeyError end ;
  Ok (mkSu h d g gg a doc f l s st).

(** ** What a user reads from it *)
(** [summary.X.attributes[name]] for the object X at [i] *)
Record adefault := mkAD { ad_type : option pystr; ad_required : bool; ad_default : option pystr;
                          ad_patterns : list pystr; ad_maxLength : option Z }.
Definition attribute_of (h : heap) (i : nat) (name : pystr) : option adefault :=
  match dget name (kids_of KAttribute h i) with
  | Some j => match nth_error h j with
              | Some o => Some (mkAD (so_key o) (so_required o) (so_default o) (so_patterns o) (so_maxLength o))
              | None => None
              end
  | None => None
  end.
(** [list(summary.X.attributes)] *)
Definition attribute_names (h : heap) (i : nat) : list pystr := dkeys (kids_of KAttribute h i).
(** [summary.X.components[name]] *)
Definition component_of (h : heap) (i : nat) (name : pystr) : option nat := dget name (kids_of KElement h i).
