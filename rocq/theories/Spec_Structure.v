(** * Vocabulary for what a schema says of data types, attributes and elements *)

From Coq Require Import List NArith ZArith Bool String.
From Verif Require Import PyBase H5 SchemaMgr Spec_Schema.
Import ListNotations.
Open Scope string_scope.
Open Scope list_scope.

(** [x] is the last one of [l] with [P]; [l] has none *)
Definition last_of {A} (P : A -> Prop) (l : list A) (x : A) : Prop :=
  exists l1 l2, l = l1 ++ x :: l2 /\ P x /\ forall y, In y l2 -> ~ P y.
Definition none_of {A} (P : A -> Prop) (l : list A) : Prop := forall y, In y l -> ~ P y.

(** an element with this tag *)
Definition element (tag : pystr) (n : snode) : Prop := exists attrib kids, n = SN tag attrib kids.

(** the words of a text, between blanks *)
Definition blank (c : N) : Prop := (c = 32 \/ (9 <= c /\ c <= 13))%N.
Inductive words_of : pystr -> list pystr -> Prop :=
| wo_end : forall s, Forall blank s -> words_of s []
| wo_word : forall b w s ws, Forall blank b -> w <> [] -> Forall (fun c => ~ blank c) w ->
    (s = [] \/ exists c s', s = c :: s' /\ blank c) -> words_of s ws -> words_of (b ++ w ++ s) (w :: ws).

(** ** Data types: nxdlTypes.xsd *)
(** a declaration at the top of the file, of this name *)
Definition type_called (nm : pystr) (n : snode) : Prop := called nm n /\ ~ element (py "annotation") n.

(** what the content [k] of a declaration says of the type [t] *)
Definition type_says (k : list snode) (t : stype) : Prop :=
  (* the base of the restriction, without its namespace prefix *)
  (none_of (element (py "restriction")) k -> ty_restriction t = None)
  /\ (forall a rk, last_of (element (py "restriction")) k (SN (py "restriction") a rk) ->
        exists base b, dget (py "base") a = Some base /\ after_colon base b /\ ty_restriction t = Some b)
  (* the members of the union *)
  /\ (none_of (element (py "union")) k -> ty_union t = None)
  /\ (forall a uk, last_of (element (py "union")) k (SN (py "union") a uk) ->
        exists text ws ms, dget (py "memberTypes") a = Some text /\ words_of text ws /\ Forall2 after_colon ws ms /\ ty_union t = Some ms)
  (* the values: those of the enumeration, or the type of the items of a list *)
  /\ (none_of (fun n => element (py "restriction") n \/ element (py "list") n) k -> ty_values t = None)
  /\ (forall a rk, last_of (fun n => element (py "restriction") n \/ element (py "list") n) k (SN (py "restriction") a rk) ->
        ty_values t = Some (values_of (py "enumeration") rk))
  /\ (forall a lk, last_of (fun n => element (py "restriction") n \/ element (py "list") n) k (SN (py "list") a lk) ->
        exists item i, dget (py "itemType") a = Some item /\ after_colon item i /\ ty_values t = Some [i]).

(** ** Attributes: nxdl.xsd *)
(** the contents of the elements of [l] called [tag] *)
Definition inside (tag : pystr) (l : list snode) : list snode :=
  flat_map (fun n => match n with SN t _ k => if str_eqb t tag then k else [] | SComment => [] end) l.

(** [s] is the lower case text [t], with letters of either case *)
Definition spells (s t : pystr) : Prop :=
  Forall2 (fun c d => c = d \/ ((65 <= c /\ c <= 90) /\ c + 32 = d)%N) s t.

(** what the declaration [n] says of the attribute [a] *)
Definition attribute_says (n : snode) (a : sattr) : Prop :=
  sa_name a = dget (py "name") (s_attrib n)
  /\ (sa_required a = true <-> dget (py "use") (s_attrib n) = Some (py "required"))
  /\ (forall t, dget (py "type") (s_attrib n) = Some t -> sa_type a = t)
  /\ (dget (py "type") (s_attrib n) = None -> sa_type a = py "str")
  /\ (dget (py "type") (s_attrib n) <> Some (py "nx:NX_BOOLEAN") ->
        sa_default a = match dget (py "default") (s_attrib n) with Some s => SText s | None => SNone end)
  /\ (dget (py "type") (s_attrib n) = Some (py "nx:NX_BOOLEAN") ->
        exists s b, dget (py "default") (s_attrib n) = Some s /\ sa_default a = SBool b
          /\ (b = true <-> spells s (py "true") \/ spells s (py "y")))
  /\ sa_enum a = values_of (py "enumeration") (inside (py "restriction") (inside (py "simpleType") (s_kids n)))
  /\ sa_patterns a = values_of (py "pattern") (inside (py "restriction") (inside (py "simpleType") (s_kids n))).

(** ** Structures *)
(** [x] is the only one of [l] with [P] *)
Definition only_one {A} (P : A -> Prop) (l : list A) (x : A) : Prop :=
  exists l1 l2, l = l1 ++ x :: l2 /\ P x /\ none_of P l1 /\ none_of P l2.
(** the only declaration of this name at the top of the schema *)
Definition only_named (root : list snode) (nm : pystr) (n : snode) : Prop := only_one (called nm) root n.

(** what a type states: an attribute, or a child element *)
Inductive statement := StAttr (n : snode) | StChild (n : snode).

(** where: in the type of the root element, in another type, in a sequence of that *)
Inductive place := InRoot | InType | InSequence.
Definition sequence_of (p : place) : place := match p with InRoot => InRoot | _ => InSequence end.

(** what the content of a type states, in this order.  A reference stands for what it
    refers to, but a group in a sequence that is not of the type of the root element
    counts as a child. *)
Inductive states (root : list snode) : place -> list snode -> list statement -> Prop :=
| st_end : forall p, states root p [] []
| st_nothing : forall p x l s, x = SComment \/ element (py "annotation") x \/ element (py "any") x ->
    states root p l s -> states root p (x :: l) s
| st_attribute : forall p a k l s, states root p l s ->
    states root p (SN (py "attribute") a k :: l) (StAttr (SN (py "attribute") a k) :: s)
| st_child : forall p tag a k l s, tag = py "element" \/ (tag = py "group" /\ p = InSequence) -> states root p l s ->
    states root p (SN tag a k :: l) (StChild (SN tag a k) :: s)
| st_reference : forall p tag a k l ref nm n s s', tag = py "attributeGroup" \/ (tag = py "group" /\ p <> InSequence) ->
    dget (py "ref") a = Some ref -> after_colon ref nm -> only_named root nm n ->
    states root InType (s_kids n) s -> states root p l s' -> states root p (SN tag a k :: l) (s ++ s')
| st_sequence : forall p a k l s s', states root (sequence_of p) k s -> states root p l s' ->
    states root p (SN (py "sequence") a k :: l) (s ++ s')
| st_content : forall p a k l s s', states root p k s -> states root p l s' ->
    states root p (SN (py "complexContent") a k :: l) (s ++ s')
| st_extension : forall p a k l base nm n s s1 s',
    dget (py "base") a = Some base -> after_colon base nm -> only_named root nm n ->
    states root InType (s_kids n) s -> states root p k s1 -> states root p l s' ->
    states root p (SN (py "extension") a k :: l) (s ++ s1 ++ s').

(** the name under which it is kept *)
Definition key_of (n : snode) : pystr := okey (dget (py "name") (s_attrib n)).
Definition attr_called (k : pystr) (st : statement) : Prop := exists n, st = StAttr n /\ key_of n = k.
Definition child_called (k : pystr) (st : statement) : Prop := exists n, st = StChild n /\ key_of n = k.

(** the attributes and children kept, when [s] is stated after [d0] was kept: of several
    with one name, the last *)
Definition keeps_attrs (d0 : dict sattr) (s : list statement) (d : dict sattr) : Prop :=
  forall k, (none_of (attr_called k) s -> dget k d = dget k d0)
    /\ (forall n, last_of (attr_called k) s (StAttr n) -> exists a, dget k d = Some a /\ attribute_says n a).
Definition keeps_children (is : snode -> sobj -> Prop) (d0 : dict sobj) (s : list statement) (d : dict sobj) : Prop :=
  forall k, (none_of (child_called k) s -> dget k d = dget k d0)
    /\ (forall n, last_of (child_called k) s (StChild n) -> exists o, dget k d = Some o /\ is n o).

(** the first attribute of each type that is written inside an element *)
Definition first_attributes (l : list snode) : list statement :=
  flat_map (fun n => match n with
                     | SN t _ k => if str_eqb t (py "complexType") then map StAttr (firstn 1 (s_named (py "attribute") k)) else []
                     | SComment => []
                     end) l.

(** a group in a group *)
Definition group_element (n : snode) : Prop :=
  dget (py "name") (s_attrib n) = Some (py "group") /\ dget (py "type") (s_attrib n) = Some (py "nx:groupType").

(** what is kept for the declaration [n] of an element; [again]: a group was met before *)
Inductive element_says (root : list snode) (again : bool) : snode -> sobj -> Prop :=
| el_inline : forall n attrs,
    dget (py "type") (s_attrib n) = None ->
    keeps_attrs [] (first_attributes (s_kids n)) attrs ->
    element_says root again n (SElem (dget (py "name") (s_attrib n)) None attrs [])
| el_type : forall n ty nm t s attrs children,
    dget (py "type") (s_attrib n) = Some ty -> ~ (again = true /\ group_element n) ->
    after_colon ty nm -> only_named root nm t -> states root InType (s_kids t) s ->
    keeps_attrs [] s attrs -> keeps_children (element_says root again) [] s children ->
    element_says root again n (SElem (dget (py "name") (s_attrib n)) (Some ty) attrs children)
| el_again : forall n, group_element n ->
    element_says root again n (SElem (dget (py "name") (s_attrib n)) (dget (py "type") (s_attrib n)) [] [(py "group", SRec)]).
