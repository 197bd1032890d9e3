(** * What a user expects of the NXDL defaults read from nxdl.xsd (C89-C93)

    In terms of the XML elements of the schema: [l_named tag n] are the elements [tag]
    directly in [n], [l_path2 a b n] those [b] in the [a] of [n], [l_anywhere tag kids] those
    anywhere in the schema, [l_attr a n] is the value of attribute [a] of [n]. *)

From Coq Require Import List NArith ZArith Bool String.
From Verif Require Import PyBase H5 Spec_Number SchemaMgr NxdlSchema.
Import ListNotations.
Open Scope string_scope.
Open Scope list_scope.

(** ** Declarations *)
(** [n] is the declaration of [name] at the top of the schema, an element [tag] *)
Definition top (kids : list lnode) (tag : string) (name : pystr) (n : lnode) : Prop :=
  In n kids /\ l_is (py tag) n = true /\ l_attr "name" n = Some name.

(** the extension in a complexType *)
Definition extension (t x : lnode) : Prop :=
  exists cc rest, In cc (l_named "complexContent" t) /\ l_kids cc = x :: rest /\ l_is (py "extension") x = true.

(** the complexType [T] declares the attribute [a]: directly, in its extension, by an
    attributeGroup, or because the type that it extends does *)
Inductive declares (kids : list lnode) : pystr -> lnode -> Prop :=
| dc_own : forall T t a, top kids "complexType" T t -> In a (l_named "attribute" t) -> declares kids T a
| dc_extension : forall T t x a, top kids "complexType" T t -> extension t x ->
    In a (l_named "attribute" x) -> declares kids T a
| dc_base : forall T t x b a, top kids "complexType" T t -> extension t x ->
    l_attr "base" x = Some b -> declares kids (local_name b) a -> declares kids T a
| dc_group : forall T t r k g a, top kids "complexType" T t -> In r (l_named "attributeGroup" t) ->
    l_attr "ref" r = Some k -> top kids "attributeGroup" (local_name k) g ->
    In a (l_named "attribute" g) -> declares kids T a.

(** ** Schemas in good order *)
Definition entry_name (n : lnode) : list pystr :=
  if l_is (py "simpleType") n || l_is (py "attributeGroup") n || l_is (py "group") n || l_is (py "complexType") n
  then match l_attr "name" n with Some k => [k] | None => [] end else [].
(** what a node refers to *)
Definition refers (n : lnode) (k : pystr) : Prop :=
  (exists v, l_attr "type" n = Some v /\ local_name v = k) \/
  (exists v, l_attr "ref" n = Some v /\ local_name v = k) \/
  (exists v, l_attr "base" n = Some v /\ local_name v = k).

Record tidy (kids : list lnode) : Prop := {
  (* attributes, elements and groups each have a line of their own *)
  t_lines : forall tag, In tag ["attribute"; "element"; "group"] -> NoDup (map l_line (l_anywhere tag kids));
  (* no two declarations at the top have the same name; no name starts with two underscores;
     only declarations at the top have names *)
  t_names : NoDup (flat_map entry_name kids);
  t_plain : forall k, In k (flat_map entry_name kids) -> startswith k (py "__") = false;
  t_groups : forall n, In n (l_anywhere "group" kids) -> l_attr "name" n <> None -> In n kids;
  (* an extension has a complexType as base; an attributeGroup is declared *)
  t_bases : forall T t x b, top kids "complexType" T t -> extension t x -> l_attr "base" x = Some b ->
    exists bt, top kids "complexType" (local_name b) bt;
  t_attrgroups : forall T t r k, top kids "complexType" T t -> In r (l_named "attributeGroup" t) ->
    l_attr "ref" r = Some k -> exists g, top kids "attributeGroup" (local_name k) g
}.

(** ** Values *)
(** what the summary says of the attribute that is declared by the node [a] *)
Record says (kids : list lnode) (types : dict simple) (a : lnode) (v : adefault) : Prop := {
  s_required : ad_required v = true <-> l_attr "use" a = Some (py "required");
  s_default : ad_default v = l_attr "default" a;
  (* the rules are those of the simple type, if it is one of the schema *)
  s_simple : forall t s, l_attr "type" a = Some t -> dget (local_name t) types = Some s ->
    ad_patterns v = sm_patterns s /\ ad_maxLength v = sm_maxLength s;
  (* otherwise there may be one pattern in the declaration itself *)
  s_inline : (l_attr "type" a = None \/ exists t, l_attr "type" a = Some t /\ ~ In (local_name t) (flat_map entry_name kids)) ->
    ~ In (py "NX_CHAR") (flat_map entry_name kids) ->
    ad_maxLength v = None /\
    (forall p x, flat_map (l_named "pattern") (l_path2 "simpleType" "restriction" a) = [p] ->
       l_attr "value" p = Some x -> ad_patterns v = [x])
}.

(** the attributes of the object at [i] of the summary are those of the complexType [T] *)
Definition attributes_of_type (kids : list lnode) (s : summary) (i : nat) (T : pystr) : Prop :=
  (forall a k, declares kids T a -> l_attr "name" a = Some k -> k <> [] -> k <> py "(attribute)" ->
     (forall a', declares kids T a' -> l_attr "name" a' = Some k -> a' = a) ->
     exists v, attribute_of (su_heap s) i k = Some v /\ says kids (su_simpleType s) a v) /\
  (forall k, In k (attribute_names (su_heap s) i) ->
     k = py "(attribute)" \/ exists a, declares kids T a /\ l_attr "name" a = Some k).

(** the definition of NXDL: the one element [defn] at the top of the schema, of the complexType
    [D], declared by [t], which has no other use; in [t] there is one reference [gr] to a group,
    declared by [G] *)
Record defined_by (kids : list lnode) (defn t gr G : lnode) (D : pystr) : Prop := {
  db_element : filter (l_is (py "element")) kids = [defn];
  db_type : exists v, l_attr "type" defn = Some v /\ local_name v = D;
  db_plain : l_named "complexType" defn = [];
  db_complexType : top kids "complexType" D t;
  db_content : l_named "complexContent" t = [];
  db_reference : flat_map (l_named "group") (l_named "sequence" t) ++ l_named "group" t = [gr];
  db_empty : l_named "sequence" gr = [];
  db_group : exists v, l_attr "ref" gr = Some v /\ top kids "group" (local_name v) G;
  db_only : forall n, In n (flat_map l_all kids) -> refers n D -> n = defn;
  db_name : D <> py "NX_CHAR" /\ D <> py "str"
}.
(** the element [x] of the group [G], the only one with this name, is of the complexType [T] *)
Record component (kids : list lnode) (G : lnode) (name : string) (x : lnode) (T : pystr) : Prop := {
  cm_in : In x (l_path2 "sequence" "element" G);
  cm_name : l_attr "name" x = Some (py name);
  cm_unique : forall y, In y (l_path2 "sequence" "element" G) -> l_attr "name" y = Some (py name) -> y = x;
  cm_plain : l_named "complexType" x = [];
  cm_type : exists v, l_attr "type" x = Some v /\ local_name v = T;
  cm_complexType : exists t, top kids "complexType" T t
}.

(** ** Layout *)
(** the same trees on other lines *)
Inductive same_but_lines : lnode -> lnode -> Prop :=
| sb_comment : same_but_lines LComment LComment
| sb_node : forall t l1 l2 a k1 k2, Forall2 same_but_lines k1 k2 ->
    same_but_lines (LN t l1 a k1) (LN t l2 a k2).
Definition own_lines (kids : list lnode) : Prop :=
  forall tag, In tag ["attribute"; "element"; "group"] -> NoDup (map l_line (l_anywhere tag kids)).

(** ** Simple types *)
(** [k] is a simple type whose base is [b], [b] one of the schema *)
Definition based_on (kids : list lnode) (k b : pystr) : Prop :=
  exists n r v, top kids "simpleType" k n /\ l_named "restriction" n = [r] /\
    l_attr "base" r = Some v /\ local_name v = b.
(** the patterns in the declaration of [k] *)
Definition own_patterns_of (kids : list lnode) (k : pystr) (ps : list pystr) : Prop :=
  exists n r, top kids "simpleType" k n /\ l_named "restriction" n = [r] /\
    map (l_attr "value") (l_named "pattern" r) = map Some ps.
(** the maximum length in the declaration of [k], the last one if there are several *)
Definition own_length_of (E : env) (kids : list lnode) (k : pystr) (o : option Z) : Prop :=
  exists n r, top kids "simpleType" k n /\ l_named "restriction" n = [r] /\
    ((l_named "maxLength" r = [] /\ o = None) \/
     exists l p x z, l_named "maxLength" r = l ++ [p] /\ l_attr "value" p = Some x /\ whole_number E x z /\ o = Some z).
(** [a] is declared before [b] *)
Definition before (kids : list lnode) (a b : lnode) : Prop :=
  exists l1 l2 l3, kids = l1 ++ a :: l2 ++ b :: l3.
(** the patterns of [k], of its base, of the base of this ... *)
Inductive all_patterns (kids : list lnode) : pystr -> list pystr -> Prop :=
| ap_last : forall k ps b, own_patterns_of kids k ps -> based_on kids k b ->
    (forall m, ~ top kids "simpleType" b m) -> all_patterns kids k ps
| ap_base : forall k ps b m qs, own_patterns_of kids k ps -> based_on kids k b ->
    top kids "simpleType" b m -> all_patterns kids b qs -> all_patterns kids k (ps ++ qs).

(** ** Recursive content *)
(** a reference to the group "groupGroup", where the program stops *)
Definition to_groupGroup (n : lnode) : Prop :=
  l_is (py "group") n = true /\ exists v, l_attr "ref" n = Some v /\ local_name v = py "groupGroup".
(** [n'] is directly in the content of [n]: [n] an element of a complexType, or a reference to a
    group *)
Inductive content (kids : list lnode) : lnode -> lnode -> Prop :=
| co_element : forall n v t sq n', l_is (py "element") n = true -> l_named "complexType" n = [] ->
    l_attr "type" n = Some v -> top kids "complexType" (local_name v) t ->
    In sq (l_named "sequence" t) -> (In n' (l_named "element" sq) \/ In n' (l_named "group" sq) /\ ~ to_groupGroup n') ->
    content kids n n'
| co_group : forall n v G n', l_is (py "group") n = true -> l_named "sequence" n = [] ->
    l_attr "ref" n = Some v -> top kids "group" (local_name v) G ->
    In n' (l_path2 "sequence" "element" G) -> content kids n n'.
