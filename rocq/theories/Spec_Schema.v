(** * Vocabulary for the properties of the XML Schema of a file set *)

From Coq Require Import List NArith ZArith Bool String.
From Verif Require Import PyBase H5 Spec_Number SchemaMgr.
Import ListNotations.
Open Scope string_scope.
Open Scope list_scope.

(** [t] is the part of [s] after its last colon; all of [s] when it has none *)
Definition after_colon (s t : pystr) : Prop :=
  ~ In ch_colon t /\ (s = t \/ exists a, s = a ++ ch_colon :: t).

(** the texts of the attribute "value" of the elements called [tag] *)
Definition values_of (tag : pystr) (l : list snode) : list pystr :=
  flat_map (fun n => match n with
                     | SN t a _ => if str_eqb t tag then match dget (py "value") a with Some v => [v] | None => [] end else []
                     | SComment => []
                     end) l.

(** the limit a restriction sets: that of its last maxLength, or -1 *)
Definition limit (E : env) (l : list snode) (m : Z) : Prop :=
  (values_of (py "maxLength") l = [] /\ m = (-1)%Z)
  \/ exists a v, values_of (py "maxLength") l = a ++ [v] /\ whole_number E v m.

(** [n] declares the type [t]: a simpleType of this name, with a restriction of the base
    [b] (its namespace prefix left out), with the patterns [ps] and the limit [m] *)
Definition declares (E : env) (n : snode) (t b : pystr) (ps : list pystr) (m : Z) : Prop :=
  exists attrib kids rattrib rkids base,
    n = SN (py "simpleType") attrib kids
    /\ dget (py "name") attrib = Some t
    /\ In (SN (py "restriction") rattrib rkids) kids
    /\ dget (py "base") rattrib = Some base
    /\ after_colon base b
    /\ ps = values_of (py "pattern") rkids
    /\ limit E rkids m.

(** the names of the simple types of a schema *)
Definition type_names (root : list snode) : list pystr :=
  flat_map (fun n => match n with
                     | SN t a _ => if str_eqb t (py "simpleType") then match dget (py "name") a with Some v => [v] | None => [] end else []
                     | SComment => []
                     end) root.

(** a type whose patterns punx keeps *)
Definition valid_name (t : pystr) : Prop := exists u, t = py "valid" ++ u.

(** what XML Schema means: a type has its own patterns and those of its base, whose base
    may have a base in turn *)
Inductive all_patterns (E : env) (root : list snode) : pystr -> list pystr -> Prop :=
| ap_last : forall n t b ps m, In n root -> valid_name t -> declares E n t b ps m ->
    ~ (valid_name b /\ In b (type_names root)) -> all_patterns E root t ps
| ap_base : forall n t b ps m qs, In n root -> valid_name t -> declares E n t b ps m ->
    all_patterns E root b qs -> all_patterns E root t (ps ++ qs).

(** every type comes after its base *)
Definition bases_first (E : env) (root : list snode) : Prop :=
  forall l1 n l2 t b ps m, root = l1 ++ n :: l2 -> declares E n t b ps m ->
    valid_name t -> valid_name b -> In b (type_names root) -> In b (type_names l1).

(** a type whose content has an extension of [base] *)
Definition extends (n : snode) (base : pystr) : Prop :=
  exists tag attrib kids cattrib ckids eattrib ekids,
    n = SN tag attrib kids /\ In (SN (py "complexContent") cattrib ckids) kids
    /\ In (SN (py "extension") eattrib ekids) ckids /\ dget (py "base") eattrib = Some base.

(** [a] is a part of [s] *)
Definition part_of (a s : pystr) : Prop := exists x y, s = x ++ a ++ y.

(** the elements with this name at the top of a schema *)
Definition called (t : pystr) (n : snode) : Prop :=
  exists tag attrib kids, n = SN tag attrib kids /\ dget (py "name") attrib = Some t.
