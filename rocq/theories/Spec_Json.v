(** * What JSON text is (RFC 8259, with the extensions of Python's reader: NaN, Infinity and
      -Infinity are numbers, and a lone surrogate may be escaped) *)

From Coq Require Import List NArith ZArith Bool String.
From Verif Require Import PyBase Json.
Import ListNotations.
Open Scope string_scope.
Open Scope list_scope.
Local Open Scope N_scope.

(** white space: blank, tab, line feed, carriage return *)
Definition white (s : pystr) : Prop := Forall (fun c => c = 32 \/ c = 9 \/ c = 10 \/ c = 13) s.

(** ** Strings *)
(** the value of a hexadecimal digit *)
Definition hex_digit (c v : N) : Prop :=
  (48 <= c <= 57 /\ v = c - 48) \/ (97 <= c <= 102 /\ v = c - 97 + 10) \/ (65 <= c <= 70 /\ v = c - 65 + 10).
Definition code_unit (s : pystr) (x : N) : Prop :=
  exists a b c d a' b' c' d', s = [a; b; c; d] /\ hex_digit a a' /\ hex_digit b b' /\ hex_digit c c' /\ hex_digit d d'
    /\ x = ((a' * 16 + b') * 16 + c') * 16 + d'.
(** backslash, and: quote, backslash, slash, b, f, n, r, t *)
Definition escape (e c : N) : Prop :=
  In (e, c) [(34, 34); (92, 92); (47, 47); (98, 8); (102, 12); (110, 10); (114, 13); (116, 9)].
Definition high (x : N) : Prop := 55296 <= x <= 56319.
Definition low (x : N) : Prop := 56320 <= x <= 57343.

(** the text between the quotes, and its value *)
Inductive string_body : pystr -> pystr -> Prop :=
| sb_end : string_body [] []
| sb_plain : forall c t s, 32 <= c -> c <> 34 -> c <> 92 -> string_body t s -> string_body (c :: t) (c :: s)
| sb_escape : forall e c t s, escape e c -> string_body t s -> string_body (92 :: e :: t) (c :: s)
| sb_unit : forall u x t s, code_unit u x ->
    ~ (high x /\ exists v y t', t = [92; 117] ++ v ++ t' /\ code_unit v y /\ low y) ->
    string_body t s -> string_body ([92; 117] ++ u ++ t) (x :: s)
| sb_pair : forall u x v y t s, code_unit u x -> high x -> code_unit v y -> low y ->
    string_body t s -> string_body ([92; 117] ++ u ++ [92; 117] ++ v ++ t) (65536 + (x - 55296) * 1024 + (y - 56320) :: s).

(** ** Numbers *)
Definition digit (c : N) : Prop := 48 <= c <= 57.
Definition some_digits (s : pystr) : Prop := s <> [] /\ Forall digit s.
Definition integer_part (s : pystr) : Prop := s = [48] \/ exists d t, s = d :: t /\ 49 <= d <= 57 /\ Forall digit t.
Definition fraction (s : pystr) : Prop := s = [] \/ exists t, s = 46 :: t /\ some_digits t.
Definition exponent (s : pystr) : Prop :=
  s = [] \/ exists e sign t, s = e :: sign ++ t /\ (e = 101 \/ e = 69) /\ (sign = [] \/ sign = [43] \/ sign = [45]) /\ some_digits t.
Definition number (s : pystr) : Prop :=
  exists sign i f e, s = sign ++ i ++ f ++ e /\ (sign = [] \/ sign = [45]) /\ integer_part i /\ fraction f /\ exponent e.

(** ** Values *)
Inductive value_text : pystr -> json -> Prop :=
| vt_null : value_text (py "null") JNull
| vt_true : value_text (py "true") (JBool true)
| vt_false : value_text (py "false") (JBool false)
| vt_special : forall w, In w [py "NaN"; py "Infinity"; py "-Infinity"] -> value_text w (JNum w)
| vt_number : forall n, number n -> value_text n (JNum n)
| vt_string : forall t s, string_body t s -> value_text (34 :: t ++ [34]) (JStr s)
| vt_empty_array : forall w, white w -> value_text (91 :: w ++ [93]) (JArr [])
| vt_array : forall t l, elements_text t l -> value_text (91 :: t ++ [93]) (JArr l)
| vt_empty_object : forall w, white w -> value_text (123 :: w ++ [125]) (JObj [])
| vt_object : forall t l, members_text t l ->
    value_text (123 :: t ++ [125]) (JObj (fold_left (fun d kv => dset (fst kv) (snd kv) d) l []))
with elements_text : pystr -> list json -> Prop :=
| et_last : forall w t v w', white w -> value_text t v -> white w' -> elements_text (w ++ t ++ w') [v]
| et_more : forall w t v w' t' l, white w -> value_text t v -> white w' -> elements_text t' l ->
    elements_text (w ++ t ++ w' ++ 44 :: t') (v :: l)
with members_text : pystr -> list (pystr * json) -> Prop :=
| mt_last : forall m kv, member_text m kv -> members_text m [kv]
| mt_more : forall m kv t l, member_text m kv -> members_text t l -> members_text (m ++ 44 :: t) (kv :: l)
with member_text : pystr -> pystr * json -> Prop :=
| mt : forall w kt k w1 w2 t v w3, white w -> string_body kt k -> white w1 -> white w2 -> value_text t v -> white w3 ->
    member_text (w ++ 34 :: kt ++ 34 :: w1 ++ 58 :: w2 ++ t ++ w3) (k, v).

(** JSON text of the value [v] *)
Definition json_text (s : pystr) (v : json) : Prop :=
  exists w t w', s = w ++ t ++ w' /\ white w /\ value_text t v /\ white w'.


(** ** Objects *)
(** JSON text of an object with the pairs [l], in their order *)
Definition object_text (s : pystr) (l : list (pystr * json)) : Prop :=
  exists w t w', s = w ++ 123 :: t ++ 125 :: w' /\ white w /\ white w' /\ (members_text t l \/ (white t /\ l = [])).
(** the value of a key: of the last pair with that key *)
Definition last_value (k : pystr) (l : list (pystr * json)) (v : json) : Prop :=
  exists l1 l2, l = l1 ++ (k, v) :: l2 /\ ~ In k (map fst l2).
(** a text, or nothing: no such key, or null *)
Definition says (l : list (pystr * json)) (k : pystr) (o : option pystr) : Prop :=
  match o with
  | Some s => last_value k l (JStr s)
  | None => last_value k l JNull \/ ~ In k (map fst l)
  end.
