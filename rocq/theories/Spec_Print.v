(** * What print_tree shows of the summary of nxdl.xsd *)

From Coq Require Import List NArith ZArith Bool String Sorting Permutation.
From Verif Require Import PyBase SchemaMgr NxdlSchema NxdlPrint.
Import ListNotations.
Open Scope string_scope.
Open Scope list_scope.

(** the entries of a dictionary by their names *)
Definition by_name {V} (d d' : dict V) : Prop :=
  Permutation d d' /\ StronglySorted (fun a b => str_leb (fst a) (fst b) = true) d'.

(** an object, its attributes and what is in them, its groups and what is in them, each with its
    level below the first *)
Inductive outline (su : summary) : nat -> nat -> list (nat * sobj) -> Prop :=
| ol : forall level i o attributes groups As Gs,
    nth_error (su_heap su) i = Some o ->
    by_name (attributes_at su i) attributes ->
    by_name (kids_of KGroup (su_heap su) i) groups ->
    Forall2 (fun kv l => outline su (S level) (snd kv) l) attributes As ->
    Forall2 (fun kv l => outline su (S level) (snd kv) l) groups Gs ->
    outline su level i ((level, o) :: List.concat As ++ List.concat Gs).

(** ** The line of an object *)
(** a value without the underscores at its beginning *)
Definition stripped (v s : pystr) : Prop :=
  exists n, v = repeat 95%N n ++ s /\ match s with c :: _ => c <> 95%N | [] => True end.

(** the parts "key=value" for the values that are there *)
Inductive parts : list (pystr * option pystr) -> list pystr -> Prop :=
| pa_end : parts [] []
| pa_none : forall k l ps, parts l ps -> parts ((k, None) :: l) ps
| pa_some : forall k v s l ps, stripped v s -> parts l ps -> parts ((k, Some v) :: l) ((k ++ py "=" ++ s) :: ps).

(** the values an object has, by name *)
Definition values (o : sobj) : list (pystr * option pystr) :=
  match so_kind o with
  | KAttribute =>
      [(py "default_value", so_default o); (py "maxLength", option_map str_Z (so_maxLength o)); (py "name", so_name o);
       (py "required", Some (py (if so_required o then "True" else "False"))); (py "type", so_key o)]
  | k =>
      [(py "maxLength", option_map str_Z (so_maxLength o)); (py "maxOccurs", so_maxOccurs o); (py "minOccurs", so_minOccurs o);
       (py "name", so_name o); (py (match k with KGroup => "ref" | _ => "type" end), so_key o)]
  end.

Definition kind_word (k : okind) : string := match k with KAttribute => "attribute" | KElement => "element" | KGroup => "group" end.

Definition text_of_object (o : sobj) (s : pystr) : Prop :=
  exists ps, parts (values o) ps /\ s = py "NXDL_schema__" ++ py (kind_word (so_kind o)) ++ py "(" ++ join (py ", ") ps ++ py ")".

Definition line_of (x : nat * sobj) (s : pystr) : Prop :=
  exists name text,
    (so_name (snd x) = Some name \/ (so_name (snd x) = None /\ name = py "(" ++ py (kind_word (so_kind (snd x))) ++ py ")"))
    /\ text_of_object (snd x) text
    /\ s = repeat 32%N (4 * fst x) ++ (if okind_eqb (so_kind (snd x)) KAttribute then py "@" else []) ++ name ++ py " : " ++ text.

(** the number of objects of a kind *)
Definition of_kind (k : okind) (out : list (nat * sobj)) : nat :=
  List.length (filter (fun x => okind_eqb (so_kind (snd x)) k) out).
