(** * Python values the model is built on

    Models the Python language features used by punx: text, dictionaries,
    exceptions as values, stable sorting, integer formatting.  Nothing here is
    specific to punx. *)

From Coq Require Import List NArith ZArith Bool Ascii String Lia.
From Coq Require Import DecimalNat DecimalN DecimalZ DecimalString.
Import ListNotations.

(** ** Text: a Python [str] is a list of Unicode code points. *)
Definition pystr := list N.

(** Python string literal (ASCII only) written as a Coq string. *)
Fixpoint py (s : string) : pystr :=
  match s with
  | EmptyString => []
  | String a s' => N_of_ascii a :: py s'
  end.
Coercion py : string >-> pystr.
Arguments py s%string_scope.

(** [a == b] on str *)
Fixpoint str_eqb (a b : pystr) : bool :=
  match a, b with
  | [], [] => true
  | x :: a', y :: b' => N.eqb x y && str_eqb a' b'
  | _, _ => false
  end.

(** [s.startswith(p)] *)
Fixpoint startswith (s p : pystr) {struct p} : bool :=
  match p, s with
  | [], _ => true
  | x :: p', y :: s' => N.eqb x y && startswith s' p'
  | _ :: _, [] => false
  end.

(** [s.endswith(p)] *)
Definition endswith (s p : pystr) : bool := startswith (rev s) (rev p).

(** [p in s] (substring test) *)
Fixpoint contains_sub (s p : pystr) : bool :=
  startswith s p || match s with [] => false | _ :: s' => contains_sub s' p end.

(** [s.find(c) > -1] for a one character text *)
Definition has_char (c : N) (s : pystr) : bool := existsb (N.eqb c) s.

(** [s.split(c)] for a one character separator; never empty *)
Fixpoint split (c : N) (s : pystr) : list pystr :=
  match s with
  | [] => [[]]
  | x :: s' =>
      if N.eqb x c then [] :: split c s'
      else match split c s' with
           | w :: ws => (x :: w) :: ws
           | [] => [[x]]
           end
  end.

(** [sep.join(l)] *)
Fixpoint join (sep : pystr) (l : list pystr) : pystr :=
  match l with
  | [] => []
  | [w] => w
  | w :: ws => w ++ sep ++ join sep ws
  end.

(** [s.replace(c, r)] for a one character [c] *)
Fixpoint replace_char (c : N) (r s : pystr) : pystr :=
  match s with
  | [] => []
  | x :: s' => (if N.eqb x c then r else [x]) ++ replace_char c r s'
  end.

(** [s < t] / [s <= t]: Python compares text by code points, lexicographically *)
Fixpoint str_leb (a b : pystr) : bool :=
  match a, b with
  | [], _ => true
  | _ :: _, [] => false
  | x :: a', y :: b' => if N.ltb x y then true else if N.eqb x y then str_leb a' b' else false
  end.

(** last element of [s.split(c)], i.e. [s.split(c)[-1]] *)
Definition last_part (c : N) (s : pystr) : pystr := last (split c s) [].

(** characters used by name *)
Definition ch_slash : N := 47.
Definition ch_at : N := 64.
Definition ch_nl : N := 10.
Definition ch_comma : N := 44.
Definition ch_colon : N := 58.
Definition ch_dot : N := 46.

(** ** Exceptions as values *)
Inductive exn :=
| KeyError | TypeError | AttributeError | ValueError | IndexError
| RecursionError | UnicodeDecodeError | UnicodeEncodeError | UnboundLocalError | ReError
| RuntimeError | OSError | AssertionError
| FileNotFound        (* punx.FileNotFound *)
| HDF5_Open_Error     (* punx.HDF5_Open_Error *)
| InvalidNxdlFile     (* punx.InvalidNxdlFile *)
| SystemExit (code : Z) (* sys.exit(code), argparse exits *)
| ConnectionError     (* requests ... ConnectionError *)
| Unsupported.        (* a regular expression feature outside the modelled subset *)

(** what a Python expression gives: a value or an exception *)
Inductive res (A : Type) :=
| Ok (a : A)
| Exn (e : exn).
Arguments Ok {A} a.
Arguments Exn {A} e.

(** the rest of the program is run only if there was no exception *)
Definition rbind {A B} (m : res A) (f : A -> res B) : res B :=
  match m with Ok a => f a | Exn e => Exn e end.
(** a function of the value *)
Definition rmap {A B} (f : A -> B) (m : res A) : res B :=
  match m with Ok a => Ok (f a) | Exn e => Exn e end.
(** was there no exception *)
Definition is_ok {A} (m : res A) : bool := match m with Ok _ => true | Exn _ => false end.

Notation "'dor' x <- m ; f" := (rbind m (fun x => f))
  (at level 200, x binder, m at level 100, f at level 200, right associativity).

(** ** Dictionaries: insertion ordered association lists (Python >= 3.7). *)
Section Dict.
  Context {K V : Type} (keqb : K -> K -> bool).

  (** [d.get(k)] *)
  Fixpoint aget (k : K) (d : list (K * V)) : option V :=
    match d with
    | [] => None
    | (k', v) :: d' => if keqb k k' then Some v else aget k d'
    end.

  (** [k in d] *)
  Definition amem (k : K) (d : list (K * V)) : bool :=
    match aget k d with Some _ => true | None => false end.

  (** [d[k] = v]: replaces the value in place, or appends a new key *)
  Fixpoint aset (k : K) (v : V) (d : list (K * V)) : list (K * V) :=
    match d with
    | [] => [(k, v)]
    | (k', v') :: d' => if keqb k k' then (k', v) :: d' else (k', v') :: aset k v d'
    end.
End Dict.

(** a Python dict with text keys, in the order of insertion *)
Definition dict (V : Type) := list (pystr * V).
Definition dget {V} (k : pystr) (d : dict V) : option V := aget str_eqb k d.
Definition dmem {V} (k : pystr) (d : dict V) : bool := amem str_eqb k d.
Definition dset {V} (k : pystr) (v : V) (d : dict V) : dict V := aset str_eqb k v d.
Definition dkeys {K V} (d : list (K * V)) : list K := map fst d.
Definition dvals {K V} (d : list (K * V)) : list V := map snd d.

(** [d[k]]: KeyError when missing *)
Definition dgetitem {V} (k : pystr) (d : dict V) : res V :=
  match dget k d with Some v => Ok v | None => Exn KeyError end.

(** dictionaries whose keys may be [None] *)
Definition ostr_eqb (a b : option pystr) : bool :=
  match a, b with
  | Some x, Some y => str_eqb x y
  | None, None => true
  | _, _ => false
  end.

(** ** Stable sorting: Python's [sorted(l, key=f)]. *)
Section Sort.
  Context {A : Type} (leb : A -> A -> bool).
  Fixpoint sinsert (x : A) (l : list A) : list A :=
    match l with
    | [] => [x]
    | y :: l' => if leb x y then x :: y :: l' else y :: sinsert x l'
    end.
  Fixpoint ssort (l : list A) : list A :=
    match l with
    | [] => []
    | x :: l' => sinsert x (ssort l')
    end.
End Sort.

(** [sorted(l, key=f)] for a text valued key *)
Definition sorted_by {A} (f : A -> pystr) (l : list A) : list A :=
  ssort (fun x y => str_leb (f x) (f y)) l.
(** [sorted(l)] on texts *)
Definition sorted_strs (l : list pystr) : list pystr := sorted_by (fun s => s) l.
(** [sorted(d.items())] where all keys differ *)
Definition sorted_items {V} (d : dict V) : dict V := sorted_by fst d.

(** ** Integers as text *)
Definition digits_of_N (n : N) : pystr := py (NilZero.string_of_uint (N.to_uint n)).
(** [str(n)] for a natural number *)
Definition str_nat (n : nat) : pystr := py (NilZero.string_of_uint (Nat.to_uint n)).
(** [str(z)] = ["%d" % z] *)
Definition str_Z (z : Z) : pystr := py (NilZero.string_of_int (Z.to_int z)).

(** ["%3d" % z]: right justified in three columns *)
Definition pad3 (s : pystr) : pystr := repeat 32%N (3 - List.length s) ++ s.
Definition fmt_3d (z : Z) : pystr := pad3 (str_Z z).

(** [x is not None] *)
Definition is_some {A} (o : option A) : bool := match o with Some _ => true | None => false end.
