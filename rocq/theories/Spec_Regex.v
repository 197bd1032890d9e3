(** * What the text of a pattern stands for

    The part of Python's regular expressions that NXDL schemas use: characters, the dot, \w,
    escaped punctuation, sets of characters, groups, alternatives, and the marks star, plus
    and question mark. *)

From Coq Require Import List NArith Bool String.
From Verif Require Import PyBase.
Import ListNotations.
Local Open Scope N_scope.

Definition lower (c : N) : Prop := 97 <= c <= 122.
Definition upper (c : N) : Prop := 65 <= c <= 90.
Definition digit (c : N) : Prop := 48 <= c <= 57.
Definition underscore (c : N) : Prop := c = 95.

(** a word character: ASCII letter, digit, underscore, or a non-ASCII character
    the platform counts as one *)
Definition word_char (uw : N -> bool) (c : N) : Prop :=
  lower c \/ upper c \/ digit c \/ underscore c \/ (128 <= c /\ uw c = true).

(** [P], possibly followed by one newline *)
Definition or_newline (P : pystr -> Prop) (s : pystr) : Prop := P s \/ exists t, s = t ++ [10] /\ P t.

(** a backslash takes the meaning away from everything that is no letter or digit *)
Definition letter_or_digit (c : N) : Prop := lower c \/ upper c \/ digit c.
(** characters with a meaning: parentheses, brackets, braces, star, plus, question mark,
    bar, backslash, dot, caret, dollar *)
Definition special (c : N) : Prop := In c (py "()[]{}*+?|\.^$").

Section Patterns.
  Context (uw : N -> bool).

  (** ** Sets of characters, between brackets *)
  (** one character of the set, itself or escaped *)
  Inductive set_char : pystr -> N -> Prop :=
  | sc_plain : forall c, c <> 92 -> c <> 93 -> set_char [c] c
  | sc_escape : forall c, ~ letter_or_digit c -> set_char [92; c] c.
  (** all of it; a dash between two characters stands for a range, and for itself elsewhere *)
  Inductive set_text : pystr -> (N -> Prop) -> Prop :=
  | st_end : set_text [] (fun _ => False)
  | st_char : forall m c t P, set_char m c -> (forall t', t = 45 :: t' -> t' = []) -> set_text t P ->
      set_text (m ++ t) (fun x => x = c \/ P x)
  | st_word : forall t P, (forall t', t = 45 :: t' -> t' = []) -> set_text t P ->
      set_text (92 :: 119 :: t) (fun x => word_char uw x \/ P x)
  | st_range : forall m a m' b t P, set_char m a -> set_char m' b -> a <= b -> set_text t P ->
      set_text (m ++ 45 :: m' ++ t) (fun x => a <= x <= b \/ P x).

  (** ** Expressions, and the texts that they match as a whole *)
  Inductive atom_text : pystr -> (pystr -> Prop) -> Prop :=
  | at_char : forall c, ~ special c -> atom_text [c] (fun s => s = [c])
  | at_escape : forall c, ~ letter_or_digit c -> atom_text [92; c] (fun s => s = [c])
  | at_any : atom_text (py ".") (fun s => exists x, s = [x] /\ x <> 10)
  | at_word : atom_text (py "\w") (fun s => exists x, s = [x] /\ word_char uw x)
  | at_set : forall t P, set_text t P -> t <> [] -> (forall t', t <> 94 :: t') ->
      atom_text (91 :: t ++ [93]) (fun s => exists x, s = [x] /\ P x)
  | at_not : forall t P, set_text t P -> t <> [] ->
      atom_text (91 :: 94 :: t ++ [93]) (fun s => exists x, s = [x] /\ ~ P x)
  | at_group : forall t Ls, alternatives t Ls -> atom_text (40 :: t ++ [41]) (fun s => Exists (fun L => L s) Ls)
  with piece_text : pystr -> (pystr -> Prop) -> Prop :=
  | pt_once : forall t L, atom_text t L -> piece_text t L
  | pt_star : forall t L, atom_text t L -> piece_text (t ++ py "*") (fun s => exists l, s = List.concat l /\ Forall L l)
  | pt_plus : forall t L, atom_text t L -> piece_text (t ++ py "+") (fun s => exists l, s = List.concat l /\ Forall L l /\ l <> [])
  | pt_option : forall t L, atom_text t L -> piece_text (t ++ py "?") (fun s => s = [] \/ L s)
  with branch_text : pystr -> (pystr -> Prop) -> Prop :=
  | bt_end : branch_text [] (fun s => s = [])
  | bt_next : forall t L t' L', piece_text t L -> branch_text t' L' ->
      branch_text (t ++ t') (fun s => exists a b, s = a ++ b /\ L a /\ L' b)
  (** the branches of a text, separated by bars *)
  with alternatives : pystr -> list (pystr -> Prop) -> Prop :=
  | al_one : forall t L, branch_text t L -> alternatives t [L]
  | al_more : forall t L t' Ls, branch_text t L -> alternatives t' Ls -> alternatives (t ++ 124 :: t') (L :: Ls).

  (** What [re.compile("^" + p + "$").match(s)] accepts, for the branches of [p]: one that
      is not the last lacks the [$]. *)
  Fixpoint accepts (branches : list (pystr -> Prop)) (s : pystr) : Prop :=
    match branches with
    | [] => False
    | [L] => or_newline L s
    | L :: rest => (exists a b, s = a ++ b /\ L a) \/ accepts rest s
    end.
  Definition pattern_accepts (p s : pystr) : Prop := exists Ls, alternatives p Ls /\ accepts Ls s.
End Patterns.
