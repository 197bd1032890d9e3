(** * Specification of numbers written as text *)

From Coq Require Import List NArith ZArith Bool.
From Verif Require Import PyBase H5.
Import ListNotations.

(** white space: tabulators, line ends, blanks, and those of other scripts *)
Definition white_space (E : env) (c : N) : Prop :=
  (9 <= c <= 13)%N \/ c = 32%N \/ ((128 <= c)%N /\ e_space E c = true).

(** the value of one decimal digit: "0" to "9", or a digit of another script *)
Definition digit_value (E : env) (c d : N) : Prop :=
  ((48 <= c <= 57)%N /\ d = (c - 48)%N) \/ ((128 <= c)%N /\ e_space E c = false /\ e_decimal E c = Some d).

(** one or more decimal digits, with single underscores between some of them, and the
    number they are written for *)
Inductive numeral (E : env) : pystr -> N -> Prop :=
| numeral_digit : forall c d, digit_value E c d -> numeral E [c] d
| numeral_next : forall s n c d, numeral E s n -> digit_value E c d -> numeral E (s ++ [c]) (10 * n + d)
| numeral_parted : forall s n c d, numeral E s n -> digit_value E c d -> numeral E (s ++ [95%N; c]) (10 * n + d).

(** a number with or without a sign *)
Inductive signed_number (E : env) : pystr -> Z -> Prop :=
| signed_plain : forall s n, numeral E s n -> signed_number E s (Z.of_N n)
| signed_plus : forall s n, numeral E s n -> signed_number E (43%N :: s) (Z.of_N n)
| signed_minus : forall s n, numeral E s n -> signed_number E (45%N :: s) (- Z.of_N n).

(** a number that may have white space around it *)
Inductive whole_number (E : env) : pystr -> Z -> Prop :=
| whole : forall a s z b, Forall (white_space E) a -> signed_number E s z -> Forall (white_space E) b -> whole_number E (a ++ s ++ b) z.

(** one or more characters that are digits; this includes digits that do not stand
    for a number, as the superscripts *)
Definition digit_text (E : env) (s : pystr) : Prop :=
  s <> [] /\ forall c, In c s -> (48 <= c <= 57)%N \/ ((128 <= c)%N /\ e_isdigit E c = true).

(** the number that a value is or that it is written for *)
Inductive value_number (E : env) : pyval -> Z -> Prop :=
| value_int : forall z, value_number E (VInt z) z
| value_text : forall s z, whole_number E s z -> value_number E (VStr s) z
| value_other_number : forall r z, whole_number E r z -> value_number E (VFloat r) z.
