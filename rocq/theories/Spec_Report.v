(** * Specification of scores and reports

    Written without reference to the code in Report.v. *)

From Coq Require Import List NArith ZArith Bool String Sorted.
From Verif Require Import PyBase Findings.
Import ListNotations.

(** the statuses of a list of findings equal to [s], counted *)
Definition number_with (s : status) (l : list finding) : nat :=
  List.length (filter (fun f => match f_status f, s with
    | OK, OK | NOTE, NOTE | WARN, WARN | ERROR, ERROR | TODO, TODO | UNUSED, UNUSED
    | COMMENT, COMMENT | OPTIONAL, OPTIONAL => true
    | _, _ => false end) l).

(** the documented value of each status *)
Definition documented_total (l : list finding) : Z :=
  (100 * Z.of_nat (number_with OK l) + 75 * Z.of_nat (number_with NOTE l) + 25 * Z.of_nat (number_with WARN l)
   + 99 * Z.of_nat (number_with OPTIONAL l) - 10000000 * Z.of_nat (number_with ERROR l))%Z.

Definition number_counted (l : list finding) : nat :=
  number_with OK l + number_with NOTE l + number_with WARN l + number_with OPTIONAL l + number_with ERROR l.

Definition number_not_error (l : list finding) : nat :=
  number_with OK l + number_with NOTE l + number_with WARN l + number_with OPTIONAL l.

(** the text findings are sorted by: address, negated value in three columns and
    description, with a blank before every "@" *)
Definition minus_value (s : status) : pystr :=
  py (match s with
      | OK => "-100" | NOTE => "-75" | WARN => "-25" | ERROR => "10000000" | OPTIONAL => "-99"
      | TODO | UNUSED | COMMENT => "  0"
      end).
Definition description (s : status) : pystr :=
  py (match s with
      | OK => "meets NeXus specification"
      | NOTE => "does not meet NeXus specification, but acceptable"
      | WARN => "does not meet NeXus specification, not generally acceptable"
      | ERROR => "violates NeXus specification"
      | TODO => "validation not implemented yet"
      | UNUSED => "optional NeXus item not used in data file"
      | COMMENT => "comment from the punx source code"
      | OPTIONAL => "allowed by NeXus specification, not identified"
      end).
Definition at_with_blank (s : pystr) : pystr := flat_map (fun c => if N.eqb c 64 then [32; 64]%N else [c]) s.
Definition documented_key (addr : pystr) (s : status) : pystr :=
  at_with_blank (addr ++ py " " ++ minus_value s ++ py " " ++ description s).

(** code point order *)
Inductive text_le : pystr -> pystr -> Prop :=
| tl_nil : forall s, text_le [] s
| tl_lt : forall a b s t, (a < b)%N -> text_le (a :: s) (b :: t)
| tl_eq : forall a s t, text_le s t -> text_le (a :: s) (a :: t).

Definition has_address (f : finding) : Prop := exists a, f_addr f = Some a.
Definition key_of (f : finding) : pystr := documented_key (match f_addr f with Some a => a | None => [] end) (f_status f).

(** [selected names f]: the status of [f] is named, or no status is *)
Definition name_of (s : status) : pystr :=
  py (match s with
      | OK => "OK" | NOTE => "NOTE" | WARN => "WARN" | ERROR => "ERROR"
      | TODO => "TODO" | UNUSED => "UNUSED" | COMMENT => "COMMENT" | OPTIONAL => "OPTIONAL"
      end).
Definition selected (names : list pystr) (f : finding) : bool :=
  match names with
  | [] => true
  | _ => if in_dec (list_eq_dec N.eq_dec) (name_of (f_status f)) names then true else false
  end.

(** the place of each status among findings of one address in the report *)
Definition place (s : status) : nat :=
  match s with
  | COMMENT => 0 | UNUSED => 1 | TODO => 2 | OK => 3 | WARN => 4 | NOTE => 5 | OPTIONAL => 6 | ERROR => 7
  end.
