(** * Specification of the name rules

    Character level descriptions, independent of the matcher. *)

From Coq Require Import List NArith Bool String.
From Verif Require Import PyBase Findings.
From Verif Require Export Spec_Regex.
Import ListNotations.

(** [a-z_][a-z0-9_]* *)
Definition strict_name (s : pystr) : Prop :=
  exists c t, s = c :: t /\ (lower c \/ underscore c) /\ Forall (fun x => lower x \/ digit x \/ underscore x) t.

(** [A-Za-z_][\w_]* *)
Definition identifier (uw : N -> bool) (s : pystr) : Prop :=
  exists c t, s = c :: t /\ (lower c \/ upper c \/ underscore c) /\ Forall (word_char uw) t.

(** one of the relaxed patterns accepts *)
Definition relaxed_name (uw : N -> bool) (patterns : list pystr) (s : pystr) : Prop :=
  exists p, In p patterns /\ pattern_accepts uw p s.

(** the text contains another *)
Definition has_part (s p : pystr) : Prop := exists a b, s = a ++ p ++ b.

(** the status a name deserves *)
Inductive name_status (uw : N -> bool) (patterns : list pystr) (n : pystr) : status -> Prop :=
| ns_ok : or_newline strict_name n -> name_status uw patterns n OK
| ns_note : ~ or_newline strict_name n -> relaxed_name uw patterns n -> name_status uw patterns n NOTE
| ns_error : ~ or_newline strict_name n -> ~ relaxed_name uw patterns n -> name_status uw patterns n ERROR.

(** the first pattern of the list that accepts the text *)
Definition first_accepting (uw : N -> bool) (patterns : list pystr) (s p : pystr) : Prop :=
  exists before after, patterns = before ++ p :: after /\ pattern_accepts uw p s
    /\ Forall (fun q => ~ pattern_accepts uw q s) before.

(** the comment that goes with the status of a name: the rule that accepts it, or [otherwise] *)
Inductive name_comment (uw : N -> bool) (patterns : list pystr) (otherwise n : pystr) : pystr -> Prop :=
| nc_strict : or_newline strict_name n -> name_comment uw patterns otherwise n (py "strict pattern: [a-z_][a-z0-9_]*")
| nc_relaxed : forall p, ~ or_newline strict_name n -> first_accepting uw patterns n p ->
    name_comment uw patterns otherwise n (py "relaxed pattern: " ++ p)
| nc_neither : ~ or_newline strict_name n -> ~ relaxed_name uw patterns n -> name_comment uw patterns otherwise n otherwise.

(** the comment on a class name: the pattern that accepts it, or the last one tried *)
Inductive class_comment (uw : N -> bool) (patterns : list pystr) (n : pystr) : pystr -> Prop :=
| cc_accepted : forall p, first_accepting uw patterns n p -> class_comment uw patterns n (py "pattern: " ++ p)
| cc_refused : forall before p, ~ relaxed_name uw patterns n -> patterns = before ++ [p] -> class_comment uw patterns n (py "pattern: " ++ p).

(** text such as "NXentry": NX and at least one more character, on one line *)
Definition nx_prefixed (s : pystr) : Prop :=
  exists c t, s = 78%N :: 88%N :: c :: t /\ ~ In 10%N (c :: t).

(** what the shipped schemas' validNXClassName patterns let pass *)
Definition class_name (uw : N -> bool) (s : pystr) : Prop :=
  or_newline nx_prefixed s \/ or_newline (identifier uw) s.
