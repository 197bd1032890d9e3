(** * Specification of command lines *)

From Coq Require Import List NArith ZArith Bool String.
From Verif Require Import PyBase H5 Spec_Number Cli Spec_Cli.
Import ListNotations.
Open Scope string_scope.
Open Scope list_scope.

(** a word that is no option *)
Definition plain (w : pystr) : Prop := ~ prefix_of (py "-") w.
(** a word that reads as a negative number: "-" and digits, or "-", perhaps digits, "." and digits; a
    line end may follow *)
Definition digits (E : env) (t : pystr) : Prop := Forall (fun c => (48 <= c <= 57)%N \/ ((128 <= c)%N /\ e_decimal E c <> None)) t.
Definition negative_word (E : env) (w : pystr) : Prop :=
  exists s, (w = 45%N :: s \/ w = 45%N :: s ++ [10%N])
    /\ ((s <> [] /\ digits E s) \/ exists a b, s = a ++ 46%N :: b /\ digits E a /\ digits E b /\ b <> []).
(** a word that counts as a name or as the value of an option: also a single "-", a negative number,
    and a word with a blank that begins with "-" and a letter that is no option of the subcommand *)
Definition value_word (E : env) (letters : pystr) (w : pystr) : Prop :=
  plain w \/ w = py "-" \/ negative_word E w
  \/ exists c rest, w = 45%N :: c :: rest /\ ~ In c (45%N :: letters) /\ In 32%N (c :: rest).
(** the long option, or the beginning of it up to [short] or further *)
Definition long_option (short full : pystr) (w : pystr) : Prop := prefix_of short w /\ prefix_of w full.
(** a word that looks like a long option, but is none of these, nor the beginning of one; or like an
    option of one letter, but is none of these letters *)
Definition unknown_option (E : env) (letters : pystr) (known : list pystr) (w : pystr) : Prop :=
  (prefix_of (py "--") w /\ ~ In 32%N w /\ ~ In 61%N w /\ forall f, In f known -> ~ prefix_of w f)
  \/ (exists c rest, w = 45%N :: c :: rest /\ ~ In c (45%N :: letters) /\ ~ In 32%N w /\ ~ negative_word E w).

(** ** The words of punx tree *)
Inductive tree_item := TFile (f : pystr) | TNoAttributes | TItems (z : Z) | TUnknown.

Definition items_option (w : pystr) : Prop := w = py "-m" \/ long_option (py "--m") (py "--max_array_items") w.

Inductive tree_words (E : env) : list pystr -> tree_item -> Prop :=
| tw_file : forall f, value_word E (py "ham") f -> tree_words E [f] (TFile f)
| tw_attributes : tree_words E [py "-a"] TNoAttributes
| tw_items : forall w s z, items_option w -> whole_number E s z -> value_word E (py "ham") s -> tree_words E [w; s] (TItems z)
| tw_items_equals : forall w s z, items_option w -> whole_number E s z -> tree_words E [w ++ py "=" ++ s] (TItems z)
| tw_items_joined : forall s z, whole_number E s z -> tree_words E [py "-m" ++ s] (TItems z)
| tw_unknown : forall w, unknown_option E (py "ham") [py "--help"; py "--max_array_items"] w -> tree_words E [w] TUnknown.

(** ** The words of punx validate *)
Inductive validate_item := VFile (f : pystr) | VSet (n : pystr) | VReport (r : pystr) | VUnknown.

Definition set_option (w : pystr) : Prop := w = py "-f" \/ long_option (py "--f") (py "--file_set_name") w.
Definition report_option (w : pystr) : Prop := long_option (py "--r") (py "--report") w.

Inductive validate_words (E : env) : list pystr -> validate_item -> Prop :=
| vw_file : forall f, value_word E (py "hf") f -> validate_words E [f] (VFile f)
| vw_set : forall w n, set_option w -> value_word E (py "hf") n -> validate_words E [w; n] (VSet n)
| vw_set_equals : forall w n, set_option w -> validate_words E [w ++ py "=" ++ n] (VSet n)
| vw_set_joined : forall n, n <> [] -> ~ prefix_of (py "=") n -> validate_words E [py "-f" ++ n] (VSet n)
| vw_report : forall w r, report_option w -> value_word E (py "hf") r -> validate_words E [w; r] (VReport r)
| vw_report_equals : forall w r, report_option w -> validate_words E [w ++ py "=" ++ r] (VReport r)
| vw_unknown : forall w, unknown_option E (py "hf") [py "--help"; py "--file_set_name"; py "--report"] w -> validate_words E [w] VUnknown.

(** ** The words of punx install *)
Inductive install_item := IName (n : pystr) | IUpdate | IUnknown.

Inductive install_words (E : env) : list pystr -> install_item -> Prop :=
| iw_name : forall n, value_word E (py "hu") n -> install_words E [n] (IName n)
| iw_update : forall w, w = py "-u" \/ long_option (py "--u") (py "--update") w -> install_words E [w] IUpdate
| iw_unknown : forall w, unknown_option E (py "hu") [py "--help"; py "--update"] w -> install_words E [w] IUnknown.

(** ** Lines *)
(** the line consists of the words of these items, one after the other *)
Definition line_of {A} (words : list pystr -> A -> Prop) (line : list pystr) (items : list A) : Prop :=
  exists l, Forall2 words l items /\ line = List.concat l.

(** what all items of a kind say, in order; and the last of them *)
Definition said {A B} (f : A -> option B) (l : list A) : list B :=
  flat_map (fun x => match f x with Some y => [y] | None => [] end) l.
Definition last_said {A B} (f : A -> option B) (l : list A) : option B :=
  match rev (said f l) with x :: _ => Some x | [] => None end.

Definition tree_file (i : tree_item) : option pystr := match i with TFile f => Some f | _ => None end.
Definition tree_items (i : tree_item) : option Z := match i with TItems z => Some z | _ => None end.
Definition validate_file (i : validate_item) : option pystr := match i with VFile f => Some f | _ => None end.
Definition validate_set (i : validate_item) : option pystr := match i with VSet n => Some n | _ => None end.
Definition validate_report (i : validate_item) : option pystr := match i with VReport r => Some r | _ => None end.
Definition install_name (i : install_item) : option pystr := match i with IName n => Some n | _ => None end.

(** the names stand together *)
Definition names_together (l : list install_item) : Prop :=
  exists a names c, l = a ++ map IName names ++ c /\ (forall n, ~ In (IName n) a) /\ (forall n, ~ In (IName n) c).

(** ** The word "--" *)
(** all the names before "--" stand right before it, perhaps none; these are the names of the line, with
    those after "--" *)
Definition names_last {A} (name : pystr -> A) (items : list A) (after names : list pystr) : Prop :=
  exists a ns, items = a ++ map name ns /\ (forall n, ~ In (name n) a) /\ names = ns ++ after.
