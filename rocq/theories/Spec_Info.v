(** * Specification of the info file of a file set *)

From Coq Require Import List NArith ZArith Bool String.
From Verif Require Import PyBase Cache Install Spec_Install InfoFile.
Import ListNotations.
Open Scope string_scope.
Open Scope list_scope.
Local Open Scope N_scope.

(** Unicode text as Python has it: code points up to U+10FFFF, where a high surrogate is not
    directly followed by a low one (text that comes from a file, the command line or UTF-8
    has no such pair) *)
Definition ordinary (s : pystr) : Prop :=
  (forall c, In c s -> c < 1114112)
  /\ forall a x y b, s = a ++ x :: y :: b -> ~ (55296 <= x <= 56319 /\ 56320 <= y <= 57343).

(** ** Dates *)
(** [a] is before [b] *)
Definition before (a b : stamp) : Prop :=
  t_year a < t_year b \/ (t_year a = t_year b /\
  (t_month a < t_month b \/ (t_month a = t_month b /\
  (t_day a < t_day b \/ (t_day a = t_day b /\
  (t_hour a < t_hour b \/ (t_hour a = t_hour b /\
  (t_minute a < t_minute b \/ (t_minute a = t_minute b /\ t_second a < t_second b))))))))).

(** [s] is the number [n] in [k] decimal digits *)
Definition decimal (k : nat) (n : N) (s : pystr) : Prop :=
  List.length s = k /\ Forall (fun c => 48 <= c <= 57) s /\ fold_left (fun v c => v * 10 + (c - 48)) s 0 = n.

(** [s] is the date as YYYY-MM-DD HH:MM:SS *)
Definition shows_date (t : stamp) (s : pystr) : Prop :=
  exists y m d h mi se, decimal 4 (t_year t) y /\ decimal 2 (t_month t) m /\ decimal 2 (t_day t) d
    /\ decimal 2 (t_hour t) h /\ decimal 2 (t_minute t) mi /\ decimal 2 (t_second t) se
    /\ s = y ++ py "-" ++ m ++ py "-" ++ d ++ py " " ++ h ++ py ":" ++ mi ++ py ":" ++ se.

(** the length of a month *)
Definition leap_year (y : N) : Prop := (N.divide 4 y /\ ~ N.divide 100 y) \/ N.divide 400 y.
Inductive month_length : N -> N -> N -> Prop :=
| ml_31 : forall y m, In m [1; 3; 5; 7; 8; 10; 12] -> month_length y m 31
| ml_30 : forall y m, In m [4; 6; 9; 11] -> month_length y m 30
| ml_29 : forall y, leap_year y -> month_length y 2 29
| ml_28 : forall y, ~ leap_year y -> month_length y 2 28.
(** a date of the calendar *)
Definition calendar (t : stamp) : Prop :=
  1 <= t_year t <= 9999 /\ (exists n, month_length (t_year t) (t_month t) n /\ 1 <= t_day t <= n)
  /\ t_hour t < 24 /\ t_minute t < 60 /\ t_second t < 60.

(** the latest date of the definition files of the archive, but not before 1980-01-01
    01:01:01 *)
Definition latest_date (ms : list member) (dates : pystr -> stamp) (top : pystr) (dt : stamp) : Prop :=
  (dt = mkStamp 1980 1 1 1 1 1 \/ exists m, In m ms /\ definition_file top (m_name m) /\ dt = dates (m_name m))
  /\ ~ before dt (mkStamp 1980 1 1 1 1 1)
  /\ forall m, In m ms -> definition_file top (m_name m) -> ~ before dt (dates (m_name m)).
