(** * Scores, summaries and reports: punx/validate.py:126-219 *)

From Coq Require Import List NArith ZArith QArith Bool String.
From Verif Require Import PyBase Findings.
Import ListNotations.
Open Scope string_scope.
Open Scope list_scope.

(** punx/validate.py:134-139, the loop of finding_score: total and count *)
Definition score_step (acc : Z * nat) (f : finding) : Z * nat :=
  if Z.eqb (status_value (f_status f)) 0 then acc
  else ((fst acc + status_value (f_status f))%Z, S (snd acc)).

(** punx/validate.py:126-143 finding_score.  Simplification: the average is the
    exact rational number, Python rounds it to a float. *)
Definition finding_score (l : list finding) : Z * nat * Q :=
  let '(total, count) := fold_left score_step l (0%Z, O) in
  if Nat.eqb count 0 then (total, count, 0%Q)
  else (total, count, (inject_Z total / inject_Z (Z.of_nat count))%Q).

(** [summary[status] += 1]: KeyError for a status that is not a key *)
Fixpoint bump (st : status) (summary : list (status * nat)) : res (list (status * nat)) :=
  match summary with
  | [] => Exn KeyError
  | (k, n) :: rest =>
      if status_eqb st k then Ok ((k, S n) :: rest)
      else rmap (cons (k, n)) (bump st rest)
  end.

(** the loop of punx/validate.py:169-170 *)
Fixpoint bump_all (l : list finding) (summary : list (status * nat)) : res (list (status * nat)) :=
  match l with
  | [] => Ok summary
  | f :: rest => dor s <- bump (f_status f) summary ; bump_all rest s
  end.

(** punx/validate.py:145-171 finding_summary.  The argument is either absent or
    empty (all statuses) or a list of status objects. *)
Definition finding_summary (report_statuses : list status) (l : list finding) : res (list (status * nat)) :=
  let sts := match report_statuses with [] => VALID_STATUS_LIST | _ => report_statuses end in
  let start := fold_left (fun d st => aset status_eqb st O d) sts [] in
  bump_all l start.

(** punx/validate.py:186-191 sort_validations; an address of None cannot be
    extended: TypeError *)
Definition sort_text (addr : pystr) (st : status) : pystr :=
  replace_char ch_at (py " @")
    (addr ++ py " " ++ fmt_3d (- status_value st) ++ py " " ++ status_description st).

(** punx/validate.py:186-191 sort_validations *)
Definition sort_validations (f : finding) : res pystr :=
  match f_addr f with
  | Some a => Ok (sort_text a (f_status f))
  | None => Exn TypeError
  end.

(** [sorted(l, key=...)]: all keys are computed first, then a stable sort *)
Fixpoint keyed (l : list finding) : res (list (pystr * finding)) :=
  match l with
  | [] => Ok []
  | f :: rest => dor k <- sort_validations f ; dor ks <- keyed rest ; Ok ((k, f) :: ks)
  end.

(** punx/validate.py:177, 197-204: the rows of the findings table.  [statuses] are
    status names; none means all (VALID_STATUS_DICT.keys()). *)
Definition report_rows (statuses : list pystr) (l : list finding) : res (list finding) :=
  let reported := match statuses with [] => map status_key VALID_STATUS_LIST | _ => statuses end in
  dor ks <- keyed l ;
  Ok (filter (fun f => existsb (str_eqb (status_key (f_status f))) reported) (map snd (sorted_by fst ks))).

(** punx/validate.py:206-216: the rows of the summary table (status, count,
    description, value) and the TOTAL *)
Definition summary_rows (l : list finding) : res (list (pystr * nat * pystr * Z) * nat) :=
  dor s <- finding_summary [] l ;
  Ok (map (fun kn => (status_key (fst kn), snd kn, status_description (fst kn), status_value (fst kn))) s,
      list_sum (map snd s)).

(** punx/validate.py:173-219 print_report: file name, rows, summary and score.
    [self.fname] is unset before the first validate(): AttributeError.  The
    table layout of pyRestTable is not modelled. *)
Record report := mkReport {
  r_fname : pystr;
  r_rows : list finding;
  r_summary : list (pystr * nat * pystr * Z);
  r_total : nat;
  r_average : Q;
  r_count : nat
}.
Definition print_report (fname : option pystr) (statuses : list pystr) (l : list finding) : res report :=
  match fname with
  | None => Exn AttributeError
  | Some f =>
      dor rows <- report_rows statuses l ;
      dor sm <- summary_rows l ;
      let '(_, count, average) := finding_score l in
      Ok (mkReport f rows (fst sm) (snd sm) average count)
  end.
