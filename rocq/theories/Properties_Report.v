(** * Theorems about scores, summaries and reports (C15, C19-C24) *)

From Coq Require Import List NArith ZArith QArith Bool String Lia Sorted Permutation.
From Verif Require Import PyBase Findings Core Validate Report Samples Spec_Report ReportFacts SampleFacts.
Import ListNotations.
Local Open Scope nat_scope.

(** ** C15: Finding() takes the eight status objects and nothing else *)
Theorem C15_constructor : forall addr test st comment,
  match st with
  | SObj s => Finding_init addr test st comment = Ok (mkF addr test s comment)
              /\ In s [OK; NOTE; WARN; ERROR; TODO; UNUSED; COMMENT; OPTIONAL]
  | SJunk => Finding_init addr test st comment = Exn ValueError
  end.
Proof. exact finding_init_spec. Qed.
Print Assumptions C15_constructor.

(** ** C19: counts are exact, in the fixed order, and add up *)
Theorem C19_summary : forall l,
  finding_summary [] l
    = Ok [(OK, number_with OK l); (NOTE, number_with NOTE l); (WARN, number_with WARN l); (ERROR, number_with ERROR l);
          (TODO, number_with TODO l); (UNUSED, number_with UNUSED l); (COMMENT, number_with COMMENT l);
          (OPTIONAL, number_with OPTIONAL l)]
  /\ number_with OK l + number_with NOTE l + number_with WARN l + number_with ERROR l + number_with TODO l
     + number_with UNUSED l + number_with COMMENT l + number_with OPTIONAL l = List.length l.
Proof. exact summary_spec. Qed.
Print Assumptions C19_summary.

Example C19_case : finding_summary [] [warn0; ok0; note0; ok0] =
  Ok [(OK, 2); (NOTE, 1); (WARN, 1); (ERROR, 0); (TODO, 0); (UNUSED, 0); (COMMENT, 0); (OPTIONAL, 0)].
Proof. reflexivity. Qed.

(** the printed summary: a row per status and the total *)
Theorem C19_printed_summary : forall l, summary_rows l =
  Ok (map (fun s => (name_of s, number_with s l, description s, status_value s))
        [OK; NOTE; WARN; ERROR; TODO; UNUSED; COMMENT; OPTIONAL], List.length l).
Proof. exact summary_rows_spec. Qed.
Print Assumptions C19_printed_summary.

(** ** C20: the score *)
Theorem C20_score : forall l,
  finding_score l = (documented_total l, number_counted l,
    if Nat.eqb (number_counted l) 0 then 0%Q
    else (inject_Z (documented_total l) / inject_Z (Z.of_nat (number_counted l)))%Q).
Proof. exact score_exact. Qed.
Print Assumptions C20_score.

Theorem C20_errors_dominate : forall l, number_with ERROR l <> 0 ->
  (Z.of_nat (number_not_error l) < 100000 * Z.of_nat (number_with ERROR l))%Z ->
  let '(total, _, average) := finding_score l in (total < 0)%Z /\ (average < 0)%Q.
Proof. exact errors_dominate. Qed.
Print Assumptions C20_errors_dominate.

Example C20_case : number_with ERROR [ok0; err0; note0] <> 0
  /\ (Z.of_nat (number_not_error [ok0; err0; note0]) < 100000 * Z.of_nat (number_with ERROR [ok0; err0; note0]))%Z
  /\ finding_score [ok0; err0; note0] = ((-9999825)%Z, 3, ((-9999825) # 3)%Q).
Proof. split; [discriminate|]. split; reflexivity. Qed.

(** ** C21: false; an ERROR among enough good findings leaves a positive average *)
Theorem C21_refuted : exists l, number_with ERROR l <> 0 /\ (0 < snd (finding_score l))%Q.
Proof. exact error_positive_average. Qed.
Print Assumptions C21_refuted.

(** the exact condition *)
Theorem C21_partial : forall l, number_with ERROR l <> 0 ->
  ((snd (finding_score l) < 0)%Q <->
   (100 * Z.of_nat (number_with OK l) + 75 * Z.of_nat (number_with NOTE l) + 25 * Z.of_nat (number_with WARN l)
    + 99 * Z.of_nat (number_with OPTIONAL l) < 10000000 * Z.of_nat (number_with ERROR l))%Z).
Proof. exact negative_average_iff. Qed.
Print Assumptions C21_partial.

Example C21_case : number_with ERROR [err0] <> 0.
Proof. discriminate. Qed.

(** ** C22: the rows are the selected findings, sorted stably by the documented text *)
Theorem C22_rows : forall names l, Forall has_address l -> exists rows,
  report_rows names l = Ok rows
  /\ Permutation rows (filter (selected names) l)
  /\ StronglySorted (fun f g => text_le (key_of f) (key_of g)) rows
  /\ forall k, filter (fun f => if list_eq_dec N.eq_dec (key_of f) k then true else false) rows
             = filter (fun f => if list_eq_dec N.eq_dec (key_of f) k then true else false) (filter (selected names) l).
Proof. exact report_rows_spec. Qed.
Print Assumptions C22_rows.

Example C22_case : Forall has_address [note0; err0; ok0]
  /\ report_rows [] [note0; err0; ok0] = Ok [ok0; note0; err0]
  /\ report_rows [py "ERROR"; py "OK"] [note0; err0; ok0] = Ok [ok0; err0].
Proof. split; [repeat constructor; eexists; reflexivity|]. split; vm_compute; reflexivity. Qed.

(** a finding without an address makes the report fail *)
Theorem C22_no_address : forall names l, ~ Forall has_address l -> report_rows names l = Exn TypeError.
Proof. exact report_rows_exn. Qed.
Print Assumptions C22_no_address.

Example C22_no_address_case : ~ Forall has_address [ok0; mkF None (py "t") OK (py "c")].
Proof.
  intros H. inversion H; subst. inversion H3; subst. destruct H4 as [a Ha]. discriminate.
Qed.

(** print_report as a whole *)
Theorem C22_report : forall name names l, Forall has_address l -> exists rows,
  report_rows names l = Ok rows /\
  print_report (Some name) names l = Ok (mkReport name rows
    (map (fun s => (name_of s, number_with s l, description s, status_value s)) [OK; NOTE; WARN; ERROR; TODO; UNUSED; COMMENT; OPTIONAL])
    (List.length l) (snd (finding_score l)) (number_counted l)).
Proof. exact print_report_spec. Qed.
Print Assumptions C22_report.

(** ** C23: false; at one address a WARN (25) is listed before a NOTE (75) *)
Theorem C23_refuted : exists f g, f_addr f = f_addr g /\ (status_value (f_status f) < status_value (f_status g))%Z
  /\ report_rows [] [g; f] = Ok [f; g] /\ report_rows [] [f; g] = Ok [f; g].
Proof. exact worse_first. Qed.
Print Assumptions C23_refuted.

(** the order actually used at one address: COMMENT, UNUSED, TODO, OK, WARN, NOTE, OPTIONAL, ERROR *)
Theorem C23_partial : forall a s t, text_le (documented_key a s) (documented_key a t) <-> place s <= place t.
Proof. exact same_address_order. Qed.
Print Assumptions C23_partial.

(** ** C24: the digest depends on address and test only; so it does not identify *)
Theorem C24_partial : forall D (digest : pystr -> D) f g,
  f_addr f = f_addr g -> f_test f = f_test g -> make_md5 digest f = make_md5 digest g.
Proof. exact @md5_depends. Qed.
Print Assumptions C24_partial.

(** there is one for every finding with an address; for one without it is TypeError *)
Theorem C24_address_partial : forall D (digest : pystr -> D) f,
  ((exists d, make_md5 digest f = Ok d) <-> exists a, f_addr f = Some a) /\ (f_addr f = None -> make_md5 digest f = Exn TypeError).
Proof.
  intros D digest f. unfold make_md5. destruct (f_addr f) as [a|]; (split; [split|]).
  - eauto.
  - eauto.
  - discriminate.
  - intros [d H]. discriminate H.
  - intros [a H]. discriminate H.
  - reflexivity.
Qed.
Print Assumptions C24_address_partial.

(** address and test can be told apart in it, if the digest function keeps texts apart *)
Theorem C24_separates_partial : forall D (digest : pystr -> D) f g a b, (forall s t, digest s = digest t -> s = t) ->
  f_addr f = Some a -> f_addr g = Some b ->
  (~ In 10%N a /\ ~ In 10%N b) \/ (~ In 10%N (f_test f) /\ ~ In 10%N (f_test g)) ->
  make_md5 digest f = make_md5 digest g -> a = b /\ f_test f = f_test g.
Proof. exact @md5_identifies. Qed.
Print Assumptions C24_separates_partial.

(** two findings whose addresses and tests differ only in where the one ends and the other begins *)
Example C24_case : let f := mkF (Some (py "/entry")) (py "name") OK [] in let g := mkF (Some (py "/ent")) (py "ryname") OK [] in
  make_md5 (fun s => s) f <> make_md5 (fun s => s) g /\ ~ In 10%N (py "/entry") /\ ~ In 10%N (py "/ent").
Proof. cbv zeta. split; [vm_compute; discriminate|]. split; vm_compute; intuition discriminate. Qed.

Theorem C24_refuted : snd (run good_file) = Ok tt /\ exists f g, In f (st_find (final good_file)) /\ In g (st_find (final good_file)) /\ f <> g
  /\ f_status f <> f_status g
  /\ forall D (digest : pystr -> D), make_md5 digest f = make_md5 digest g.
Proof. exact md5_collision. Qed.
Print Assumptions C24_refuted.
