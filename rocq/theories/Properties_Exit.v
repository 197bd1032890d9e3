(** * The exit code of punx validate (C139) *)

From Coq Require Import List NArith ZArith Bool String Lia.
From Verif Require Import PyBase PyFacts H5 Findings Report Nxdl Core Validate H5Tree Cache Install Cli Args Main Samples.
From Verif Require Import Spec_Report Spec_FileSets Spec_Install Spec_Cli Spec_Number NumberFacts Spec_Args CacheSetFacts CliFacts ArgsFacts ArgsEnd Properties_Cache Properties_Install Properties_Cli Properties_Main.
Import ListNotations.
Open Scope string_scope.
Open Scope list_scope.
Local Open Scope nat_scope.

(** a failing exit code exactly for a file with an ERROR: not so *)
Theorem C139_refuted : exists x k w argv v fd, snd (snd (main x k w argv)) = Ok tt
  /\ argv = line ["validate"; "-f"; "v3"; "file.nxs"]
  /\ validate setup0 w (new_validator classes0) (py "file.nxs") = (v, Ok tt) /\ x_load x (fs2 "/x/punx/cache/v3" "source" "2017" "v3") = Ok (setup0, classes0)
  /\ hd_error (fst (snd (main x k w argv))) = Some (Validating (fs2 "/x/punx/cache/v3" "source" "2017" "v3") (py "file.nxs"))
  /\ In fd (st_find (v_st v)) /\ f_status fd = ERROR.
Proof.
  destruct (validate setup0 world0 (new_validator classes0) fn) as [v r] eqn:V.
  assert (X : existsb (fun fd => status_eqb (f_status fd) ERROR) (st_find (v_st (fst (validate setup0 world0 (new_validator classes0) fn)))) = true) by (vm_compute; reflexivity).
  assert (R : snd (validate setup0 world0 (new_validator classes0) fn) = Ok tt) by (vm_compute; reflexivity).
  rewrite V in X, R. cbn [fst snd] in X, R. subst r. apply existsb_exists in X. destruct X as (fd & I & S).
  exists x0, disk2, world0, (line ["validate"; "-f"; "v3"; "file.nxs"]), v, fd.
  split; [vm_compute; reflexivity|]. split; [reflexivity|]. split; [exact V|]. split; [reflexivity|]. split; [vm_compute; reflexivity|]. split; [exact I|].
  destruct (f_status fd); try discriminate S; reflexivity.
Qed.
Print Assumptions C139_refuted.

(** the exit code is 0 exactly if a report is printed *)
Theorem C139_reported : forall rj load upc k w infile name report,
  snd (punx_validate rj load upc k w infile name report) = Ok tt
  <-> exists rep, In (Reported rep) (fst (punx_validate rj load upc k w infile name report)).
Proof.
  intros rj load upc k w infile name report.
  assert (N : forall (evs : list event) e, (forall rep, ~ In (Reported rep) evs) -> snd (evs, Exn e : res unit) = Ok tt <-> exists rep, In (Reported rep) (fst (evs, Exn e : res unit))).
  { intros evs e H. split; [discriminate | intros (rep & I); exfalso; exact (H rep I)]. }
  unfold punx_validate.
  destruct (cache_manager rj k None) as [p [c|e]]; [|apply N; intros rep []].
  destruct (default_ref c) as [ref|e]; [|apply N; intros rep []].
  unfold func_validate. cbn [va_infile va_set va_report]. destruct (cache_manager rj k p) as [p1 [c1|e]]; [|apply N; intros rep []].
  destruct (endswith infile (py ".nxdl.xml")); [apply N; intros rep []|].
  destruct (all_file_sets rj k) as [sets|e]; [|apply N; intros rep []].
  destruct (match name with Some n => Some n | None => ref end) as [n|]; [|apply N; intros rep []].
  destruct (negb (dmem n sets)); [apply N; intros rep []|].
  destruct (used_file_set rj k (refresh rj k p1) (Some n)) as [p3 [fs|e]]; [|apply N; intros rep []].
  destruct (load fs) as [[u cl]|e]; [|apply N; intros rep []]. cbv zeta.
  destruct (Nat.ltb 0 _); [apply N; intros rep []|].
  destruct (validate u w (new_validator cl) infile) as [v [x|e]].
  - destruct (print_report _ _ _) as [rep|e]; [|apply N; intros rep [H | []]; discriminate]. split; [|reflexivity]. intros _. exists rep. right. left. reflexivity.
  - destruct e; apply N; intros rep [H | []]; discriminate.
Qed.
Print Assumptions C139_reported.

(** so it is 0 for every file that is validated to the end, whatever the findings are; the report tells
    how many there are *)
Theorem C139_partial : forall x k w word ws items f n sets fs u cl v, usable (x_json x) k sets -> no_comma (x_upper x) ->
  stands_for subcommands word (py "validate") -> line_of (validate_words (x_env x)) ws items ->
  ~ In VUnknown items -> said validate_file items = [f] -> ~ is_nxdl f ->
  last_said validate_set items = Some n -> dget n sets = Some fs -> x_load x fs = Ok (u, cl) ->
  (forall rs r, last_said validate_report items = Some r -> words_of r rs -> Forall (fun c => exists s, names_status (x_upper x) c s) rs) ->
  validate u w (new_validator cl) f = (v, Ok tt) ->
  exists rep, main x k w (word :: ws) = ([], usr_dir k, ([Validating fs f; Reported rep; Version n], Ok tt))
    /\ r_total rep = List.length (st_find (v_st v)).
Proof.
  intros x k w word ws items f n sets fs u cl v U NC S L NU F NX Sn G Ld R V.
  rewrite (C108_validate x k w word ws items f S L NU F), Sn.
  destruct (usable_init _ _ _ U) as (n0 & fs0 & N & _).
  rewrite (punx_validate_run (x_json x) (x_load x) (x_upper x) k w f (Some n) (last_said validate_report items) sets n0 fs0 U NX N). unfold named_run. rewrite G, Ld.
  assert (X : exists ws', words_of (match last_said validate_report items with Some r => r | None => all_statuses end) ws' /\ Forall (fun c => exists s, names_status (x_upper x) c s) ws').
  { destruct (last_said validate_report items) as [r|].
    - exists (split ch_comma r). split; [apply words_exist | eapply R; eauto; apply words_exist].
    - destruct (all_statuses_ok (x_upper x) OK) as (ws' & A & B & _). exists ws'. auto. }
  destruct X as (ws' & W & Fw). rewrite (accepted_run (x_upper x) w f n _ fs u cl ws' NC W Fw). rewrite V.
  match goal with |- context [print_report ?a ?b ?c] => destruct (C86_printable u w (new_validator cl) f v b V) as (rep & P & _ & T) end.
  rewrite P. exists rep. split; [reflexivity | exact T].
Qed.
Print Assumptions C139_partial.

(** such a line, and a file that is validated to the end *)
Example C139_case : line_of (validate_words env0) (line ["-f"; "v3"; "file.nxs"]) [VSet (py "v3"); VFile fn]
  /\ usable rj2 disk2 (sets_of_disk disk2) /\ no_comma upc0 /\ ~ is_nxdl fn
  /\ dget (py "v3") (sets_of_disk disk2) = Some (fs2 "/x/punx/cache/v3" "source" "2017" "v3")
  /\ (exists v, validate setup0 world0 (new_validator classes0) fn = (v, Ok tt))
  /\ snd (snd (main x0 disk2 world0 (line ["validate"; "-f"; "v4"; "file.nxs"]))) = Exn (SystemExit 1).
Proof.
  split; [|split; [apply C76_example | split; [apply C76_example | split; [apply C76_example | split; [apply C76_example|]]]]].
  - exists [[py "-f"; py "v3"]; [fn]]. split; [|reflexivity]. constructor; [|constructor; [|constructor]].
    + apply vw_set; [left; reflexivity|]. left. apply plain_by. discriminate.
    + constructor. left. intros (r & X). discriminate X.
  - split; [|vm_compute; reflexivity]. destruct (validate setup0 world0 (new_validator classes0) fn) as [v r] eqn:V. exists v. f_equal.
    change r with (snd (v, r)). rewrite <- V. vm_compute. reflexivity.
Qed.
