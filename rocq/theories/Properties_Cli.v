(** * Properties of the command line (C56-C59, C76-C79, C82-C86) *)

From Coq Require Import List NArith ZArith Bool String Lia Permutation.
From Verif Require Import PyBase PyFacts H5 Findings Report Nxdl Core Validate H5Tree Cache Install Cli Samples.
From Verif Require Import Spec_Report Spec_FileSets Spec_Install Spec_Cli ReportFacts CacheSetFacts InstallFacts CliFacts Properties_Cache Properties_Install.
Import ListNotations.
Open Scope string_scope.
Open Scope list_scope.

(** ** Samples *)
(** [upper] of what is not ASCII: itself *)
Definition upc0 : N -> list N := fun c => if N.eqb c 44 then [] else [c].
(** every file set is the sample one *)
Definition load0 : fileset -> res (setup * classes) := fun _ => Ok (setup0, classes0).
(** the info files have the names of the directories as references *)
Definition rj2 : json_reader := fun text => Ok (mkI (Some (last_part 32%N text)) (Some (py "0123456789")) None (Some (hd [] (split 32%N text)))).
Definition disk2 : disk := mkDisk (py "/x/punx/cache") [(py "v3", set0 "2017 v3"); (py "v2018", set0 "2018 v2018")] (py "/home/u") [(py "main", set0 "2020 main")].
(** the newest has another reference *)
Definition disk3 : disk := mkDisk (py "/x/punx/cache") [(py "v3", set0 "2017 v3"); (py "v2018", set0 "2018 v2018")] (py "/home/u") [(py "mine", set0 "2020 v3")].
Definition world0 : world := world_of good_file ++ [(py "text.txt", FOther)].
Definition sets_of_disk (k : disk) : dict fileset := match all_file_sets rj2 k with Ok s => s | Exn _ => [] end.

Lemma usable2 : usable rj2 disk2 (sets_of_disk disk2).
Proof.
  split; [vm_compute; reflexivity | vm_compute; discriminate| |].
  - right. intros n fs H. vm_compute in H. destruct H as [H | [H | [H | []]]]; injection H as _ <-; discriminate.
  - intros n fs H. right. vm_compute in H. destruct H as [H | [H | [H | []]]]; injection H as _ <-; discriminate.
Qed.
Lemma usable3 : usable rj2 disk3 (sets_of_disk disk3).
Proof.
  split; [vm_compute; reflexivity | vm_compute; discriminate| |].
  - right. intros n fs H. vm_compute in H. destruct H as [H | [H | [H | []]]]; injection H as _ <-; discriminate.
  - intros n fs H. right. vm_compute in H. destruct H as [H | [H | [H | []]]]; injection H as _ <-; discriminate.
Qed.
Definition fs2 (path cache date ref : string) : fileset := mkFS (py path) (py cache) (mkI (Some (py ref)) (Some (py "0123456789")) None (Some (py date))).
Lemma newest2 : newest (sets_of_disk disk2) (py "main") (fs2 "/home/u/main" "user" "2020" "main").
Proof.
  exists [(py "v3", fs2 "/x/punx/cache/v3" "source" "2017" "v3"); (py "v2018", fs2 "/x/punx/cache/v2018" "source" "2018" "v2018")], [].
  split; [vm_compute; reflexivity|]. split; [|intros m f []].
  intros m f [H | [H | []]]; injection H as _ <-; vm_compute; reflexivity.
Qed.
Lemma newest3 : newest (sets_of_disk disk3) (py "mine") (fs2 "/home/u/mine" "user" "2020" "v3").
Proof.
  exists [(py "v3", fs2 "/x/punx/cache/v3" "source" "2017" "v3"); (py "v2018", fs2 "/x/punx/cache/v2018" "source" "2018" "v2018")], [].
  split; [vm_compute; reflexivity|]. split; [|intros m f []].
  intros m f [H | [H | []]]; injection H as _ <-; vm_compute; reflexivity.
Qed.
Lemma no_comma0 : no_comma upc0.
Proof. intros c H. unfold upc0 in H. destruct (N.eqb_spec c 44); [destruct H | destruct H as [H | []]; contradiction]. Qed.
Lemma not_nxdl0 : ~ is_nxdl fn.
Proof. intros (a & E). assert (X : endswith fn (py ".nxdl.xml") = true) by (apply endswith_spec; eauto). vm_compute in X. discriminate. Qed.

(** ** C56 *)
(** for every set of subcommands: a word that stands for a subcommand becomes it, any other is rejected *)
Theorem C56_accepted : forall choices w c, NoDup choices -> (parse_subcommand choices w = Ok c <-> stands_for choices w c).
Proof. intros choices w c ND. apply (subcommand_spec choices w ND). Qed.
Print Assumptions C56_accepted.

Theorem C56_rejected : forall choices w, NoDup choices -> (forall c, ~ stands_for choices w c) -> parse_subcommand choices w = Exn (SystemExit 2).
Proof. intros choices w ND. apply (subcommand_spec choices w ND). Qed.
Print Assumptions C56_rejected.

(** for punx: two or more characters of a subcommand suffice *)
Lemma punx_NoDup : NoDup subcommands.
Proof. repeat constructor; cbn; intuition discriminate. Qed.
Theorem C56_punx : forall w c, parse_subcommand subcommands w = Ok c <->
  In c [py "configuration"; py "demonstrate"; py "install"; py "tree"; py "validate"] /\ 2 <= List.length w /\ prefix_of w c.
Proof.
  intros w c. rewrite C56_accepted by exact punx_NoDup. unfold stands_for. split.
  - intros (I & [-> | (_ & L & P & _)]); [|auto]. split; [auto|]. split; [|exists []; rewrite app_nil_r; reflexivity].
    simpl in I. destruct I as [<-|[<-|[<-|[<-|[<-|[]]]]]]; vm_compute; lia.
  - intros (I & L & (rest & P)). split; [exact I|].
    destruct (in_dec (list_eq_dec N.eq_dec) w subcommands) as [Iw | Nw].
    + left. destruct w as [|a [|b w]]; [simpl in L; lia | simpl in L; lia|].
      assert (A : forall x y, In x subcommands -> In y subcommands -> firstn 2 x = firstn 2 y -> x = y).
      { intros x y Hx Hy. simpl in Hx, Hy. destruct Hx as [<-|[<-|[<-|[<-|[<-|[]]]]]]; destruct Hy as [<-|[<-|[<-|[<-|[<-|[]]]]]];
          try reflexivity; vm_compute; discriminate. }
      apply A; auto. rewrite P. reflexivity.
    + right. split; [exact Nw|]. split; [exact L|]. split; [exists rest; exact P|].
      intros c' I' (rest' & P'). destruct w as [|a [|b w]]; [simpl in L; lia | simpl in L; lia|].
      assert (A : forall x y, In x subcommands -> In y subcommands -> firstn 2 x = firstn 2 y -> x = y).
      { intros x y Hx Hy. simpl in Hx, Hy. destruct Hx as [<-|[<-|[<-|[<-|[<-|[]]]]]]; destruct Hy as [<-|[<-|[<-|[<-|[<-|[]]]]]];
          try reflexivity; vm_compute; discriminate. }
      apply A; auto. rewrite P, P'. reflexivity.
Qed.
Print Assumptions C56_punx.

(** an ambiguous abbreviation, a unique one, and a subcommand that is itself a prefix of another *)
Example C56_example : let cs := [py "tree"; py "treeview"; py "table"] in NoDup cs
  /\ parse_subcommand cs (py "tre") = Exn (SystemExit 2) /\ parse_subcommand cs (py "tree") = Ok (py "tree")
  /\ parse_subcommand cs (py "ta") = Ok (py "table") /\ parse_subcommand cs (py "t") = Exn (SystemExit 2)
  /\ parse_subcommand subcommands (py "va") = Ok (py "validate").
Proof. cbv zeta. split; [repeat constructor; cbn; intuition discriminate | vm_compute; auto]. Qed.

(** ** C76 *)
(** no file set of that name: exit 1, nothing validated *)
Theorem C76_missing : forall rj load upc k w infile n report sets, usable rj k sets -> ~ is_nxdl infile -> dget n sets = None ->
  punx_validate rj load upc k w infile (Some n) report = ([], Exn (SystemExit 1)).
Proof.
  intros rj load upc k w infile n report sets U NX G. destruct (usable_init _ _ _ U) as (n0 & fs0 & N & _).
  rewrite (punx_validate_run rj load upc k w infile (Some n) report sets n0 fs0 U NX N). unfold named_run. rewrite G. reflexivity.
Qed.
Print Assumptions C76_missing.

(** what is validated is the given file, with the file set of the given name, at most once *)
Theorem C76_named : forall rj load upc k w infile n report sets fs file, usable rj k sets -> ~ is_nxdl infile ->
  In (Validating fs file) (fst (punx_validate rj load upc k w infile (Some n) report)) -> dget n sets = Some fs /\ file = infile.
Proof.
  intros rj load upc k w infile n report sets fs file U NX I. destruct (usable_init _ _ _ U) as (n0 & fs0 & N & _).
  rewrite (punx_validate_run rj load upc k w infile (Some n) report sets n0 fs0 U NX N) in I. unfold named_run in I.
  destruct (dget n sets) as [f|]; [|destruct I]. destruct (load f) as [[u cl]|e]; [|destruct I]. unfold after_load in I.
  destruct (Nat.ltb 0 _); [destruct I|]. destruct (validate u w (new_validator cl) infile) as [v [x|e]].
  - destruct (print_report _ _ _); simpl in I; destruct I as [I | I]; try (injection I as <- <-; auto); repeat destruct I as [I | I]; try discriminate; contradiction.
  - destruct e; simpl in I; destruct I as [I | []]; injection I as <- <-; auto.
Qed.
Print Assumptions C76_named.

(** and it is validated, if the file set can be loaded and the report option is in order *)
Theorem C76_validates : forall rj load upc k w infile n report sets fs u cl, usable rj k sets -> ~ is_nxdl infile -> no_comma upc ->
  dget n sets = Some fs -> load fs = Ok (u, cl) ->
  (forall ws r, report = Some r -> words_of r ws -> Forall (fun x => exists s, names_status upc x s) ws) ->
  exists rest r, punx_validate rj load upc k w infile (Some n) report = (Validating fs infile :: rest, r).
Proof.
  intros rj load upc k w infile n report sets fs u cl U NX NC G L R. destruct (usable_init _ _ _ U) as (n0 & fs0 & N & _).
  rewrite (punx_validate_run rj load upc k w infile (Some n) report sets n0 fs0 U NX N). unfold named_run. rewrite G, L.
  assert (X : exists ws, words_of (match report with Some r => r | None => all_statuses end) ws /\ Forall (fun x => exists s, names_status upc x s) ws).
  { destruct report as [r|].
    - exists (split ch_comma r). split; [apply words_exist | eapply R; eauto; apply words_exist].
    - destruct (all_statuses_ok upc OK) as (ws & A & B & _). exists ws. auto. }
  destruct X as (ws & W & F). rewrite (accepted_run upc w infile n _ fs u cl ws NC W F).
  destruct (validate u w (new_validator cl) infile) as [v [x|e]]; [|destruct e; eexists _, _; reflexivity].
  destruct (print_report _ _ _); eexists _, _; reflexivity.
Qed.
Print Assumptions C76_validates.

(** validating with the set called v3, not with the newest one; and with none *)
Example C76_example : usable rj2 disk2 (sets_of_disk disk2) /\ ~ is_nxdl fn /\ no_comma upc0
  /\ dget (py "v3") (sets_of_disk disk2) = Some (fs2 "/x/punx/cache/v3" "source" "2017" "v3") /\ dget (py "v4") (sets_of_disk disk2) = None
  /\ snd (punx_validate rj2 load0 upc0 disk2 world0 fn (Some (py "v3")) None) = Ok tt
  /\ hd_error (fst (punx_validate rj2 load0 upc0 disk2 world0 fn (Some (py "v3")) None)) = Some (Validating (fs2 "/x/punx/cache/v3" "source" "2017" "v3") fn).
Proof.
  split; [exact usable2|]. split; [exact not_nxdl0|]. split; [exact no_comma0|]. split; [vm_compute; reflexivity|]. split; [vm_compute; reflexivity|].
  split; vm_compute; reflexivity.
Qed.

(** ** C57 *)
(** accepted: the file is validated; when this completes, the report lists exactly
    the findings with a status that was named *)
Theorem C57_accepted : forall rj load upc k w infile n r ws sets fs u cl v, usable rj k sets -> ~ is_nxdl infile -> no_comma upc ->
  dget n sets = Some fs -> load fs = Ok (u, cl) ->
  words_of r ws -> Forall (fun x => exists s, names_status upc x s) ws -> validate u w (new_validator cl) infile = (v, Ok tt) ->
  exists rep, punx_validate rj load upc k w infile (Some n) (Some r) = ([Validating fs infile; Reported rep; Version n], Ok tt)
    /\ reports infile (fun s => exists x, In x ws /\ names_status upc x s) (st_find (v_st v)) rep.
Proof.
  intros rj load upc k w infile n r ws sets fs u cl v U NX NC G L W F V. destruct (usable_init _ _ _ U) as (n0 & fs0 & N & _).
  rewrite (punx_validate_run rj load upc k w infile (Some n) (Some r) sets n0 fs0 U NX N). unfold named_run. rewrite G, L.
  rewrite (accepted_run upc w infile n r fs u cl ws NC W F). rewrite V.
  destruct (report_of_run _ _ _ _ _ (map (upper upc) ws) V) as (rep & A & B & C & D). rewrite A. exists rep. split; [reflexivity|].
  split; [exact B|]. split; [exact D|]. intros f. eapply reports_chosen; eauto. apply W.
Qed.
Print Assumptions C57_accepted.

(** rejected: exit 1, nothing validated *)
Theorem C57_rejected : forall rj load upc k w infile n r ws sets fs u cl, usable rj k sets -> ~ is_nxdl infile -> no_comma upc ->
  dget n sets = Some fs -> load fs = Ok (u, cl) ->
  words_of r ws -> (exists x, In x ws /\ forall s, ~ names_status upc x s) ->
  punx_validate rj load upc k w infile (Some n) (Some r) = ([], Exn (SystemExit 1)).
Proof.
  intros rj load upc k w infile n r ws sets fs u cl U NX NC G L W (x & I & H). destruct (usable_init _ _ _ U) as (n0 & fs0 & N & _).
  rewrite (punx_validate_run rj load upc k w infile (Some n) (Some r) sets n0 fs0 U NX N). unfold named_run. rewrite G, L.
  apply (rejected_run upc w infile n r fs u cl ws NC W). intros F. rewrite Forall_forall in F. destruct (F x I) as [s Hs]. destruct (H s Hs).
Qed.
Print Assumptions C57_rejected.

(** without the option every status is reported *)
Theorem C57_default : forall rj load upc k w infile n sets fs u cl v, usable rj k sets -> ~ is_nxdl infile -> no_comma upc ->
  dget n sets = Some fs -> load fs = Ok (u, cl) -> validate u w (new_validator cl) infile = (v, Ok tt) ->
  exists rep, punx_validate rj load upc k w infile (Some n) None = ([Validating fs infile; Reported rep; Version n], Ok tt)
    /\ reports infile (fun _ => True) (st_find (v_st v)) rep.
Proof.
  intros rj load upc k w infile n sets fs u cl v U NX NC G L V. destruct (all_statuses_ok upc OK) as (ws & A & B & _).
  change (punx_validate rj load upc k w infile (Some n) None) with (punx_validate rj load upc k w infile (Some n) (Some all_statuses)).
  destruct (C57_accepted rj load upc k w infile n _ ws sets fs u cl v U NX NC G L A B V) as (rep & E & R). exists rep. split; [exact E|].
  destruct R as (R1 & R2 & R3). split; [exact R1|]. split; [exact R2|]. intros f. rewrite R3. split; [tauto|]. intros (I & _). split; [exact I|].
  destruct (all_statuses_ok upc (f_status f)) as (ws' & A' & _ & x & Ix & Sx). exists x. split; [|exact Sx].
  replace ws with ws'; [exact Ix|]. destruct A as (A1 & A2 & A3), A' as (B1 & B2 & B3).
  rewrite <- (split_join 44%N ws' B2 B3), <- (split_join 44%N ws A2 A3). change [44%N] with (py ","). congruence.
Qed.
Print Assumptions C57_default.

Example C57_example : words_of (py "error,Ok") [py "error"; py "Ok"]
  /\ Forall (fun x => exists s, names_status upc0 x s) [py "error"; py "Ok"]
  /\ words_of (py "error,,ok") [py "error"; []; py "ok"] /\ (forall s, ~ names_status upc0 [] s)
  /\ snd (validate setup0 world0 (new_validator classes0) fn) = Ok tt
  /\ match punx_validate rj2 load0 upc0 disk2 world0 fn (Some (py "v3")) (Some (py "error,Ok")) with
     | ([Validating _ _; Reported rep; Version _], Ok _) => existsb (fun f => status_eqb (f_status f) OK) (r_rows rep)
         && forallb (fun f => status_eqb (f_status f) OK || status_eqb (f_status f) ERROR) (r_rows rep)
         && Nat.ltb (List.length (r_rows rep)) (r_total rep) = true
     | _ => False
     end
  /\ punx_validate rj2 load0 upc0 disk2 world0 fn (Some (py "v3")) (Some (py "error,,ok")) = ([], Exn (SystemExit 1)).
Proof.
  split; [split; [reflexivity | split; [discriminate|]]|].
  { intros w [<- | [<- | []]]; vm_compute; intuition discriminate. }
  split.
  { constructor; [exists ERROR; apply (upper_spec upc0 (py "error"))|]. constructor; [exists OK; apply (upper_spec upc0 (py "Ok"))|]. constructor. }
  split; [split; [reflexivity | split; [discriminate|]]|].
  { intros w [<- | [<- | [<- | []]]]; vm_compute; intuition discriminate. }
  split; [intros s H; apply upper_unique in H; destruct s; discriminate|].
  split; [vm_compute; reflexivity|]. split; vm_compute; reflexivity.
Qed.

(** ** C86 *)
(** after a completed validation the report can be printed, whatever statuses are chosen *)
Theorem C86_printable : forall u w v f v' names, validate u w v f = (v', Ok tt) ->
  exists rep, print_report (v_fname v') names (st_find (v_st v')) = Ok rep /\ r_fname rep = f /\ r_total rep = List.length (st_find (v_st v')).
Proof. intros u w v f v' names H. destruct (report_of_run _ _ _ _ _ names H) as (rep & A & B & _ & D). eauto. Qed.
Print Assumptions C86_printable.

Example C86_example : snd (validate setup0 world0 (new_validator classes0) fn) = Ok tt.
Proof. vm_compute. reflexivity. Qed.

(** ** C77 *)
(** the reference in the info file of the newest file set is taken for its name: here
    another file set is used *)
Theorem C77_refuted : newest (sets_of_disk disk3) (py "mine") (fs2 "/home/u/mine" "user" "2020" "v3") /\ usable rj2 disk3 (sets_of_disk disk3)
  /\ exists rest, punx_validate rj2 load0 upc0 disk3 world0 fn None None = (Validating (fs2 "/x/punx/cache/v3" "source" "2017" "v3") fn :: rest, Ok tt).
Proof. split; [exact newest3|]. split; [exact usable3|]. eexists. vm_compute. reflexivity. Qed.
Print Assumptions C77_refuted.

(** when the reference is the name, it is as if the newest had been named; *)
Theorem C77_partial : forall rj load upc k w infile report sets n fs, usable rj k sets -> ~ is_nxdl infile -> newest sets n fs ->
  i_ref (fs_info fs) = Some n ->
  punx_validate rj load upc k w infile None report = punx_validate rj load upc k w infile (Some n) report /\ dget n sets = Some fs.
Proof.
  intros rj load upc k w infile report sets n fs U NX N R. split.
  - rewrite !(punx_validate_run rj load upc k w infile _ report sets n fs U NX N). rewrite R. reflexivity.
  - apply newest_get; [|exact N]. eapply all_sets_NoDup. apply U.
Qed.
Print Assumptions C77_partial.

(** otherwise it is as if the reference had been named; without reference it ends with exit 1 *)
Theorem C77_reference : forall rj load upc k w infile report sets n fs, usable rj k sets -> ~ is_nxdl infile -> newest sets n fs ->
  match i_ref (fs_info fs) with
  | Some r => punx_validate rj load upc k w infile None report = punx_validate rj load upc k w infile (Some r) report
  | None => punx_validate rj load upc k w infile None report = ([], Exn (SystemExit 1))
  end.
Proof.
  intros rj load upc k w infile report sets n fs U NX N. destruct (i_ref (fs_info fs)) as [r|] eqn:R.
  - rewrite !(punx_validate_run rj load upc k w infile _ report sets n fs U NX N). rewrite R. reflexivity.
  - rewrite (punx_validate_run rj load upc k w infile _ report sets n fs U NX N). rewrite R. reflexivity.
Qed.
Print Assumptions C77_reference.

Example C77_example : usable rj2 disk2 (sets_of_disk disk2) /\ newest (sets_of_disk disk2) (py "main") (fs2 "/home/u/main" "user" "2020" "main")
  /\ hd_error (fst (punx_validate rj2 load0 upc0 disk2 world0 fn None None)) = Some (Validating (fs2 "/home/u/main" "user" "2020" "main") fn).
Proof. split; [exact usable2|]. split; [exact newest2 | vm_compute; reflexivity]. Qed.

(** ** C78 *)
Theorem C78_exits : forall rj load upc k w infile n r ws sets fs u cl, usable rj k sets -> ~ is_nxdl infile -> no_comma upc ->
  dget n sets = Some fs -> load fs = Ok (u, cl) -> words_of r ws -> Forall (fun x => exists s, names_status upc x s) ws ->
  ~ is_hdf5 w infile ->
  punx_validate rj load upc k w infile (Some n) (Some r) = ([Validating fs infile], Exn (SystemExit 1)).
Proof.
  intros rj load upc k w infile n r ws sets fs u cl U NX NC G L W F NH. destruct (usable_init _ _ _ U) as (n0 & fs0 & N & _).
  rewrite (punx_validate_run rj load upc k w infile (Some n) (Some r) sets n0 fs0 U NX N). unfold named_run. rewrite G, L.
  rewrite (accepted_run upc w infile n r fs u cl ws NC W F). unfold validate. destruct (dget infile w) as [[h|]|] eqn:E; [|reflexivity|reflexivity].
  destruct NH. exists h. exact E.
Qed.
Print Assumptions C78_exits.

(** whatever else may be wrong: no report for such a file *)
Theorem C78_no_report : forall rj load upc k w infile name report, ~ is_hdf5 w infile ->
  (forall rep, ~ In (Reported rep) (fst (punx_validate rj load upc k w infile name report)))
  /\ snd (punx_validate rj load upc k w infile name report) <> Ok tt.
Proof.
  intros rj load upc k w infile name report NH. unfold punx_validate.
  destruct (cache_manager rj k None) as [p [c|e]] eqn:E; [|simpl; split; [intros rep []|discriminate]].
  destruct (default_ref c) as [ref|e]; [|simpl; split; [intros rep []|discriminate]].
  unfold func_validate. cbn [va_infile va_set va_report]. destruct (cache_manager rj k p) as [p1 [c1|e]]; [|simpl; split; [intros rep []|discriminate]].
  destruct (endswith infile (py ".nxdl.xml")); [simpl; split; [intros rep []|discriminate]|].
  destruct (all_file_sets rj k) as [sets|e]; [|simpl; split; [intros rep []|discriminate]].
  destruct (match name with Some n => Some n | None => ref end) as [n|]; [|simpl; split; [intros rep []|discriminate]].
  destruct (negb (dmem n sets)); [simpl; split; [intros rep []|discriminate]|].
  destruct (used_file_set rj k (refresh rj k p1) (Some n)) as [p3 [fs|e]]; [|simpl; split; [intros rep []|discriminate]].
  destruct (load fs) as [[u cl]|e]; [|simpl; split; [intros rep []|discriminate]].
  destruct (Nat.ltb 0 _); [simpl; split; [intros rep []|discriminate]|].
  unfold validate. destruct (dget infile w) as [[h|]|] eqn:D.
  - destruct NH. exists h. exact D.
  - simpl. split; [intros rep [X | []]; discriminate | discriminate].
  - simpl. split; [intros rep [X | []]; discriminate | discriminate].
Qed.
Print Assumptions C78_no_report.

Example C78_example : ~ is_hdf5 world0 (py "text.txt") /\ ~ is_hdf5 world0 (py "nothing.h5") /\ is_hdf5 world0 fn
  /\ snd (punx_validate rj2 load0 upc0 disk2 world0 (py "text.txt") None None) = Exn (SystemExit 1)
  /\ snd (punx_validate rj2 load0 upc0 disk2 world0 (py "nothing.h5") None None) = Exn (SystemExit 1).
Proof.
  split; [intros (h & H); vm_compute in H; discriminate|]. split; [intros (h & H); vm_compute in H; discriminate|].
  split; [eexists; reflexivity|]. split; vm_compute; reflexivity.
Qed.

(** ** C58 *)
(** an NXDL file is never validated: AttributeError *)
Theorem C58_refuted : exists infile, is_nxdl infile /\ snd (punx_validate rj2 load0 upc0 disk2 world0 infile None None) = Exn AttributeError.
Proof. exists (py "NXentry.nxdl.xml"). split; [exists (py "NXentry"); reflexivity | vm_compute; reflexivity]. Qed.
Print Assumptions C58_refuted.

Theorem C58_partial : forall rj load upc k w infile name report sets, usable rj k sets -> is_nxdl infile ->
  punx_validate rj load upc k w infile name report = ([], Exn AttributeError).
Proof.
  intros rj load upc k w infile name report sets U NX. apply not_nxdl in NX. destruct (usable_init _ _ _ U) as (n & fs & _ & E).
  unfold punx_validate. cbn [cache_manager]. rewrite E. cbn [default_ref cm_default]. unfold func_validate. cbn [cache_manager va_infile]. rewrite NX. reflexivity.
Qed.
Print Assumptions C58_partial.

(** ** C59 *)
Definition tree0 (infile : string) : list event * res unit :=
  func_tree rj2 env0 (fun s => s) disk2 world0 (fun _ => DObject [] []) 100 (fun _ => XMissing) (fun _ _ => SMissing) None (mkTA (py infile) true 5).

(** a missing data file is an empty line and success; another file is an OSError, a
    missing NXDL file an AttributeError *)
Theorem C59_refuted : ~ is_hdf5 world0 (py "nothing.h5") /\ tree0 "nothing.h5" = ([Printed []], Ok tt)
  /\ ~ is_hdf5 world0 (py "text.txt") /\ tree0 "text.txt" = ([], Exn OSError)
  /\ tree0 "NXnothing.nxdl.xml" = ([], Exn AttributeError).
Proof.
  split; [intros (h & H); vm_compute in H; discriminate|]. split; [vm_compute; reflexivity|].
  split; [intros (h & H); vm_compute in H; discriminate|]. split; vm_compute; reflexivity.
Qed.
Print Assumptions C59_refuted.

(** so it is always; nothing of a tree is printed *)
Theorem C59_partial : forall rj E up k w ds fuel xml transform p a, ~ is_nxdl (ta_infile a) -> ~ is_hdf5 w (ta_infile a) ->
  func_tree rj E up k w ds fuel xml transform p a = match dget (ta_infile a) w with None => ([Printed []], Ok tt) | Some _ => ([], Exn OSError) end.
Proof.
  intros rj E up k w ds fuel xml transform p a NX NH. unfold func_tree.
  destruct (endswith (ta_infile a) (py ".nxdl.xml")) eqn:X; [apply not_nxdl in X; contradiction|].
  unfold new_tree, isNeXusFile. destruct (dget (ta_infile a) w) as [[h|]|] eqn:D; [destruct NH; exists h; exact D | reflexivity | reflexivity].
Qed.
Print Assumptions C59_partial.

(** for NXDL files: exit 1 if the file is no XML or has no known category *)
Theorem C59_nxdl_partial : forall rj E up k w ds fuel xml transform a c, is_nxdl (ta_infile a) ->
  (xml (ta_infile a) = XMissing -> func_tree rj E up k w ds fuel xml transform (Some c) a = ([], Exn AttributeError))
  /\ (xml (ta_infile a) = XBad \/ xml (ta_infile a) = XDoc None
      \/ (exists cat, xml (ta_infile a) = XDoc (Some cat) /\ forall d, ~ directory_of cat d) ->
      func_tree rj E up k w ds fuel xml transform (Some c) a = ([], Exn (SystemExit 1))).
Proof.
  intros rj E up k w ds fuel xml transform a c NX. apply not_nxdl in NX. unfold func_tree. rewrite NX. split.
  - intros ->. cbn. destruct (cm_default c); reflexivity.
  - intros [-> | [-> | (cat & -> & H)]]; try reflexivity. cbn [new_nxdl_tree determine_category].
    destruct (str_eqb_spec cat (py "application")) as [->|]; [destruct (H _ dir_application)|].
    destruct (str_eqb_spec cat (py "base")) as [->|]; [destruct (H _ dir_base)|].
    destruct (str_eqb_spec cat (py "contributed")) as [->|]; [destruct (H _ dir_contributed)|]. reflexivity.
Qed.
Print Assumptions C59_nxdl_partial.

Example C59_example : is_nxdl (py "a.nxdl.xml") /\ (forall d, ~ directory_of (py "basic") d) /\ exists c, cm_init rj2 disk2 = Ok c.
Proof. split; [exists (py "a"); reflexivity|]. split; [intros d H; inversion H | eexists; vm_compute; reflexivity]. Qed.

(** ** C85 *)
(** an NXDL file is shown through the style sheet of its category in the newest file set *)
Theorem C85_transformed : forall rj E up k w ds fuel xml transform a sets n fs cat dir lines, usable rj k sets -> newest sets n fs ->
  is_nxdl (ta_infile a) -> xml (ta_infile a) = XDoc (Some cat) -> directory_of cat dir ->
  transform (ta_infile a) (fs_path fs ++ py "/" ++ dir ++ py "/nxdlformat.xsl") = SLines lines ->
  func_tree rj E up k w ds fuel xml transform None a
  = ([Printed ((py "file: " ++ ta_infile a) :: (py "XSLT: " ++ fs_path fs ++ py "/" ++ dir ++ py "/nxdlformat.xsl") :: lines)], Ok tt).
Proof.
  intros rj E up k w ds fuel xml transform a sets n fs cat dir lines U N NX X D T. apply not_nxdl in NX. unfold func_tree. rewrite NX, X.
  assert (C : new_nxdl_tree (XDoc (Some cat)) = Ok (Some dir)) by (destruct D; vm_compute; reflexivity). rewrite C.
  unfold nxdl_report. cbn [cache_manager]. destruct (usable_init _ _ _ U) as (n' & fs' & N' & I). rewrite I. cbn [cm_default].
  pose proof (newest_unique _ _ _ _ _ N N') as Q. injection Q as <- <-. rewrite T. reflexivity.
Qed.
Print Assumptions C85_transformed.

Example C85_example : usable rj2 disk2 (sets_of_disk disk2) /\ newest (sets_of_disk disk2) (py "main") (fs2 "/home/u/main" "user" "2020" "main")
  /\ func_tree rj2 env0 (fun s => s) disk2 [] (fun _ => DNull) 100 (fun _ => XDoc (Some (py "base")))
       (fun file xslt => SLines [file; xslt]) None (mkTA (py "a.nxdl.xml") true 5)
     = ([Printed [py "file: a.nxdl.xml"; py "XSLT: /home/u/main/base_classes/nxdlformat.xsl"; py "a.nxdl.xml"; py "/home/u/main/base_classes/nxdlformat.xsl"]], Ok tt).
Proof. split; [exact usable2|]. split; [exact newest2 | vm_compute; reflexivity]. Qed.

(** ** C83 *)
(** punx configuration lists all file sets, oldest first, and the reference of the newest *)
Theorem C83_configuration : forall rj k sets n fs, usable rj k sets -> newest sets n fs -> (forall m f, In (m, f) sets -> i_sha (fs_info f) <> None) ->
  exists rows order, func_configuration rj k None = ([Table rows; Default (i_ref (fs_info fs))], Ok tt)
    /\ Permutation order sets /\ oldest_first order /\ Forall2 (fun nf row => row_of (fst nf) (snd nf) row) order rows.
Proof.
  intros rj k sets n fs U N S. unfold func_configuration. cbn [cache_manager]. destruct (usable_init _ _ _ U) as (n' & fs' & N' & I). rewrite I.
  pose proof (newest_unique _ _ _ _ _ N N') as Q. injection Q as <- <-. unfold show_caches.
  destruct (table_total rj k sets (us_sets _ _ _ U) (us_dates _ _ _ U) S) as (rows & T). rewrite T. cbn [default_ref cm_default].
  destruct (table_spec rj k rows T) as (sets' & order & A & B & C & D). rewrite (us_sets _ _ _ U) in A. injection A as <-.
  exists rows, order. auto.
Qed.
Print Assumptions C83_configuration.

Example C83_example : (forall m f, In (m, f) (sets_of_disk disk2) -> i_sha (fs_info f) <> None)
  /\ func_configuration rj2 disk2 None =
     ([Table [[py "v3"; py "source"; py "2017"; py "0123456"; py "/x/punx/cache/v3"];
              [py "v2018"; py "source"; py "2018"; py "0123456"; py "/x/punx/cache/v2018"];
              [py "main"; py "user"; py "2020"; py "0123456"; py "/home/u/main"]]; Default (Some (py "main"))], Ok tt).
Proof.
  split; [|vm_compute; reflexivity]. intros m f H. vm_compute in H. destruct H as [H | [H | [H | []]]]; injection H as _ <-; discriminate.
Qed.

(** ** C82 *)
(** without a file set called main, punx demonstrate only exits *)
Definition disk_new : disk := mkDisk (py "/x/punx/cache") [(py "a4fd52d", set0 "2016 a4fd52d"); (py "v2018.5", set0 "2018 v2018.5"); (py "v3.3", set0 "2017 v3.3")] (py "/home/u") [].
Lemma usable_new : usable rj2 disk_new (sets_of_disk disk_new).
Proof.
  split; [vm_compute; reflexivity | vm_compute; discriminate| |].
  - right. intros n fs H. vm_compute in H. destruct H as [H | [H | [H | []]]]; injection H as _ <-; discriminate.
  - intros n fs H. right. vm_compute in H. destruct H as [H | [H | [H | []]]]; injection H as _ <-; discriminate.
Qed.
Theorem C82_refuted : usable rj2 disk_new (sets_of_disk disk_new) /\ forall load upc E up w ds fuel c demo, ~ is_nxdl demo ->
  func_demo rj2 load upc E up disk_new w ds fuel (Some c) demo = ([], Exn (SystemExit 1)).
Proof.
  split; [exact usable_new|]. intros load upc E up w ds fuel c demo NX. unfold func_demo.
  pose proof (func_validate_run rj2 load upc disk_new w c (mkVA demo (Some GITHUB_NXDL_BRANCH) all_statuses) _ usable_new NX) as H.
  cbn [va_infile va_set va_report] in H. destruct (func_validate _ _ _ _ _ _ _) as [p [ev r]]. cbn [snd] in H.
  assert (D : dget GITHUB_NXDL_BRANCH (sets_of_disk disk_new) = None) by (vm_compute; reflexivity).
  unfold named_run in H. rewrite D in H. injection H as -> ->. reflexivity.
Qed.
Print Assumptions C82_refuted.

(** with it, the demonstration file is validated and reported in full, then its tree is
    shown, if the file can be validated and shown *)
Theorem C82_partial : forall rj load upc E up k w ds fuel c demo sets fs u cl v t lines, usable rj k sets -> ~ is_nxdl demo -> no_comma upc ->
  dget (py "main") sets = Some fs -> load fs = Ok (u, cl) -> validate u w (new_validator cl) demo = (v, Ok tt) ->
  new_tree E w demo = Ok t -> tree_report E up w ds fuel (mkTree (t_filename t) (t_nexus t) 5) true = Ok (Some lines) ->
  exists rep, func_demo rj load upc E up k w ds fuel (Some c) demo = ([Validating fs demo; Reported rep; Version (py "main"); Printed lines], Ok tt)
    /\ reports demo (fun _ => True) (st_find (v_st v)) rep.
Proof.
  intros rj load upc E up k w ds fuel c demo sets fs u cl v t lines U NX NC G L V T R.
  destruct (usable_init _ _ _ U) as (n0 & fs0 & N & _).
  destruct (C57_default rj load upc k w demo (py "main") sets fs u cl v U NX NC G L V) as (rep & P & Q).
  rewrite (punx_validate_run rj load upc k w demo _ _ sets n0 fs0 U NX N) in P.
  pose proof (func_validate_run rj load upc k w c (mkVA demo (Some GITHUB_NXDL_BRANCH) all_statuses) _ U NX) as H.
  cbn [va_infile va_set va_report] in H. unfold GITHUB_NXDL_BRANCH in H. cbn iota in P.
  unfold func_demo, GITHUB_NXDL_BRANCH. destruct (func_validate rj load upc k w (Some c) _) as [p [ev r]]. cbn [snd] in H.
  rewrite P in H. injection H as -> ->. exists rep. rewrite T, R. auto.
Qed.
Print Assumptions C82_partial.

Example C82_example : dget (py "main") (sets_of_disk disk2) = Some (fs2 "/home/u/main" "user" "2020" "main")
  /\ exists rep lines, func_demo rj2 load0 upc0 env0 (fun s => s) disk2 world0 (fun _ => DObject [] []) 100 None fn
     = ([Validating (fs2 "/home/u/main" "user" "2020" "main") fn; Reported rep; Version (py "main"); Printed lines], Ok tt) /\ lines <> [].
Proof. split; [vm_compute; reflexivity|]. eexists _, _. split; [vm_compute; reflexivity | discriminate]. Qed.

(** ** C79 *)
(** without --update an existing directory of the cache is as before at every crash point *)
Theorem C79_existing : forall rj k p names net n s, ordinary_downloads names net n -> In n (map fst (usr_dir k)) ->
  passes_through (usr_dir k) (func_install rj k p false net names) s -> dget n s = dget n (usr_dir k).
Proof.
  intros rj k p names net n s H I V. unfold func_install in V.
  assert (G : dget n (usr_dir k) <> None) by (intros X; apply dget_None in X; contradiction).
  assert (K : visited (usr_dir k) (install_all false net 0 names (usr_dir k)) s -> dget n s = dget n (usr_dir k)).
  { intros X. eapply (install_keeps n names net _ s 0); eauto. }
  destruct (cache_manager rj k p) as [p' [c|e]]; [|unfold passes_through in V; simpl in V; intuition congruence].
  apply K. unfold passes_through, visited in *. destruct (install_all false net 0 names (usr_dir k)) as [[l e] [x|x]]; simpl in *; exact V.
Qed.
Print Assumptions C79_existing.

(** after a normal return every named file set is there: as it was (only without
    --update), or complete with the content of a downloaded archive *)
Theorem C79_present : forall rj k p update names net n, ordinary_downloads names net n -> In n names ->
  snd (snd (func_install rj k p update net names)) = Ok tt ->
  let e := snd (fst (func_install rj k p update net names)) in
  (update = false /\ dget n (usr_dir k) <> None /\ dget n e = dget n (usr_dir k))
  \/ exists t, dget n e = Some t /\ installed_from names net n t.
Proof.
  intros rj k p update names net n H I R. cbv zeta. unfold func_install in *.
  destruct (cache_manager rj k p) as [p' [c|e]]; [|discriminate].
  pose proof (install_present n update names net 0 (usr_dir k) H) as X. cbv zeta in X.
  destruct (install_all update net 0 names (usr_dir k)) as [[l e] [[]|x]]; [|discriminate]. simpl in *.
  destruct (X eq_refl) as [[D J] | (j & z & top & text & t & A & B & C & D & F)].
  - left. destruct (J I). auto.
  - right. exists t. split; [exact D|]. exists j, z, top, text. auto.
Qed.
Print Assumptions C79_present.

(** two names, of which one is there already *)
Definition zip1 : archive := mkZ (z_members zip0) (fun _ => Ok (py "2021 v9")).
Definition net1 : nat -> nat -> answer := fun _ _ => AnArchive zip1.
Definition names1 : list pystr := [py "main"; py "v9"].
Lemma zip1_plain : forall n, n <> top0 -> plain_archive zip1 top0 n.
Proof.
  intros n N. constructor.
  - exists (mkM (py "definitions-3.3/") []). eexists. split; [reflexivity | vm_compute; reflexivity].
  - repeat split; discriminate.
  - exact N.
  - intros m I D. exact (pa_inside _ _ _ zip0_plain m I D).
Qed.
Lemma ordinary1 : forall n, n <> top0 -> ordinary_downloads names1 net1 n.
Proof.
  intros n N i nm H. right. exists zip1, top0. split; [reflexivity|]. split; [|exact N]. apply zip1_plain.
  destruct i as [|[|[|i]]]; simpl in H; try discriminate; injection H as <-; discriminate.
Qed.
Example C79_example : In (py "main") (map fst (usr_dir disk2)) /\ ordinary_downloads names1 net1 (py "main") /\ ordinary_downloads names1 net1 (py "v9")
  /\ snd (snd (func_install rj2 disk2 None false net1 names1)) = Ok tt
  /\ map fst (snd (fst (func_install rj2 disk2 None false net1 names1))) = [py "main"; py "v9"]
  /\ dget (py "main") (snd (fst (func_install rj2 disk2 None false net1 names1))) = Some (set0 "2020 main").
Proof.
  split; [vm_compute; auto|]. split; [apply ordinary1; discriminate|]. split; [apply ordinary1; discriminate|].
  split; [vm_compute; reflexivity|]. split; vm_compute; reflexivity.
Qed.

(** ** C84 *)
(** punx install names a default that is not the newest file set any more *)
Definition after1 : disk := mkDisk (src_path disk2) (src_dir disk2) (usr_path disk2) (snd (fst (func_install rj2 disk2 None false net1 names1))).
Theorem C84_refuted : exists fs rows, newest (sets_of_disk after1) (py "v9") fs /\ i_ref (fs_info fs) = Some (py "v9")
  /\ snd (func_install rj2 disk2 None false net1 names1) = ([Table rows; Default (Some (py "main"))], Ok tt).
Proof.
  exists (fs2 "/home/u/v9" "user" "2021" "v9"). eexists. split; [|split; [reflexivity | vm_compute; reflexivity]].
  exists [(py "v3", fs2 "/x/punx/cache/v3" "source" "2017" "v3"); (py "v2018", fs2 "/x/punx/cache/v2018" "source" "2018" "v2018"); (py "main", fs2 "/home/u/main" "user" "2020" "main")], [].
  split; [vm_compute; reflexivity|]. split; [|intros m f []].
  intros m f [H | [H | [H | []]]]; injection H as _ <-; vm_compute; reflexivity.
Qed.
Print Assumptions C84_refuted.

(** the table is that of the caches as they are then; the default is the newest before *)
Theorem C84_partial : forall rj k sets n fs update names net ev, usable rj k sets -> newest sets n fs ->
  snd (func_install rj k None update net names) = (ev, Ok tt) ->
  exists rows, ev = [Table rows; Default (i_ref (fs_info fs))]
    /\ table_of_caches rj (mkDisk (src_path k) (src_dir k) (usr_path k) (snd (fst (func_install rj k None update net names)))) = Ok rows.
Proof.
  intros rj k sets n fs update names net ev U N H. unfold func_install in *. cbn [cache_manager] in *.
  destruct (usable_init _ _ _ U) as (n' & fs' & N' & I). rewrite I in *. pose proof (newest_unique _ _ _ _ _ N N') as Q. injection Q as <- <-.
  destruct (install_all update net 0 names (usr_dir k)) as [[l e] [[]|x]]; [|discriminate]. cbn [fst snd] in *. unfold show_caches in H.
  destruct (table_of_caches rj _) as [rows|x]; [|discriminate]. cbn [default_ref cm_default] in H. injection H as <-. exists rows. auto.
Qed.
Print Assumptions C84_partial.

Example C84_example : exists ev, snd (func_install rj2 disk2 None false net1 names1) = (ev, Ok tt).
Proof. eexists. vm_compute. reflexivity. Qed.
