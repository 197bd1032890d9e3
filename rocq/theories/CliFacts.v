(** * Facts about the command line *)

From Coq Require Import List NArith ZArith Bool String Lia Permutation.
From Verif Require Import PyBase PyFacts H5 Findings Report Nxdl Core Validate H5Tree Cache Install Cli.
From Verif Require Import Spec_Report Spec_FileSets Spec_Install Spec_Cli ReportFacts CacheSetFacts InstallFacts InstallEnd AddrRecord.
Import ListNotations.
Open Scope string_scope.
Open Scope list_scope.

(** ** Subcommands *)
Lemma in_choices : forall w l, existsb (str_eqb w) l = true <-> In w l.
Proof. exact existsb_In. Qed.

Lemma not_in_choices : forall w l, existsb (str_eqb w) l = false <-> ~ In w l.
Proof. intros w l. rewrite <- in_choices. destruct (existsb (str_eqb w) l); intuition discriminate. Qed.

Lemma prefix_spec : forall c w, startswith c w = true <-> prefix_of w c.
Proof. intros c w. rewrite startswith_spec. reflexivity. Qed.

Lemma one_match : forall (P : pystr -> bool) l c, NoDup l -> (filter P l = [c] <-> In c l /\ P c = true /\ forall c', In c' l -> P c' = true -> c' = c).
Proof.
  intros P l c ND. split.
  - intros E. assert (I : In c (filter P l)) by (rewrite E; simpl; auto). apply filter_In in I as [I1 I2].
    split; [auto|split; [auto|]]. intros c' I' P'. assert (X : In c' (filter P l)) by (apply filter_In; auto). rewrite E in X. destruct X as [X|[]]; auto.
  - intros (I & Pc & U). induction l as [|x l IH]; [destruct I|]. inversion ND; subst. simpl. destruct (P x) eqn:E.
    + assert (x = c) by (apply U; simpl; auto). subst x. f_equal.
      assert (Z : forall y, In y l -> P y = false).
      { intros y Hy. destruct (P y) eqn:Ey; auto. assert (y = c) by (apply U; simpl; auto). subst y. contradiction. }
      clear -Z. induction l as [|y l IH]; [reflexivity|]. simpl. rewrite (Z y); [|simpl; auto]. apply IH. intros z Hz. apply Z. simpl; auto.
    + destruct I as [-> | I]; [congruence|]. apply IH; auto. intros c' I' P'. apply U; simpl; auto.
Qed.

Lemma subcommand_spec : forall choices w, NoDup choices ->
  (forall c, parse_subcommand choices w = Ok c <-> stands_for choices w c)
  /\ ((forall c, ~ stands_for choices w c) -> parse_subcommand choices w = Exn (SystemExit 2)).
Proof.
  intros choices w ND.
  assert (A : (exists c, parse_subcommand choices w = Ok c /\ stands_for choices w c)
              \/ (parse_subcommand choices w = Exn (SystemExit 2) /\ forall c, ~ stands_for choices w c)).
  { unfold parse_subcommand. destruct choices as [|x0 l0] eqn:EC.
    { simpl. right. split; auto. intros c [[] _]. }
    rewrite <- EC in *. assert (L : Nat.ltb 0 (List.length choices) = true) by (subst; reflexivity). rewrite L. cbn [andb]. clear L.
    destruct (existsb (str_eqb w) choices) eqn:E; cbn [negb].
    { left. exists w. split; auto. apply in_choices in E. split; auto. }
    apply not_in_choices in E. destruct (Nat.ltb (List.length w) 2) eqn:E2.
    { right. split; auto. apply PeanoNat.Nat.ltb_lt in E2. intros c [I [-> | (_ & H & _)]]; [contradiction | lia]. }
    apply PeanoNat.Nat.ltb_ge in E2.
    assert (R : forall c, filter (fun x => startswith x w) choices = [c] <-> stands_for choices w c).
    { intros c. rewrite one_match by assumption. split.
      - intros (I & P & U). split; auto. right. split; auto. split; auto. split; [apply prefix_spec; auto|].
        intros c' I' P'. apply U; auto. apply prefix_spec; auto.
      - intros [I [-> | (_ & _ & P & U)]]; [contradiction|]. split; auto. split; [apply prefix_spec; auto|].
        intros c' I' P'. apply U; auto. apply prefix_spec; auto. }
    destruct (filter (fun x => startswith x w) choices) as [|c [|c2 l]] eqn:F.
    - right. split; auto. intros c H. apply R in H. discriminate.
    - left. exists c. assert (S : stands_for choices w c) by (apply R; reflexivity). split; auto.
      destruct S as [I _]. apply in_choices in I. rewrite I. reflexivity.
    - right. split; auto. intros c' H. apply R in H. discriminate. }
  assert (U : forall c c', stands_for choices w c -> stands_for choices w c' -> c = c').
  { intros c c' [I [-> | (N & _ & P & U)]] [I' [E' | (N' & _ & P' & U')]]; subst; auto; try contradiction. }
  split.
  - intros c. destruct A as [(c' & E & S) | (E & N)]; rewrite E; split; intros H.
    + injection H as <-. auto.
    + f_equal. eapply U; eauto.
    + discriminate.
    + destruct (N _ H).
  - intros N. destruct A as [(c' & E & S) | (E & _)]; auto. destruct (N _ S).
Qed.

(** ** The report option *)
Lemma upper_spec : forall upc s, uppercase upc s (upper upc s).
Proof.
  intros upc s. unfold upper. induction s as [|c s IH]; [constructor|]. simpl. unfold upper_char.
  destruct (c <? 128)%N eqn:E1; [|apply N.ltb_ge in E1; constructor; auto].
  apply N.ltb_lt in E1. destruct ((97 <=? c)%N && (c <=? 122)%N) eqn:E2.
  - apply andb_true_iff in E2 as [A B]. apply N.leb_le in A, B. constructor; auto.
  - apply andb_false_iff in E2. apply uc_ascii; auto. destruct E2 as [A | A]; apply N.leb_gt in A; lia.
Qed.

Lemma upper_unique : forall upc s t, uppercase upc s t -> t = upper upc s.
Proof.
  intros upc s t H. unfold upper. induction H; auto; simpl; unfold upper_char; subst; fold (upper upc s) in *.
  - replace (c <? 128)%N with true by (symmetry; apply N.ltb_lt; lia). replace (97 <=? c)%N with true by (symmetry; apply N.leb_le; lia).
    replace (c <=? 122)%N with true by (symmetry; apply N.leb_le; lia). reflexivity.
  - replace (c <? 128)%N with true by (symmetry; apply N.ltb_lt; lia). destruct H as [H | H].
    + replace (97 <=? c)%N with false by (symmetry; apply N.leb_gt; lia). reflexivity.
    + replace (c <=? 122)%N with false by (symmetry; apply N.leb_gt; lia). rewrite andb_false_r. reflexivity.
  - replace (c <? 128)%N with false by (symmetry; apply N.ltb_ge; lia). reflexivity.
Qed.

Lemma status_name_spec : forall c, is_status_name c = true <-> exists s, c = name_of s.
Proof.
  intros c. unfold is_status_name. rewrite in_choices, in_map_iff. split.
  - intros (s & <- & _). exists s. apply status_key_name.
  - intros (s & ->). exists s. split; [apply status_key_name | destruct s; simpl; auto 10].
Qed.

Lemma upper_no_comma : forall upc s, no_comma upc -> ~ In 44%N s -> ~ In 44%N (upper upc s).
Proof.
  intros upc s NC N. unfold upper. intros H. apply in_flat_map in H as (c & Hc & H). unfold upper_char in H.
  destruct (c <? 128)%N eqn:E1; [|eapply NC; eauto].
  destruct H as [H | []]. apply N.ltb_lt in E1. destruct ((97 <=? c)%N && (c <=? 122)%N) eqn:E2.
  - apply andb_true_iff in E2 as [A B]. apply N.leb_le in A, B. assert (c = 76)%N by lia. lia.
  - subst c. contradiction.
Qed.

Lemma upper_app : forall upc a b, upper upc (a ++ b) = upper upc a ++ upper upc b.
Proof. intros. unfold upper. apply flat_map_app. Qed.

Lemma upper_join : forall upc ws, upper upc (join (py ",") ws) = join (py ",") (map (upper upc) ws).
Proof.
  intros upc ws. induction ws as [|a [|b l] IH]; [reflexivity | reflexivity|].
  change (join (py ",") (a :: b :: l)) with (a ++ py "," ++ join (py ",") (b :: l)).
  change (join (py ",") (map (upper upc) (a :: b :: l))) with (upper upc a ++ py "," ++ join (py ",") (map (upper upc) (b :: l))).
  rewrite !upper_app, IH. reflexivity.
Qed.

Lemma split_join : forall c ws, ws <> [] -> (forall w, In w ws -> ~ In c w) -> split c (join [c] ws) = ws.
Proof.
  intros c ws. induction ws as [|a l IH]; intros N H; [congruence|]. destruct l as [|b l].
  - simpl. apply split_no_sep. apply H. simpl; auto.
  - change (join [c] (a :: b :: l)) with (a ++ c :: join [c] (b :: l)). rewrite split_app_sep by (apply H; simpl; auto).
    f_equal. apply IH; [discriminate|]. intros w Hw. apply H. simpl in *. auto.
Qed.

Lemma report_words : forall upc s ws, no_comma upc -> words_of s ws -> split ch_comma (upper upc s) = map (upper upc) ws.
Proof.
  intros upc s ws NC (-> & NE & H). rewrite upper_join. apply split_join.
  - destruct ws; [congruence | discriminate].
  - intros w Hw. apply in_map_iff in Hw as (x & <- & Hx). apply upper_no_comma; auto.
Qed.

Lemma words_exist : forall s, words_of s (split ch_comma s).
Proof.
  intros s. split; [|split].
  - symmetry. exact (join_split 44%N s).
  - apply split_nonnil.
  - intros w. apply split_parts_no_sep.
Qed.

Lemma named_status : forall upc w, is_status_name (upper upc w) = true <-> exists s, names_status upc w s.
Proof.
  intros upc w. rewrite status_name_spec. unfold names_status. split; intros (s & H); exists s.
  - rewrite <- H. apply upper_spec.
  - symmetry. apply upper_unique. exact H.
Qed.

(** the words that are no status *)
Lemma no_trouble : forall upc ws, filter (fun c => negb (is_status_name c)) (map (upper upc) ws) = []
  <-> Forall (fun w => exists s, names_status upc w s) ws.
Proof.
  intros upc ws. induction ws as [|w ws IH]; [simpl; split; auto|]. cbn [map filter]. destruct (is_status_name (upper upc w)) eqn:E; cbn [negb].
  - rewrite IH. split; intros H; [constructor; auto; apply named_status; auto | inversion H; auto].
  - split; intros H; [discriminate|]. inversion H; subst. apply named_status in H2. congruence.
Qed.

(** ** punx validate *)
Lemma not_nxdl : forall f, endswith f (py ".nxdl.xml") = true <-> is_nxdl f.
Proof. intros f. rewrite endswith_spec. reflexivity. Qed.

Lemma usable_init : forall rj k sets, usable rj k sets -> exists n fs,
  newest sets n fs /\ cm_init rj k = Ok (mkCM sets (Some fs)).
Proof.
  intros rj k sets [A NE C S]. unfold cm_init. rewrite A. cbn [rbind].
  destruct (select_cases sets None (all_sets_NoDup _ _ _ A)) as [(_ & fs & E & H) | [[E _] | [E _]]]; [|contradiction|contradiction].
  destruct H as [(r & X & _) | (_ & n & N)]; [discriminate|]. exists n, fs. split; auto.
  destruct E as [[_ E] | [E _]]; [rewrite E; reflexivity|]. destruct E. apply (S n).
  destruct N as (b & a & -> & _). apply in_app_iff. simpl. auto.
Qed.

(** what happens once the file set is loaded *)
Definition after_load (upc : N -> list N) (w : world) (infile name report : pystr) (fs : fileset) (u : setup) (cl : classes) : list event * res unit :=
  let words := split ch_comma (upper upc report) in
  if Nat.ltb 0 (List.length (filter (fun c => negb (is_status_name c)) words)) then ([], Exn (SystemExit 1))
  else
    let '(v, r) := validate u w (new_validator cl) infile in
    match r with
    | Exn FileNotFound | Exn HDF5_Open_Error => ([Validating fs infile], Exn (SystemExit 1))
    | Exn e => ([Validating fs infile], Exn e)
    | Ok _ => match print_report (v_fname v) (filter is_status_name words) (st_find (v_st v)) with
              | Exn e => ([Validating fs infile], Exn e)
              | Ok rep => ([Validating fs infile; Reported rep; Version name], Ok tt)
              end
    end.

Definition named_run (load : fileset -> res (setup * classes)) upc w infile (sets : dict fileset) (name : option pystr) report : list event * res unit :=
  match name with
  | None => ([], Exn (SystemExit 1))
  | Some n => match dget n sets with
              | None => ([], Exn (SystemExit 1))
              | Some fs => match load fs with
                           | Exn e => ([], Exn e)
                           | Ok (u, cl) => after_load upc w infile n report fs u cl
                           end
              end
  end.

Lemma dmem_dget : forall {V} n (d : dict V), dmem n d = match dget n d with Some _ => true | None => false end.
Proof.
  intros V n d. destruct (dget n d) eqn:E.
  - apply dget_In in E. apply dmem_In. apply in_map_iff. exists (n, v). auto.
  - apply dget_None in E. destruct (dmem n d) eqn:M; auto. apply dmem_In in M. contradiction.
Qed.

Lemma func_validate_run : forall rj load upc k w c a sets, usable rj k sets -> ~ is_nxdl (va_infile a) ->
  snd (func_validate rj load upc k w (Some c) a) = named_run load upc w (va_infile a) sets (va_set a) (va_report a).
Proof.
  intros rj load upc k w c a sets U NX. unfold func_validate. cbn [cache_manager].
  destruct (endswith (va_infile a) (py ".nxdl.xml")) eqn:E; [apply not_nxdl in E; contradiction|].
  pose proof (us_sets _ _ _ U) as A. rewrite A. unfold named_run. destruct (va_set a) as [n|]; [|reflexivity].
  rewrite dmem_dget. destruct (dget n sets) as [fs|] eqn:G; [|reflexivity]. cbn [negb].
  assert (R : refresh rj k (Some c) = Some (mkCM sets (cm_default c))).
  { unfold refresh. cbn [cache_manager]. unfold all_file_sets in A. unfold rbind in A.
    destruct (cache_sets rj (src_path k) [] (src_dir k)) as [x|]; [|discriminate]. destruct (cache_sets rj (usr_path k) [] (usr_dir k)) as [y|]; [|discriminate].
    injection A as <-. reflexivity. }
  rewrite R. unfold used_file_set. cbn [cache_manager cm_sets].
  assert (S : choose sets (Some n) = Ok fs).
  { apply choose_picked; [eapply all_sets_NoDup; eauto|]. split; [apply (us_dates _ _ _ U) | left; exact G]. }
  assert (T : select sets (Some n) = Ok fs).
  { unfold select. rewrite S. cbn [rbind]. pose proof (has_text_spec fs) as T. destruct (has_text fs); [reflexivity|].
    destruct T. apply (us_shas _ _ _ U n). apply dget_In. exact G. }
  rewrite S, T. destruct (load fs) as [[u cl]|e]; [|reflexivity]. unfold after_load.
  destruct (Nat.ltb 0 _); [reflexivity|].
  destruct (validate u w (new_validator cl) (va_infile a)) as [v [[]|e]]; [|destruct e; reflexivity].
  destruct (print_report _ _ _); reflexivity.
Qed.

Lemma punx_validate_run : forall rj load upc k w infile name report sets n0 fs0, usable rj k sets -> ~ is_nxdl infile -> newest sets n0 fs0 ->
  punx_validate rj load upc k w infile name report
  = named_run load upc w infile sets (match name with Some n => Some n | None => i_ref (fs_info fs0) end)
      (match report with Some r => r | None => all_statuses end).
Proof.
  intros rj load upc k w infile name report sets n0 fs0 U NX N. unfold punx_validate. cbn [cache_manager].
  destruct (usable_init _ _ _ U) as (n & fs & N' & E). rewrite E. pose proof (newest_unique _ _ _ _ _ N N') as X. injection X as <- <-.
  cbn [default_ref cm_default]. rewrite (func_validate_run rj load upc k w _ _ sets U); [reflexivity | exact NX].
Qed.

Lemma all_statuses_ok : forall upc s, exists ws, words_of all_statuses ws /\ Forall (fun w => exists s', names_status upc w s') ws
  /\ exists w, In w ws /\ names_status upc w s.
Proof.
  intros upc s. exists (sorted_strs (map status_key VALID_STATUS_LIST)).
  assert (K : forall st, names_status upc (name_of st) st).
  { intros st. unfold names_status. replace (name_of st) with (upper upc (name_of st)) at 2 by (destruct st; reflexivity). apply upper_spec. }
  assert (E : sorted_strs (map status_key VALID_STATUS_LIST) = [name_of COMMENT; name_of ERROR; name_of NOTE; name_of OK; name_of OPTIONAL; name_of TODO; name_of UNUSED; name_of WARN]) by (vm_compute; reflexivity).
  rewrite E. split; [|split].
  - split; [|split; [discriminate|]].
    + unfold all_statuses. rewrite E. reflexivity.
    + intros w Hw. simpl in Hw. destruct Hw as [<-|[<-|[<-|[<-|[<-|[<-|[<-|[<-|[]]]]]]]]]; vm_compute; intuition discriminate.
  - repeat constructor; eexists; apply K.
  - exists (name_of s). split; [destruct s; simpl; auto 10 | apply K].
Qed.

(** the run once the report option is accepted *)
Lemma selected_words : forall upc ws, Forall (fun x => exists s, names_status upc x s) ws ->
  filter is_status_name (map (upper upc) ws) = map (upper upc) ws.
Proof.
  intros upc ws F. induction F as [|x l H F IH]; [reflexivity|]. cbn [map filter]. apply named_status in H. rewrite H. f_equal. exact IH.
Qed.

Lemma accepted_run : forall upc w infile name report fs u cl ws, no_comma upc -> words_of report ws ->
  Forall (fun x => exists s, names_status upc x s) ws ->
  after_load upc w infile name report fs u cl =
    let '(v, r) := validate u w (new_validator cl) infile in
    match r with
    | Exn FileNotFound | Exn HDF5_Open_Error => ([Validating fs infile], Exn (SystemExit 1))
    | Exn e => ([Validating fs infile], Exn e)
    | Ok _ => match print_report (v_fname v) (map (upper upc) ws) (st_find (v_st v)) with
              | Exn e => ([Validating fs infile], Exn e)
              | Ok rep => ([Validating fs infile; Reported rep; Version name], Ok tt)
              end
    end.
Proof.
  intros upc w infile name report fs u cl ws NC W F. unfold after_load. rewrite (report_words upc report ws NC W).
  rewrite (proj2 (no_trouble upc ws) F). cbn [List.length Nat.ltb Nat.leb]. rewrite (selected_words upc ws F). reflexivity.
Qed.

Lemma rejected_run : forall upc w infile name report fs u cl ws, no_comma upc -> words_of report ws ->
  ~ Forall (fun x => exists s, names_status upc x s) ws -> after_load upc w infile name report fs u cl = ([], Exn (SystemExit 1)).
Proof.
  intros upc w infile name report fs u cl ws NC W F. unfold after_load. rewrite (report_words upc report ws NC W).
  destruct (filter (fun c => negb (is_status_name c)) (map (upper upc) ws)) eqn:E; [|reflexivity]. apply no_trouble in E. contradiction.
Qed.

Lemma validate_fname : forall u w v f v', validate u w v f = (v', Ok tt) -> v_fname v' = Some f /\ is_hdf5 w f.
Proof.
  intros u w v f v' H. unfold validate in H. destruct (dget f w) as [[h|]|] eqn:E; [|inversion H|inversion H].
  destruct (validate_open _ _) as [s r]. injection H as <- _. split; [reflexivity | exists h; exact E].
Qed.

Lemma report_of_run : forall u w v f v' names, validate u w v f = (v', Ok tt) ->
  exists rep, print_report (v_fname v') names (st_find (v_st v')) = Ok rep /\ r_fname rep = f
    /\ Permutation (r_rows rep) (filter (selected names) (st_find (v_st v'))) /\ r_total rep = List.length (st_find (v_st v')).
Proof.
  intros u w v f v' names H. destruct (validate_fname _ _ _ _ _ H) as [E [h D]]. rewrite E.
  pose proof (findings_have_addresses _ _ _ _ _ _ _ D H) as A.
  assert (A' : Forall has_address (st_find (v_st v'))).
  { eapply Forall_impl; [|exact A]. intros g Hg. destruct (f_addr g) eqn:X; [eexists; eauto | congruence]. }
  destruct (print_report_spec f names _ A') as (rows & R1 & R2). destruct (report_rows_spec names _ A') as (rows' & Q1 & Q2 & _).
  rewrite R1 in Q1. injection Q1 as <-. eexists. split; [exact R2|]. simpl. auto.
Qed.

Lemma reports_chosen : forall upc ws names f l rows, names = map (upper upc) ws -> ws <> [] -> Permutation rows (filter (selected names) l) ->
  (In f rows <-> In f l /\ exists x, In x ws /\ names_status upc x (f_status f)).
Proof.
  intros upc ws names f l rows -> NE P. split.
  - intros H. pose proof (Permutation_in _ P H) as X. apply filter_In in X as [X Y]. split; auto.
    unfold selected in Y. destruct (map (upper upc) ws) eqn:E; [destruct ws; [congruence | discriminate]|]. rewrite <- E in Y.
    destruct (in_dec _ _ _) as [I|]; [|discriminate]. apply in_map_iff in I as (x & E' & I). exists x. split; auto. unfold names_status. rewrite <- E'. apply upper_spec.
  - intros (X & x & I & S). apply (Permutation_in _ (Permutation_sym P)). apply filter_In. split; auto.
    unfold selected. destruct (map (upper upc) ws) eqn:E; [destruct ws; [congruence | discriminate]|]. rewrite <- E.
    destruct (in_dec _ _ _) as [|N]; auto. destruct N. apply in_map_iff. exists x. split; auto. symmetry. apply upper_unique. exact S.
Qed.

(** ** punx install *)
Lemma visited_bind : forall {A B} (m : W A) (f : A -> W B) e s, visited e (wbind m f e) s ->
  visited e (m e) s \/ exists l e1 a, m e = (l, e1, Ok a) /\ visited e1 (f a e1) s.
Proof.
  intros A B m f e s H. unfold wbind in H. destruct (m e) as [[l e1] [a|x]] eqn:E.
  - destruct (f a e1) as [[l2 e2] r2] eqn:F. unfold visited in *. simpl in H. destruct H as [-> | [H | ->]].
    + left. auto.
    + apply in_app_or in H as [H | H]; [left; simpl; auto|]. right. exists l, e1, a. rewrite F. simpl. auto.
    + right. exists l, e1, a. rewrite F. simpl. auto.
  - left. exact H.
Qed.

(** a single download, when [n] is not the top directory of its archive *)
Lemma one_download : forall name update net n e s,
  ((forall z, net 0 <> AnArchive z) \/ exists z top, net 0 = AnArchive z /\ plain_archive z top name /\ n <> top) ->
  visited e (snd (download_file_set name update net e)) s -> n <> name \/ (update = false /\ dget n e <> None) -> dget n s = dget n e.
Proof.
  intros name update net n e s H V C.
  assert (X : n <> name -> dget n s = dget n e).
  { intros N. destruct H as [H | (z & top & E & P & T)].
    - unfold download_file_set, visited in V. destruct (dmem name e && negb update); [simpl in V; intuition congruence|].
      unfold download_archive, GITHUB_RETRY_COUNT in V. cbn [try_rounds] in V. destruct (net 0) as [z| |x]; [destruct (H z eq_refl)| |]; simpl in V; intuition congruence.
    - eapply (phase_frame z top name e P); eauto. eapply visited_phase; eauto. }
  destruct C as [N | [-> N]]; [auto|]. destruct (str_eqb_spec n name) as [->|]; [|auto].
  unfold download_file_set, visited in V. rewrite dmem_dget in V. destruct (dget name e) eqn:G; [|congruence]. simpl in V. intuition congruence.
Qed.

Lemma install_keeps : forall n names net e s i, (forall j name, nth_error names j = Some name ->
    (forall z, net (i + j) 0 <> AnArchive z) \/ exists z top, net (i + j) 0 = AnArchive z /\ plain_archive z top name /\ n <> top) ->
  dget n e <> None -> visited e (install_all false net i names e) s -> dget n s = dget n e.
Proof.
  intros n names net. induction names as [|name names IH]; intros e s i H G V.
  - simpl in V. unfold visited in V. simpl in V. intuition congruence.
  - cbn [install_all] in V. apply visited_bind in V as [V | (l & e1 & [] & E & V)].
    + eapply one_download; eauto. specialize (H 0 name eq_refl). rewrite PeanoNat.Nat.add_0_r in H. exact H.
    + assert (G1 : dget n e1 = dget n e).
      { eapply (one_download name false (net i)); eauto.
        - specialize (H 0 name eq_refl). rewrite PeanoNat.Nat.add_0_r in H. exact H.
        - rewrite E. unfold visited. simpl. auto. }
      rewrite <- G1. eapply (IH e1 s (S i)); eauto; [|congruence].
      intros j nm Hj. specialize (H (S j) nm Hj). rewrite PeanoNat.Nat.add_succ_r in H. exact H.
Qed.

Lemma install_present : forall n update names net i e, (forall j name, nth_error names j = Some name ->
    (forall z, net (i + j) 0 <> AnArchive z) \/ exists z top, net (i + j) 0 = AnArchive z /\ plain_archive z top name /\ n <> top) ->
  snd (install_all update net i names e) = Ok tt ->
  let e' := snd (fst (install_all update net i names e)) in
  (dget n e' = dget n e /\ (In n names -> update = false /\ dget n e <> None))
  \/ exists j z top text t, nth_error names j = Some n /\ net (i + j) 0 = AnArchive z /\ z_info z n = Ok text /\ dget n e' = Some t /\ complete z top text t.
Proof.
  intros n update names net. induction names as [|name names IH]; intros i e H R; cbn [install_all] in *.
  - left. simpl. split; auto. intros [].
  - cbv zeta. unfold wbind in *. destruct (snd (download_file_set name update (net i) e)) as [[l e1] [[]|x]] eqn:E; [|discriminate].
    destruct (install_all update net (S i) names e1) as [[l2 e2] r2] eqn:E2. simpl in R. subst r2. cbn [fst snd].
    assert (H0 := H 0 name eq_refl). rewrite PeanoNat.Nat.add_0_r in H0.
    assert (V : visited e (snd (download_file_set name update (net i) e)) e1) by (rewrite E; unfold visited; simpl; auto).
    specialize (IH (S i) e1). rewrite E2 in IH. cbn [fst snd] in IH.
    assert (H' : forall j nm, nth_error names j = Some nm ->
      (forall z, net (S i + j) 0 <> AnArchive z) \/ exists z top, net (S i + j) 0 = AnArchive z /\ plain_archive z top nm /\ n <> top).
    { intros j nm Hj. specialize (H (S j) nm Hj). rewrite PeanoNat.Nat.add_succ_r in H. exact H. }
    destruct (IH H' eq_refl) as [[D I] | (j & z & top & text & t & A & B & C & D & F)].
    + destruct (str_eqb_spec n name) as [->|N].
      * destruct H0 as [H0 | (z & top & Z & P & T)].
        -- assert (S : dmem name e && negb update = true /\ e1 = e).
           { unfold download_file_set in E. destruct (dmem name e && negb update); [injection E as _ <-; auto|].
             unfold download_archive, GITHUB_RETRY_COUNT in E. cbn [try_rounds] in E. destruct (net i 0) as [z| |x]; [destruct (H0 z eq_refl)| |]; discriminate. }
           destruct S as [S ->]. apply andb_true_iff in S as [S1 S2]. left. split; auto. intros _. apply negb_true_iff in S2. split; auto.
           rewrite dmem_dget in S1. destruct (dget name e); congruence.
        -- destruct (end_installed z top name e P update (net i) Z) as [[M U] | I'].
           ++ rewrite E. reflexivity.
           ++ left. subst update. assert (e1 = e). { unfold download_file_set in E. rewrite M in E. simpl in E. congruence. }
              subst e1. split; auto. intros _. split; auto. rewrite dmem_dget in M. destruct (dget name e); congruence.
           ++ right. rewrite E in I'. cbn [fst snd] in I'. destruct (installed_complete z top name e P _ I') as (text & t & A & B & C & _).
              exists 0, z, top, text, t. rewrite PeanoNat.Nat.add_0_r. rewrite D. auto.
      * left. rewrite D. assert (G : dget n e1 = dget n e) by (eapply (one_download name update (net i)); eauto).
        split; auto. intros [X | X]; [congruence|]. rewrite <- G. auto.
    + right. exists (S j), z, top, text, t. rewrite PeanoNat.Nat.add_succ_r. auto.
Qed.
