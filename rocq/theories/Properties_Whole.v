(** * Properties of the program with the files of its caches *)

From Coq Require Import List NArith ZArith Bool String Lia Permutation.
From Verif Require Import PyBase PyFacts H5 Findings Report Nxdl NxdlLoad SchemaMgr NxdlSchema Core Validate Cache Install InfoFile Session Cli Args Main Whole
  Spec_Install Spec_Nxdl Spec_Info Spec_Run Spec_Catalog Spec_Groups Spec_Cli Spec_Args Spec_Session Spec_FileSets Spec_Whole
  CacheSetFacts InstallFacts InstallEnd CliFacts WholeFacts Samples WholeSamples.
From Verif Require Properties_Info Properties_Main Properties_Cli Properties_Session.
Import ListNotations.
Open Scope string_scope.
Open Scope list_scope.

(** ** C115 *)
Lemma one_name : forall items n, said install_name items = [n] -> names_together items.
Proof.
  induction items as [|i items IH]; intros n H; [discriminate|]. destruct i as [m| |]; cbn in H.
  - injection H as -> H. exists [], [n], items. split; [reflexivity|]. split; [intros ? []|].
    intros m I. apply in_split in I as (a & b & ->). unfold said in H. rewrite flat_map_app in H. apply app_eq_nil in H as [_ H]. discriminate.
  - destruct (IH n H) as (a & names & c & -> & A & C). exists (IUpdate :: a), names, c. split; [reflexivity|]. split; auto. intros m [X | X]; [discriminate | eapply A; eauto].
  - destruct (IH n H) as (a & names & c & -> & A & C). exists (IUnknown :: a), names, c. split; [reflexivity|]. split; auto. intros m [X | X]; [discriminate | eapply A; eauto].
Qed.

Section Run.
  Variables (L : lxml) (lim : limits) (x : outside) (k : disk) (w : world) (name top : pystr) (ms : list Install.member) (dates : pystr -> stamp) (comment now : pystr)
    (update : bool).
  Let z := github_archive ms dates comment now.
  Let r := func_install read_json k None update (x_net x) [name].
  Hypothesis G : good_archive k name top ms dates comment now.
  Hypothesis A0 : x_net x 0 0 = AnArchive z.
  Hypothesis DN : distinct_names k.
  Hypothesis U : ~ In name (map fst (usr_dir k)) \/ update = true.
  Hypothesis R : snd (snd r) = Ok tt.
  Let k' := afterwards k r.

  Lemma name_offered : forall sets', all_file_sets read_json k' = Ok sets' ->
    exists fs sha dt date, dget name sets' = Some fs /\ fs_path fs = usr_path k ++ py "/" ++ name
      /\ fs_info fs = mkI (Some name) (Some sha) (Some (py "https://github.com/nexusformat/definitions/archive/" ++ name ++ py ".zip")) (Some date)
      /\ latest_date ms dates top dt /\ shows_date dt date.
  Proof.
    intros sets' A. destruct (install_one _ _ _ _ _ R) as (D & E & _).
    destruct (Properties_Info.C112_offered ms dates comment now top name update (x_net x 0) (usr_dir k) (usr_path k) A0 (ga_plain _ _ _ _ _ _ _ G) (proj2 (ga_name _ _ _ _ _ _ _ G))
      (ga_now _ _ _ _ _ _ _ G) D U) as (sha & dt & date & label & _ & Ld & Sd & _ & O).
    rewrite <- E in O. destruct (all_sets_spec _ _ _ A (after_distinct k name top ms dates comment now update (x_net x) G A0 DN U R)) as [_ S].
    eexists. exists sha, dt, date. split; [apply S; left; exact O|]. split; [reflexivity|]. split; [reflexivity|]. auto.
  Qed.

  Lemma k_usable : exists sets', usable read_json k' sets'.
  Proof.
    destruct (install_one _ _ _ _ _ R) as (D & E & _).
    destruct (Properties_Info.C112_offered ms dates comment now top name update (x_net x 0) (usr_dir k) (usr_path k) A0 (ga_plain _ _ _ _ _ _ _ G) (proj2 (ga_name _ _ _ _ _ _ _ G))
      (ga_now _ _ _ _ _ _ _ G) D U) as (sha & dt & date & label & _ & Ld & Sd & _ & O).
    rewrite <- E in O. apply (after_usable k name top ms dates comment now update (x_net x) G A0 DN U R). eauto.
  Qed.

  Lemma set_content : exists es, set_entries k' (usr_path k ++ py "/" ++ name) = Some es
    /\ forall nx ty, ordinary_names (files_of L es (usr_path k ++ py "/" ++ name) nx ty)
      /\ (forall cat cls data root, archive_nxdl z top cat cls data -> lx_nxdl L data = Some root ->
           class_nxdl (files_of L es (usr_path k ++ py "/" ++ name) nx ty) (usr_path k ++ py "/" ++ name) cat cls root)
      /\ (forall cls, no_archive_nxdl z top cls -> no_class_nxdl (files_of L es (usr_path k ++ py "/" ++ name) nx ty) (usr_path k ++ py "/" ++ name) cls).
  Proof.
    destruct (after_files k name top ms dates comment now update (x_net x) G A0 U R) as (es & text & E & Nw & F). exists es.
    destruct (ga_name _ _ _ _ _ _ _ G) as [[N1 N2] _].
    assert (P : open_ended (usr_path k ++ py "/" ++ name)) by (apply open_ended_below; [intros ->; apply N1; left; reflexivity | exact N2]).
    split.
    - unfold set_entries. change (usr_path k') with (usr_path k). rewrite below_one by exact N2. rewrite tget_cons. unfold k', r. rewrite E. reflexivity.
    - intros nx ty. pose proof (ga_tidy _ _ _ _ _ _ _ G) as T. split; [eapply files_ordinary; eauto|].
      split; [intros; eapply installed_class; eauto | intros; eapply installed_no_class; eauto].
  Qed.

  Lemma archive_used : forall file, ~ is_nxdl file -> no_comma (x_upper x) ->
    uses_archive L (x_env x) k w z top name file
      (punx_validate read_json (load_set L (x_env x) lim k') (x_upper x) k' w file (Some name) None).
  Proof.
    intros file NX NC. destruct k_usable as (sets' & U'). destruct (name_offered sets' (us_sets _ _ _ U')) as (fs & sha & dt & date & Gf & Pf & _).
    split.
    - intros fs' f I. destruct (Properties_Cli.C76_named _ _ _ _ _ _ _ _ _ _ _ U' NX I) as [X ->]. split; congruence.
    - intros O. destruct (load_set L (x_env x) lim k' fs) as [[u cl]|e] eqn:Ld.
      2:{ exfalso. destruct (usable_init _ _ _ U') as (n0 & fs0 & Nw & _). rewrite (punx_validate_run _ _ _ _ _ _ _ _ _ _ _ U' NX Nw) in O.
          unfold named_run in O. rewrite Gf, Ld in O. discriminate. }
      destruct (validate u w (new_validator cl) file) as [v [[]|e]] eqn:V.
      2:{ exfalso. destruct (usable_init _ _ _ U') as (n0 & fs0 & Nw & _). rewrite (punx_validate_run _ _ _ _ _ _ _ _ _ _ _ U' NX Nw) in O.
          unfold named_run in O. rewrite Gf, Ld in O. unfold after_load in O. destruct (Nat.ltb 0 _); [discriminate|]. rewrite V in O. destruct e; discriminate. }
      destruct (Properties_Cli.C57_default _ _ _ _ _ _ _ _ _ _ _ _ U' NX NC Gf Ld V) as (rep & P & Q). exists fs, rep, v. rewrite P. split; [reflexivity|]. split; [exact Q|].
      destruct set_content as (es & Se & C). unfold load_set in Ld. rewrite Pf, Se in Ld. unfold load_entries in Ld.
      destruct (schema_file L es (py "nxdl.xsd")) as [nx|]; [|discriminate]. cbn [rbind] in Ld. destruct (schema_file L es (py "nxdlTypes.xsd")) as [ty|]; [|discriminate]. cbn [rbind] in Ld.
      destruct (C nx ty) as (C1 & C2 & C3).
      match type of Ld with snd ?o = _ => destruct o as [g' o'] eqn:Op end. cbn [snd] in Ld. subst o'.
      intros i it h cls Ci Hc. destruct (Properties_Session.C98_unknown _ _ _ _ _ _ _ _ _ _ _ _ _ _ Op C1 V i it h cls Ci Hc) as (st & later & Fi & St).
      assert (In (mkF (it_addr it) (py "known NXDL") st (cls ++ py ": recognized NXDL specification")) (st_find (v_st v))) as If.
      { assert (X : In (mkF (it_addr it) (py "known NXDL") st (cls ++ py ": recognized NXDL specification")) (findings_for v (it_addr it) (py "known NXDL"))) by (rewrite Fi; left; reflexivity).
        apply filter_In in X as [X _]. exact X. }
      split.
      + intros cat data root Ar Lx. pose proof (C2 cat cls data root Ar Lx) as Cn. split.
        * destruct St as [[-> Nc] | [-> _]]; auto. exfalso. destruct Cn as (early & late & Ec & Df & _). apply (Nc cat); [rewrite Ec; apply in_or_app; right; left; reflexivity | exact Df].
        * exact (Properties_Session.C98_group _ _ _ _ _ _ _ _ _ _ _ _ _ _ Op C1 V i it h cls Ci Hc cat root Cn).
      + intros Na. destruct St as [[-> _] | [-> (cat & root & early & late & Ec & Df & _)]]; auto. exfalso.
        apply (C3 cls Na cat); [rewrite Ec; apply in_or_app; right; left; reflexivity | exact Df].
  Qed.
End Run.

Lemma install_line_run : forall L lim x k w word ws items sets name, usable read_json k sets -> stands_for subcommands word (py "install") ->
  line_of (install_words (x_env x)) ws items -> ~ In IUnknown items -> said install_name items = [name] ->
  exists update, (update = true <-> In IUpdate items) /\ punx L lim x k w (word :: ws) = func_install read_json k None update (x_net x) [name].
Proof.
  intros L lim x k w word ws items sets name U St Li NU S. unfold punx.
  match goal with |- context [main ?y k w _] => destruct (Properties_Main.C109_partial y k w word ws items sets U St Li NU (one_name _ _ S)) as (u & B & E) end.
  exists u. split; [exact B|]. rewrite E, S. reflexivity.
Qed.

Lemma validate_line_run : forall L lim x k w word ws items f, stands_for subcommands word (py "validate") -> line_of (validate_words (x_env x)) ws items ->
  ~ In VUnknown items -> said validate_file items = [f] ->
  snd (punx L lim x k w (word :: ws))
  = punx_validate read_json (load_set L (x_env x) lim k) (x_upper x) k w f (last_said validate_set items) (last_said validate_report items).
Proof. intros L lim x k w word ws items f St Li NU S. unfold punx. match goal with |- context [main ?y k w _] => rewrite (Properties_Main.C108_validate y k w word ws items f St Li NU S) end. reflexivity. Qed.

Lemma none_said : forall {A B} (f : A -> option B) l, said f l = [] -> last_said f l = None.
Proof. intros A B f l H. unfold last_said. rewrite H. reflexivity. Qed.

(** After [punx install NAME] (with an archive as GitHub makes them, of a file set that is new or
    updated), [punx validate -f NAME FILE] compares the file with the definitions of the archive. *)
Theorem C115_named : forall L lim x k w sets name top ms dates comment now word ws items word' ws' items' file,
  let z := github_archive ms dates comment now in
  usable read_json k sets -> distinct_names k -> good_archive k name top ms dates comment now -> x_net x 0 0 = AnArchive z ->
  stands_for subcommands word (py "install") -> line_of (install_words (x_env x)) ws items -> ~ In IUnknown items -> said install_name items = [name] ->
  ~ In name (map fst (usr_dir k)) \/ In IUpdate items ->
  let r := punx L lim x k w (word :: ws) in snd (snd r) = Ok tt ->
  stands_for subcommands word' (py "validate") -> line_of (validate_words (x_env x)) ws' items' -> ~ In VUnknown items' -> said validate_file items' = [file] ->
  last_said validate_set items' = Some name -> said validate_report items' = [] -> ~ is_nxdl file -> no_comma (x_upper x) ->
  uses_archive L (x_env x) k w z top name file (snd (punx L lim x (afterwards k r) w (word' :: ws'))).
Proof.
  intros L lim x k w sets name top ms dates comment now word ws items word' ws' items' file z U DN G A0 St Li NU S Up r R St' Li' NU' S' Sn Sr NX NC.
  destruct (install_line_run L lim x k w word ws items sets name U St Li NU S) as (u & B & E). unfold r in *. rewrite E in *.
  rewrite (validate_line_run _ _ _ _ _ _ _ _ _ St' Li' NU' S'), Sn, (none_said _ _ Sr). apply archive_used; auto. destruct Up; auto. right. apply B. auto.
Qed.
Print Assumptions C115_named.

(** If the archive is newer than every other file set, [punx validate FILE] does so, too. *)
Theorem C115_newest : forall L lim x k w sets name top ms dates comment now dt word ws items word' ws' items' file,
  let z := github_archive ms dates comment now in
  usable read_json k sets -> distinct_names k -> good_archive k name top ms dates comment now -> x_net x 0 0 = AnArchive z ->
  stands_for subcommands word (py "install") -> line_of (install_words (x_env x)) ws items -> ~ In IUnknown items -> said install_name items = [name] ->
  ~ In name (map fst (usr_dir k)) \/ In IUpdate items ->
  let r := punx L lim x k w (word :: ws) in snd (snd r) = Ok tt ->
  latest_date ms dates top dt ->
  (forall n fs, In (n, fs) sets -> n <> name -> exists d s, fs_date fs = Some s /\ shows_date d s /\ before d dt) ->
  stands_for subcommands word' (py "validate") -> line_of (validate_words (x_env x)) ws' items' -> ~ In VUnknown items' -> said validate_file items' = [file] ->
  said validate_set items' = [] -> said validate_report items' = [] -> ~ is_nxdl file -> no_comma (x_upper x) ->
  uses_archive L (x_env x) k w z top name file (snd (punx L lim x (afterwards k r) w (word' :: ws'))).
Proof.
  intros L lim x k w sets name top ms dates comment now dt word ws items word' ws' items' file z U DN G A0 St Li NU S Up r R Dt Old St' Li' NU' S' Sn Sr NX NC.
  destruct (install_line_run L lim x k w word ws items sets name U St Li NU S) as (u & B & E). unfold r in *. rewrite E in *.
  assert (Up' : ~ In name (map fst (usr_dir k)) \/ u = true) by (destruct Up; auto; right; apply B; auto).
  rewrite (validate_line_run _ _ _ _ _ _ _ _ _ St' Li' NU' S'), (none_said _ _ Sn), (none_said _ _ Sr).
  destruct (k_usable x k name top ms dates comment now u G A0 DN Up' R) as (sets' & U').
  destruct (name_offered x k name top ms dates comment now u G A0 DN Up' R sets' (us_sets _ _ _ U')) as (fs & sha & dt' & date & Gf & Pf & If & Ld & Sd).
  assert (Same : forall m f, In (m, f) sets' -> m <> name -> In (m, f) sets).
  { intros m f I Nm. apply dget_In. rewrite <- (after_sets k name top ms dates comment now u (x_net x) G A0 DN Up' R sets sets' (us_sets _ _ _ U) (us_sets _ _ _ U') m Nm).
    apply In_dget; auto. eapply all_sets_NoDup. apply (us_sets _ _ _ U'). }
  assert (Nw : newest sets' name fs).
  { apply newest_of; auto; [eapply all_sets_NoDup; apply (us_sets _ _ _ U')|]. intros m f I Nm. destruct (Old m f (Same m f I Nm) Nm) as (d & s & Fd & Ss & Bf).
    unfold the_date, fs_date. rewrite If. cbn [i_last_modified]. unfold fs_date in Fd. rewrite Fd. apply (Properties_Info.C114_order _ _ _ _ Sd Ss).
    destruct Ld as (Ld1 & Ld2 & Ld3), Dt as (Dt1 & Dt2 & Dt3).
    assert (X : ~ before dt' dt).
    { destruct Dt1 as [-> | (m' & I1 & I2 & ->)]; auto. }
    unfold before in *. lia. }
  destruct (Properties_Cli.C77_partial read_json (load_set L (x_env x) lim (afterwards k (func_install read_json k None u (x_net x) [name]))) (x_upper x) _ w file None sets' name fs U' NX Nw) as [-> _].
  { rewrite If. reflexivity. }
  apply archive_used; auto.
Qed.
Print Assumptions C115_newest.

(** ** An installation and a validation *)
Lemma zip2_plain : plain_archive zip2 top2 (py "v2022").
Proof.
  constructor.
  - exists (mkM (py "definitions-2022/") []). eexists. split; [reflexivity | vm_compute; reflexivity].
  - repeat split; discriminate.
  - discriminate.
  - intros m I D. apply extractable_spec in D; [|discriminate]. simpl in I. repeat destruct I as [<- | I]; try contradiction; vm_compute in D; try discriminate D;
      (eexists; split; [apply destination_spec; vm_compute; reflexivity | vm_compute; intuition discriminate]).
Qed.
Lemma zip2_tidy : tidy_archive zip2 top2.
Proof.
  constructor.
  - intros m I D (d & E). apply extractable_spec in D; [|discriminate].
    assert (X : endswith (m_name m) (py "/") = true) by (apply endswith_spec; eauto).
    simpl in I. repeat destruct I as [<- | I]; try contradiction; vm_compute in D, X; discriminate.
  - intros m p base I D P H. apply extractable_spec in D; [|discriminate]. apply destination_spec in P. subst p.
    assert (X : forallb (fun c => implb (endswith c (py ".nxdl.xml")) (negb (existsb (N.eqb 46) (firstn (List.length c - 9) c)))) (safe_parts (m_name m)) = true).
    { simpl in I. repeat destruct I as [<- | I]; try contradiction; vm_compute; reflexivity. }
    rewrite forallb_forall in X. specialize (X _ H).
    assert (Y : endswith (base ++ py ".nxdl.xml") (py ".nxdl.xml") = true) by (apply endswith_spec; eauto). rewrite Y in X. cbn [implb] in X.
    rewrite app_length in X. change (List.length (py ".nxdl.xml")) with 9 in X. rewrite PeanoNat.Nat.add_sub in X.
    rewrite firstn_app, firstn_all, PeanoNat.Nat.sub_diag in X. cbn [firstn] in X. rewrite app_nil_r in X. apply negb_true_iff in X.
    intros Z. assert (existsb (N.eqb 46) base = true) by (apply existsb_exists; exists 46%N; auto). congruence.
Qed.
Lemma good4 : good_archive disk4 (py "v2022") top2 members2 dates2 sha2 now2.
Proof.
  constructor; [exact zip2_plain | exact zip2_tidy | | apply Properties_Info.literal_ordinary; reflexivity | intros []].
  split; [|apply Properties_Info.literal_ordinary; reflexivity]. split; [intros [X | [X | X]]; discriminate | vm_compute; intuition discriminate].
Qed.
Lemma usable4 : usable read_json disk4 sets4.
Proof.
  split; [vm_compute; reflexivity | vm_compute; discriminate| |].
  - right. intros n fs H. vm_compute in H. destruct H as [H | []]; injection H as _ <-; discriminate.
  - intros n fs H. right. vm_compute in H. destruct H as [H | []]; injection H as _ <-; discriminate.
Qed.
Lemma latest4 : latest_date members2 dates2 top2 (mkStamp 2022 3 5 1 7 45).
Proof.
  replace (mkStamp 2022 3 5 1 7 45) with (latest dates2 top2 members2) by (vm_compute; reflexivity). apply InfoFacts.latest_spec. discriminate.
Qed.
Lemma iso4 : shows_date (mkStamp 2017 7 12 10 41 12) (py "2017-07-12 10:41:12").
Proof. apply (InfoFacts.iso_shows (mkStamp 2017 7 12 10 41 12)), InfoFacts.real_spec. reflexivity. Qed.
Lemma install_line4 : forall E, stands_for subcommands (py "install") (py "install") /\ line_of (install_words E) [py "v2022"] [IName (py "v2022")].
Proof.
  intros E. split; [split; [right; right; left; reflexivity | left; reflexivity]|]. exists [[py "v2022"]]. split; [|reflexivity].
  constructor; [|constructor]. constructor. left. apply Properties_Main.plain_by. discriminate.
Qed.
Lemma validate_line4 : forall E, stands_for subcommands (py "validate") (py "validate") /\ line_of (validate_words E) [fn] [VFile fn].
Proof.
  intros E. split; [split; [do 4 right; left; reflexivity | left; reflexivity]|]. exists [[fn]]. split; [|reflexivity].
  constructor; [|constructor]. constructor. left. apply Properties_Main.plain_by. discriminate.
Qed.

(** NXdata has two files in the archive, NXodd none that is a definition file *)
Example C115_case : snd (snd installed4) = Ok tt /\ snd (snd validated4) = Ok tt
  /\ uses_archive lxml1 env0 disk4 world4 zip2 top2 (py "v2022") fn (snd validated4)
  /\ archive_nxdl zip2 top2 (py "contributed_definitions") (py "NXdata") (py "data") /\ no_archive_nxdl zip2 top2 (py "NXodd")
  /\ match fst (snd validated4) with
     | Validating fs _ :: Reported rep :: _ =>
         fs_path fs = py "/home/me/.config/punx/v2022"
         /\ In (mkF (Some (py "/entry/odd")) (py "known NXDL") ERROR (py "NXodd: recognized NXDL specification")) (r_rows rep)
         /\ In (mkF (Some (py "/entry/Data")) (py "NXDL field in data file") OK (py "found: /entry/Data/y")) (r_rows rep)
     | _ => False
     end.
Proof.
  split; [vm_compute; reflexivity|]. split; [vm_compute; reflexivity|]. split.
  - destruct (install_line4 env0) as [I1 I2], (validate_line4 env0) as [V1 V2].
    refine (C115_newest lxml1 limits1 out4 disk4 world4 sets4 (py "v2022") top2 members2 dates2 sha2 now2 (mkStamp 2022 3 5 1 7 45) _ _ [IName (py "v2022")] _ _ [VFile fn] fn
      usable4 _ good4 eq_refl I1 I2 _ eq_refl (or_introl _) _ latest4 _ V1 V2 _ eq_refl eq_refl eq_refl Properties_Cli.not_nxdl0 Properties_Cli.no_comma0).
    + split; vm_compute; repeat constructor; intros [].
    + intros [X | []]. discriminate.
    + intros [].
    + vm_compute. reflexivity.
    + intros n fs H _. vm_compute in H. destruct H as [H | []]. injection H as _ <-. eexists. eexists. split; [reflexivity|]. split; [exact iso4|]. vm_compute. auto.
    + intros [X | []]. discriminate.
  - split; [|split; [|vm_compute; split; [reflexivity|]; split; repeat first [left; reflexivity | right]]].
    + exists [py "base_classes"; py "applications"], []. split; [reflexivity|]. split; [|intros c m rest []].
      exists (firstn 6 members2), (mkM (py "definitions-2022/contributed_definitions/NXdata.nxdl.xml") (py "data")), (skipn 7 members2). split; [reflexivity|].
      split; [apply extractable_spec; [discriminate | vm_compute; reflexivity]|]. split; [apply destination_spec; vm_compute; reflexivity|].
      split; [intros (d & E); assert (X : endswith (py "definitions-2022/contributed_definitions/NXdata.nxdl.xml") (py "/") = true) by (apply endswith_spec; exists d; exact E); vm_compute in X; discriminate|].
      split; [reflexivity|]. intros m I D P. apply destination_spec in P. simpl in I. repeat destruct I as [<- | I]; try contradiction; vm_compute in P; discriminate.
    + intros c m rest _ I D P. apply extractable_spec in D; [|discriminate]. apply destination_spec in P. simpl in I. repeat destruct I as [<- | I]; try contradiction; vm_compute in D, P; try discriminate;
        revert P; generalize rest; intros ? P; discriminate.
Qed.
