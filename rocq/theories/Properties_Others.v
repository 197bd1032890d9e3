(** * Installing and validating with another file set *)

From Coq Require Import List NArith ZArith Bool String Lia Permutation.
From Verif Require Import PyBase PyFacts H5 Findings Report Nxdl NxdlLoad SchemaMgr NxdlSchema Core Validate Cache Install InfoFile Session Cli Args Main Whole
  Spec_Install Spec_Nxdl Spec_Info Spec_Run Spec_Catalog Spec_Groups Spec_Cli Spec_Args Spec_Session Spec_FileSets Spec_Whole
  CacheSetFacts InstallFacts InstallEnd CliFacts WholeFacts Samples WholeSamples.
From Verif Require Properties_Info Properties_Main Properties_Cli Properties_Session Properties_Whole.
Import ListNotations Properties_Whole.
Open Scope string_scope.
Open Scope list_scope.

(** ** C116 *)
Lemma frame_names : forall L lim x k w word ws items other sets s,
  let names := match said install_name items with [] => [py "main"] | l => l end in
  usable read_json k sets -> distinct_names k ->
  stands_for subcommands word (py "install") -> line_of (install_words (x_env x)) ws items -> ~ In IUnknown items -> names_together items ->
  ~ In other names -> ordinary_downloads names (x_net x) other ->
  passes_through (usr_dir k) (punx L lim x k w (word :: ws)) s -> dget other s = dget other (usr_dir k) /\ NoDup (map fst s).
Proof.
  intros L lim x k w word ws items other sets s names U DN St Li NU Nt NI Od P.
  assert (Q : exists update, visited (usr_dir k) (install_all update (x_net x) 0 names (usr_dir k)) s).
    { unfold punx in P. match type of P with context [main ?y k w _] => destruct (Properties_Main.C109_partial y k w word ws items sets U St Li NU Nt) as (u & _ & E) end.
      exists u. rewrite E in P. fold names in P. cbn [x_net x_json] in P. clear - P. unfold func_install, passes_through in P. unfold visited.
      destruct (cache_manager read_json k None) as [p [c|e]]; [|left; cbn in P; intuition].
      destruct (install_all u (x_net x) 0 names (usr_dir k)) as [[l e] [[]|e']]; exact P. }
    destruct Q as (u & V). split; [exact (install_frame other u names (x_net x) 0 (usr_dir k) s NI Od V) | eapply install_once; eauto; apply DN].
Qed.

(** At every crash point of [punx install], and after it, and for every answer of the network:
    [punx validate -f OTHER FILE] does what it would have done before, if OTHER is neither one of the
    names that are installed nor the top directory of an archive, and if the caches can be read. *)
Theorem C116_others : forall L lim x k w word ws items word' ws' items' file other sets s sets',
  let names := match said install_name items with [] => [py "main"] | l => l end in
  usable read_json k sets -> distinct_names k -> apart k ->
  stands_for subcommands word (py "install") -> line_of (install_words (x_env x)) ws items -> ~ In IUnknown items -> names_together items ->
  ~ In other names -> ordinary_downloads names (x_net x) other -> ~ In 47%N other ->
  passes_through (usr_dir k) (punx L lim x k w (word :: ws)) s ->
  let k' := mkDisk (src_path k) (src_dir k) (usr_path k) s in usable read_json k' sets' ->
  stands_for subcommands word' (py "validate") -> line_of (validate_words (x_env x)) ws' items' -> ~ In VUnknown items' -> said validate_file items' = [file] ->
  last_said validate_set items' = Some other ->
  snd (punx L lim x k' w (word' :: ws')) = snd (punx L lim x k w (word' :: ws')).
Proof.
  intros L lim x k w word ws items word' ws' items' file other sets s sets' names U DN Ap St Li NU Nt NI Od No P k' U' St' Li' NU' S' Sn.
  destruct (frame_names L lim x k w word ws items other sets s U DN St Li NU Nt NI Od P) as [F ND].
assert (DN' : distinct_names k') by (split; [apply DN | exact ND]).
  rewrite !(validate_line_run _ _ _ _ _ _ _ _ _ St' Li' NU' S'), Sn.
  destruct (endswith file (py ".nxdl.xml")) eqn:NX.
  { apply not_nxdl in NX. rewrite (Properties_Cli.C58_partial _ _ _ _ _ _ _ _ _ U' NX), (Properties_Cli.C58_partial _ _ _ _ _ _ _ _ _ U NX). reflexivity. }
  assert (NX' : ~ is_nxdl file) by (intros X; apply not_nxdl in X; congruence).
  destruct (usable_init _ _ _ U) as (n0 & fs0 & Nw & _). destruct (usable_init _ _ _ U') as (n1 & fs1 & Nw' & _).
  rewrite (punx_validate_run _ _ _ _ _ _ _ _ _ _ _ U NX' Nw), (punx_validate_run _ _ _ _ _ _ _ _ _ _ _ U' NX' Nw').
  unfold named_run. rewrite (same_set k s sets sets' other (us_sets _ _ _ U) (us_sets _ _ _ U') DN ND F).
  destruct (dget other sets) as [fs|] eqn:G; [|reflexivity].
  rewrite <- (load_frame L (x_env x) lim k s sets other fs (us_sets _ _ _ U) DN Ap No G F). reflexivity.
Qed.
Print Assumptions C116_others.

(** After [punx install] has done what it was asked for the caches can be read. *)
Theorem C116_completed : forall L lim x k w word ws items word' ws' items' file other sets fs,
  let names := match said install_name items with [] => [py "main"] | l => l end in
  usable read_json k sets -> distinct_names k -> apart k ->
  stands_for subcommands word (py "install") -> line_of (install_words (x_env x)) ws items -> ~ In IUnknown items -> names_together items ->
  ~ In other names -> ordinary_downloads names (x_net x) other -> ~ In 47%N other -> In (other, fs) sets ->
  let r := punx L lim x k w (word :: ws) in snd (snd r) = Ok tt ->
  stands_for subcommands word' (py "validate") -> line_of (validate_words (x_env x)) ws' items' -> ~ In VUnknown items' -> said validate_file items' = [file] ->
  last_said validate_set items' = Some other ->
  snd (punx L lim x (afterwards k r) w (word' :: ws')) = snd (punx L lim x k w (word' :: ws')).
Proof.
  intros L lim x k w word ws items word' ws' items' file other sets fs names U DN Ap St Li NU Nt NI Od No Of r R St' Li' NU' S' Sn.
  assert (T : exists rows, table_of_caches read_json (afterwards k r) = Ok rows).
  { revert R. unfold r, punx. match goal with |- context [main ?y k w _] => destruct (Properties_Main.C109_partial y k w word ws items sets U St Li NU Nt) as (u & _ & E) end.
    rewrite E. fold names. cbn [x_net x_json]. unfold func_install, afterwards. destruct (cache_manager read_json k None) as [p [c|e]]; [|discriminate].
    destruct (install_all u (x_net x) 0 names (usr_dir k)) as [[l e] [[]|e']]; [|discriminate]. cbn [fst snd usr_dir]. unfold show_caches.
    destruct (table_of_caches read_json _) as [rows|e']; [eauto | discriminate]. }
  assert (P : passes_through (usr_dir k) r (snd (fst r))) by (right; right; reflexivity).
  destruct T as (rows & T). destruct (table_usable _ _ _ T) as (sets' & A' & U').
  assert (NE : sets' <> []).
  { destruct (frame_names L lim x k w word ws items other sets _ U DN St Li NU Nt NI Od P) as [F ND].
    pose proof (same_set k _ sets sets' other (us_sets _ _ _ U) A' DN ND F) as Q.
    rewrite (In_dget _ _ _ (all_sets_NoDup _ _ _ (us_sets _ _ _ U)) Of) in Q. intros ->. discriminate. }
  exact (C116_others L lim x k w word ws items word' ws' items' file other sets _ sets' U DN Ap St Li NU Nt NI Od No P (U' NE) St' Li' NU' S' Sn).
Qed.
Print Assumptions C116_completed.

Lemma zip2_v9 : plain_archive zip2 top2 (py "v9").
Proof.
  constructor.
  - exists (mkM (py "definitions-2022/") []). eexists. split; [reflexivity | vm_compute; reflexivity].
  - repeat split; discriminate.
  - discriminate.
  - intros m I D. apply extractable_spec in D; [|discriminate]. simpl in I. repeat destruct I as [<- | I]; try contradiction; vm_compute in D; try discriminate D;
      (eexists; split; [apply destination_spec; vm_compute; reflexivity | vm_compute; intuition discriminate]).
Qed.

Definition disk5 : disk := Eval vm_compute in afterwards disk4 installed4.
Definition sets5 : dict fileset := match all_file_sets read_json disk5 with Ok s => s | Exn _ => [] end.
Definition fs5 : fileset := match dget (py "v2022") sets5 with Some f => f | None => mkFS [] [] (mkI None None None None) end.
Definition installed5 : list entries * entries * (list event * res unit) := punx lxml1 limits1 out4 disk5 world4 [py "install"; py "v9"].

(** v9 is installed, then v2022 used *)
Example C116_case : snd (snd installed5) = Ok tt /\ dget (py "v9") (usr_dir (afterwards disk5 installed5)) <> dget (py "v9") (usr_dir disk5)
  /\ snd (punx lxml1 limits1 out4 (afterwards disk5 installed5) world4 [py "validate"; py "-fv2022"; fn])
     = snd (punx lxml1 limits1 out4 disk5 world4 [py "validate"; py "-fv2022"; fn])
  /\ exists rep rest, fst (snd (punx lxml1 limits1 out4 disk5 world4 [py "validate"; py "-fv2022"; fn])) = Validating fs5 fn :: Reported rep :: rest
       /\ In (mkF (Some (py "/entry/odd")) (py "known NXDL") ERROR (py "NXodd: recognized NXDL specification")) (r_rows rep).
Proof.
  split; [vm_compute; reflexivity|]. split; [vm_compute; discriminate|]. split.
  - refine (C116_completed lxml1 limits1 out4 disk5 world4 (py "install") [py "v9"] [IName (py "v9")] (py "validate") [py "-fv2022"; fn] [VSet (py "v2022"); VFile fn] fn
      (py "v2022") sets5 fs5 _ _ _ (proj1 (install_line4 env0)) _ _ (one_name [IName (py "v9")] (py "v9") eq_refl) _ _ _ _ _ (proj1 (validate_line4 env0)) _ _ eq_refl eq_refl).
    + split; [vm_compute; reflexivity | vm_compute; discriminate| |].
      * right. intros n fs H. vm_compute in H. repeat destruct H as [H | H]; try contradiction; injection H as _ <-; discriminate.
      * intros n fs H. right. vm_compute in H. repeat destruct H as [H | H]; try contradiction; injection H as _ <-; discriminate.
    + split; vm_compute; repeat constructor; intros [].
    + split; [|split; [|discriminate]]; intros (a & E); discriminate.
    + exists [[py "v9"]]. split; [|reflexivity]. constructor; [|constructor]. constructor. left. apply Properties_Main.plain_by. discriminate.
    + intros [X | []]; discriminate.
    + intros [X | []]; discriminate.
    + intros [|i] n H; [|destruct i; discriminate]. injection H as <-. right. exists zip2, top2. split; [reflexivity|]. split; [exact zip2_v9 | discriminate].
    + vm_compute. intuition discriminate.
    + vm_compute. right. left. reflexivity.
    + vm_compute. reflexivity.
    + exists [[py "-fv2022"]; [fn]]. split; [|reflexivity]. constructor; [|constructor; [|constructor]].
      * apply (vw_set_joined _ (py "v2022")); [discriminate|]. intros (t & E). discriminate.
      * constructor. left. apply Properties_Main.plain_by. discriminate.
    + intros [X | [X | []]]; discriminate.
  - eexists. eexists. split; [vm_compute; reflexivity|]. vm_compute. repeat first [left; reflexivity | right].
Qed.
