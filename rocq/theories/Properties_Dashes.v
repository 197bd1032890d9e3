(** * Names after the word "--" (C138) *)

From Coq Require Import List NArith ZArith Bool String Lia.
From Verif Require Import PyBase PyFacts H5 Findings Report Nxdl Core Validate H5Tree Cache Install Cli Args Main Samples.
From Verif Require Import Spec_Report Spec_FileSets Spec_Install Spec_Cli Spec_Number NumberFacts Spec_Args CacheSetFacts CliFacts ArgsFacts ArgsEnd ArgsDashes Properties_Cache Properties_Install Properties_Cli Properties_Main.
Import ListNotations.
Open Scope string_scope.
Open Scope list_scope.
Local Open Scope nat_scope.

(** punx validate: any text can be the name of the file, if it stands after "--" *)
Theorem C138_validate : forall x k w word ws items after f, stands_for subcommands word (py "validate") -> line_of (validate_words (x_env x)) ws items ->
  ~ In VUnknown items -> names_last VFile items after [f] ->
  main x k w (word :: ws ++ py "--" :: after)
  = ([], usr_dir k, punx_validate (x_json x) (x_load x) (x_upper x) k w f (last_said validate_set items) (last_said validate_report items)).
Proof.
  intros x k w word ws items after f S L NU F. unfold main, punx_validate. destruct (cache_manager (x_json x) k None) as [p [c|e]]; [|reflexivity].
  destruct (default_ref c) as [ref|e]; [|reflexivity]. rewrite (proj2 (validate_dashed (x_env x) word ws items after S L) f NU F). reflexivity.
Qed.
Print Assumptions C138_validate.

(** punx tree: likewise *)
Theorem C138_tree : forall x k w word ws items after f sets, usable (x_json x) k sets -> stands_for subcommands word (py "tree") ->
  line_of (tree_words (x_env x)) ws items -> ~ In TUnknown items -> names_last TFile items after [f] ->
  exists a, ta_infile a = f /\ (ta_attributes a = true <-> ~ In TNoAttributes items)
    /\ ta_items a = match last_said tree_items items with Some z => z | None => 5%Z end
    /\ main x k w (word :: ws ++ py "--" :: after)
       = ([], usr_dir k, func_tree (x_json x) (x_env x) (x_type x) k w (x_views x) (x_fuel x) (x_xml x) (x_xslt x) None a).
Proof.
  intros x k w word ws items after f sets U S L NU F. destruct (proj2 (tree_dashed (x_env x) word ws items after S L) f NU F) as (a & P & A & B & C).
  exists a. split; [exact A|]. split; [exact B|]. split; [exact C|].
  destruct (main_usable x k w (word :: ws ++ py "--" :: after) sets U) as (c & ref & I & _ & M). rewrite M, P. cbn [run_command]. f_equal.
  unfold func_tree, nxdl_report. cbn [cache_manager]. rewrite I. reflexivity.
Qed.
Print Assumptions C138_tree.

(** punx install: all the names after "--", and those right before it *)
Theorem C138_install : forall x k w word ws items after names sets, usable (x_json x) k sets -> stands_for subcommands word (py "install") ->
  line_of (install_words (x_env x)) ws items -> ~ In IUnknown items -> names_last IName items after names ->
  exists update, (update = true <-> In IUpdate items)
    /\ main x k w (word :: ws ++ py "--" :: after)
       = func_install (x_json x) k None update (x_net x) (match names with [] => [py "main"] | l => l end).
Proof.
  intros x k w word ws items after names sets U S L NU T. destruct (proj2 (install_dashed (x_env x) word ws items after S L) names NU T) as (u & P & B).
  exists u. split; [exact B|]. destruct (main_usable x k w (word :: ws ++ py "--" :: after) sets U) as (c & ref & I & _ & M). rewrite M, P. cbn [run_command].
  unfold func_install. cbn [cache_manager]. rewrite I. reflexivity.
Qed.
Print Assumptions C138_install.

(** otherwise exit code 2, and nothing is done: more or less than one file, an option between the names
    and "--", an option punx does not know, "--" first, and "--" for a subcommand without names *)
Theorem C138_rejected : forall x k w word ws after sets, usable (x_json x) k sets ->
  (exists items, stands_for subcommands word (py "validate") /\ line_of (validate_words (x_env x)) ws items
     /\ (In VUnknown items \/ forall f, ~ names_last VFile items after [f]))
  \/ (exists items, stands_for subcommands word (py "tree") /\ line_of (tree_words (x_env x)) ws items
     /\ (In TUnknown items \/ forall f, ~ names_last TFile items after [f]))
  \/ (exists items, stands_for subcommands word (py "install") /\ line_of (install_words (x_env x)) ws items
     /\ (In IUnknown items \/ forall names, ~ names_last IName items after names))
  \/ (ws = [] /\ exists c, stands_for subcommands word c /\ In c [py "configuration"; py "demonstrate"]) ->
  main x k w (word :: ws ++ py "--" :: after) = ([], usr_dir k, ([], Exn (SystemExit 2))).
Proof.
  intros x k w word ws after sets U H. destruct (main_usable x k w (word :: ws ++ py "--" :: after) sets U) as (c & ref & _ & _ & M). rewrite M.
  destruct H as [(items & S & L & H) | [(items & S & L & H) | [(items & S & L & H) | (-> & c' & S & I)]]].
  - rewrite (proj1 (validate_dashed (x_env x) word ws items after S L) H). reflexivity.
  - rewrite (proj1 (tree_dashed (x_env x) word ws items after S L) H). reflexivity.
  - rewrite (proj1 (install_dashed (x_env x) word ws items after S L) H). reflexivity.
  - cbn [app]. rewrite (plain_dashed (x_env x) word c' after S I). reflexivity.
Qed.
Print Assumptions C138_rejected.
Theorem C138_first : forall x k w after sets, usable (x_json x) k sets ->
  main x k w (py "--" :: after) = ([], usr_dir k, ([], Exn (SystemExit 2))).
Proof. intros x k w after sets U. destruct (main_usable x k w (py "--" :: after) sets U) as (c & ref & _ & _ & M). rewrite M, first_dashes. reflexivity. Qed.
Print Assumptions C138_first.

(** a name that begins with a dash; the same line without "--" is rejected *)
Definition dash_file : list pystr := [py "-x.h5"].
Lemma tree_a : line_of (tree_words env0) (line ["-a"]) [TNoAttributes].
Proof. exists [[py "-a"]]. split; [repeat constructor | reflexivity]. Qed.
Example C138_case : stands_for subcommands (py "tr") (py "tree") /\ line_of (tree_words env0) (line ["-a"]) [TNoAttributes]
  /\ names_last TFile [TNoAttributes] dash_file [py "-x.h5"]
  /\ usable rj2 disk2 (sets_of_disk disk2)
  /\ main x0 disk2 world0 (line ["tr"; "-a"; "-x.h5"]) = ([], usr_dir disk2, ([], Exn (SystemExit 2)))
  /\ snd (snd (main x0 disk2 world0 (line ["tr"; "-a"; "--"; "file.nxs"]))) = Ok tt
  /\ fst (main x0 disk2 world0 (line ["ins"; "-u"; "main"; "--"; "v9"])) = fst (func_install rj2 disk2 None true net1 names1).
Proof.
  split; [exact tree_tr|]. split; [exact tree_a|].
  split; [exists [TNoAttributes], []; split; [reflexivity|]; split; [intros n [H | []]; discriminate | reflexivity]|].
  split; [apply C110_example|]. split; [vm_compute; reflexivity|]. split; vm_compute; reflexivity.
Qed.
(** an option between the name and "--": rejected, although there is one name *)
Example C138_between : (forall f, ~ names_last TFile [TFile fn; TNoAttributes] [] [f])
  /\ main x0 disk2 world0 (line ["tr"; "file.nxs"; "-a"; "--"]) = ([], usr_dir disk2, ([], Exn (SystemExit 2)))
  /\ snd (snd (main x0 disk2 world0 (line ["tr"; "-a"; "file.nxs"; "--"]))) = Ok tt
  /\ snd (snd (main x0 disk2 world0 (line ["configuration"; "--"]))) = Exn (SystemExit 2).
Proof.
  split; [|split; [|split]; vm_compute; reflexivity]. intros f (a & ns & X & N & Y). rewrite app_nil_r in Y. subst ns.
  change (map TFile [f]) with [TFile f] in X. destruct a as [|i [|j [|? ?]]]; discriminate X.
Qed.
