(** * Properties of the program as it is called (C108-C111) *)

From Coq Require Import List NArith ZArith Bool String Lia.
From Verif Require Import PyBase PyFacts H5 Findings Report Nxdl Core Validate H5Tree Cache Install Cli Args Main Samples.
From Verif Require Import Spec_Report Spec_FileSets Spec_Install Spec_Cli Spec_Number NumberFacts Spec_Args CacheSetFacts CliFacts ArgsFacts ArgsEnd ArgsCodes Properties_Cache Properties_Install Properties_Cli.
Import ListNotations.
Open Scope string_scope.
Open Scope list_scope.
Local Open Scope nat_scope.

(** a program call in the surroundings of the examples *)
Definition x0 : outside :=
  mkOut rj2 load0 upc0 env0 (fun s => s) (fun _ => DObject [] []) 100 (fun _ => XMissing) (fun _ _ => SMissing) net1 fn.
Definition line (l : list string) : list pystr := map py l.

Lemma main_usable : forall x k w argv sets, usable (x_json x) k sets -> exists c ref, cm_init (x_json x) k = Ok c /\ default_ref c = Ok ref
  /\ main x k w argv = match parse_args (x_env x) argv with
                       | Exn e => ([], usr_dir k, ([], Exn e))
                       | Ok None => ([], usr_dir k, ([], Exn (SystemExit 1)))
                       | Ok (Some cmd) => run_command x k w (Some c) ref cmd
                       end.
Proof.
  intros x k w argv sets U. destruct (usable_init _ _ _ U) as (n & fs & _ & I). exists (mkCM sets (Some fs)), (i_ref (fs_info fs)).
  split; [exact I|]. split; [reflexivity|]. unfold main. cbn [cache_manager]. rewrite I. reflexivity.
Qed.

(** ** C108 *)
(** punx validate: the options may stand anywhere, written in any of their ways; the last
    one of a kind counts *)
Theorem C108_validate : forall x k w word ws items f, stands_for subcommands word (py "validate") -> line_of (validate_words (x_env x)) ws items ->
  ~ In VUnknown items -> said validate_file items = [f] ->
  main x k w (word :: ws)
  = ([], usr_dir k, punx_validate (x_json x) (x_load x) (x_upper x) k w f (last_said validate_set items) (last_said validate_report items)).
Proof.
  intros x k w word ws items f S L NU F. unfold main, punx_validate. destruct (cache_manager (x_json x) k None) as [p [c|e]]; [|reflexivity].
  destruct (default_ref c) as [ref|e]; [|reflexivity]. rewrite (proj2 (validate_line (x_env x) word ws items S L) f NU F). reflexivity.
Qed.
Print Assumptions C108_validate.

(** punx tree: likewise; attributes are shown unless -a is there, and five items of an array
    unless -m says otherwise *)
Theorem C108_tree : forall x k w word ws items f sets, usable (x_json x) k sets -> stands_for subcommands word (py "tree") ->
  line_of (tree_words (x_env x)) ws items -> ~ In TUnknown items -> said tree_file items = [f] ->
  exists a, ta_infile a = f /\ (ta_attributes a = true <-> ~ In TNoAttributes items)
    /\ ta_items a = match last_said tree_items items with Some z => z | None => 5%Z end
    /\ main x k w (word :: ws)
       = ([], usr_dir k, func_tree (x_json x) (x_env x) (x_type x) k w (x_views x) (x_fuel x) (x_xml x) (x_xslt x) None a).
Proof.
  intros x k w word ws items f sets U S L NU F. destruct (proj2 (tree_line (x_env x) word ws items S L) f NU F) as (a & P & A & B & C).
  exists a. split; [exact A|]. split; [exact B|]. split; [exact C|].
  destruct (main_usable x k w (word :: ws) sets U) as (c & ref & I & _ & M). rewrite M, P. cbn [run_command]. f_equal.
  unfold func_tree, nxdl_report. cbn [cache_manager]. rewrite I. reflexivity.
Qed.
Print Assumptions C108_tree.

(** without exactly one file, or with an unknown option, nothing is done *)
Theorem C108_rejected : forall x k w word ws sets, usable (x_json x) k sets ->
  (exists items, stands_for subcommands word (py "validate") /\ line_of (validate_words (x_env x)) ws items
     /\ (In VUnknown items \/ List.length (said validate_file items) <> 1))
  \/ (exists items, stands_for subcommands word (py "tree") /\ line_of (tree_words (x_env x)) ws items
     /\ (In TUnknown items \/ List.length (said tree_file items) <> 1)) ->
  main x k w (word :: ws) = ([], usr_dir k, ([], Exn (SystemExit 2))).
Proof.
  intros x k w word ws sets U H. destruct (main_usable x k w (word :: ws) sets U) as (c & ref & _ & _ & M). rewrite M.
  destruct H as [(items & S & L & H) | (items & S & L & H)].
  - rewrite (proj1 (validate_line (x_env x) word ws items S L) H). reflexivity.
  - rewrite (proj1 (tree_line (x_env x) word ws items S L) H). reflexivity.
Qed.
Print Assumptions C108_rejected.

(** an option that wants a number gets one *)
Theorem C108_number : forall x k w word opt s rest sets, usable (x_json x) k sets -> stands_for subcommands word (py "tree") ->
  items_option opt -> plain s -> (forall z, ~ whole_number (x_env x) s z) -> Forall plain rest ->
  main x k w (word :: opt :: s :: rest) = ([], usr_dir k, ([], Exn (SystemExit 2))).
Proof.
  intros x k w word opt s rest sets U S O P NZ R. destruct (main_usable x k w (word :: opt :: s :: rest) sets U) as (c & ref & _ & _ & M). rewrite M.
  destruct (stands_line _ _ S) as (Sub & Pw & Pc).
  assert (Fo : fine opt).
  { destruct O as [-> | L]; [apply (fine_short 109 []); discriminate|]. rewrite <- (app_nil_r opt). apply (long_fine 109%N _ opt [] ltac:(discriminate) L). }
  rewrite (parse_line (x_env x) word (py "tree") (opt :: s :: rest) Sub Pw Pc).
  2:{ constructor; [exact Fo|]. constructor; [apply plain_fine; exact P|]. eapply Forall_impl; [|exact R]. intros y; apply plain_fine. }
  assert (X : parse_words (x_env x) opts_tree OneArg (opt :: s :: rest) = Exn (SystemExit 2)).
  { unfold parse_words. rewrite (no_dashes (opt :: s :: rest)).
    2:{ constructor; [exact Fo|]. constructor; [apply plain_fine; exact P|]. eapply Forall_impl; [|exact R]. intros y; apply plain_fine. }
    cbn [classify_all]. destruct (items_classify (x_env x) opt O) as (f & C). rewrite C. cbn [rbind]. rewrite (plain_classify _ _ s P). cbn [rbind].
    assert (Y : exists l, classify_all (x_env x) opts_tree rest = Ok l).
    { clear -R. induction R as [|y rest Py R (l & IH)]; [eexists; reflexivity|]. cbn [classify_all]. rewrite (plain_classify _ _ y Py), IH. eexists; reflexivity. }
    destruct Y as (l & ->). cbn [rbind scan word_options takes_value o_items o_kind app take_actions]. unfold take_action at 1. cbn [fst snd o_items o_kind].
    destruct (py_int_text (x_env x) s) as [z|e] eqn:Z; [exfalso; apply int_number in Z; exact (NZ z Z) | reflexivity]. }
  change (parse_command (x_env x) (py "tree") (opt :: s :: rest)) with
    (dor s' <- parse_words (x_env x) opts_tree OneArg (opt :: s :: rest) ;
     dor z <- match last_act (py "max_array_items") (s_acts s') with Some v => py_int_text (x_env x) v | None => Ok 5%Z end ;
     Ok (CTree (mkTA (hd [] (s_pos s')) (negb (is_some (last_act (py "show_attributes") (s_acts s')))) z), s_extra s')).
  rewrite X. reflexivity.
Qed.
Print Assumptions C108_number.

Lemma tree_tr : stands_for subcommands (py "tr") (py "tree").
Proof. apply (subcommand_spec subcommands (py "tr") punx_NoDup). vm_compute. reflexivity. Qed.
Lemma long_by : forall a b c, long_option a (a ++ b ++ c) (a ++ b).
Proof. intros a b c. split; [exists b; reflexivity | exists c; rewrite app_assoc; reflexivity]. Qed.
Lemma plain_by : forall c w, c <> 45%N -> plain (c :: w).
Proof. intros c w N (r & X). injection X as X _. contradiction. Qed.
Example C108_tree_line : line_of (tree_words env0) (line ["--max=7"; "f.h5"; "-a"; "-m"; "-1"])
  [TItems 7; TFile (py "f.h5"); TNoAttributes; TItems (-1)].
Proof.
  exists [[py "--max=7"]; [py "f.h5"]; [py "-a"]; [py "-m"; py "-1"]]. split; [|reflexivity]. constructor; [|constructor; [|constructor; [|constructor; [|constructor]]]].
  - apply (tw_items_equals env0 (py "--max") (py "7") 7); [|apply int_number; vm_compute; reflexivity]. right. apply (long_by (py "--m") (py "ax") (py "_array_items")).
  - constructor. left. apply plain_by. discriminate.
  - constructor.
  - apply tw_items; [left; reflexivity | apply int_number; vm_compute; reflexivity|].
    right. right. left. apply negative_spec. vm_compute. reflexivity.
Qed.
Example C108_example : main x0 disk2 world0 (line ["tr"; "--max=7"; "file.nxs"; "-a"; "-m"; "-1"])
    = ([], usr_dir disk2, func_tree rj2 env0 (fun s => s) disk2 world0 (fun _ => DObject [] []) 100 (fun _ => XMissing) (fun _ _ => SMissing) None (mkTA fn false (-1)))
  /\ snd (snd (main x0 disk2 world0 (line ["tr"; "--max=7"; "file.nxs"; "-a"; "-m"; "-1"]))) = Ok tt
  /\ main x0 disk2 world0 (line ["tr"; "-m"; "x"; "f.h5"]) = ([], usr_dir disk2, ([], Exn (SystemExit 2)))
  /\ snd (main x0 disk2 world0 (line ["tr"; "-my file"])) = ([], Exn (SystemExit 2)) /\ value_word env0 (py "ham") (py "-x y") /\ snd (snd (main x0 disk2 world0 (line ["tr"; "-x y"; "-a"]))) = Ok tt
  /\ snd (snd (main x0 disk2 world0 (line ["tr"; "-m-1_0"; "file.nxs"]))) = Ok tt /\ snd (snd (main x0 disk2 world0 (line ["tr"; "-m"; "-1_0"; "file.nxs"]))) = Exn (SystemExit 2)
  /\ main x0 disk2 world0 (line ["tr"; "--mox"; "f.h5"]) = ([], usr_dir disk2, ([], Exn (SystemExit 2)))
  /\ hd_error (fst (snd (main x0 disk2 world0 (line ["va"; "--rep=ok"; "-f"; "v3"; "file.nxs"])))) = Some (Validating (fs2 "/x/punx/cache/v3" "source" "2017" "v3") fn).
Proof.
  split; [vm_compute; reflexivity|]. split; [vm_compute; reflexivity|]. split; [vm_compute; reflexivity|]. split; [vm_compute; reflexivity|].
  split; [right; right; right; exists 120%N, (py " y"); split; [reflexivity|]; split; [vm_compute; intuition discriminate | right; left; reflexivity]|].
  split; [vm_compute; reflexivity|]. split; [vm_compute; reflexivity|]. split; [vm_compute; reflexivity|]. split; vm_compute; reflexivity.
Qed.

(** words that begin with "-": numbers and words with a blank are names, others are options *)
Example C108_words : value_word env0 (py "ham") (py "-1") /\ value_word env0 (py "ham") (py "-.5") /\ value_word env0 (py "ham") (py "-12.50")
  /\ Forall (fun w => unknown_option env0 (py "ham") [py "--help"; py "--max_array_items"] w) (line ["-1."; "-."; "-1x"; "-x"; "-1e5"; "-f"])
  /\ unknown_option env0 (py "hf") [py "--help"; py "--file_set_name"; py "--report"] (py "-m")
  /\ line_of (tree_words env0) (line ["-1."; "file.nxs"]) [TUnknown; TFile fn]
  /\ main x0 disk2 world0 (line ["tr"; "-1."; "file.nxs"]) = ([], usr_dir disk2, ([], Exn (SystemExit 2)))
  /\ snd (snd (main x0 disk2 world0 (line ["tr"; "-1.5"; "-a"]))) = Ok tt.
Proof.
  assert (U : forall letters known s c rest, py s = 45%N :: c :: rest -> ~ In c (45%N :: letters) -> has_char 32 (py s) = false -> negative_number env0 (py s) = false ->
    unknown_option env0 letters known (py s)).
  { intros letters known s c rest X Nc B M. right. exists c, rest. split; [exact X|]. split; [exact Nc|]. split; intros Y.
    - apply has_blank in Y. change ch_space with 32%N in Y. congruence.
    - apply negative_spec in Y. congruence. }
  assert (V : forall letters s c rest, py s = 45%N :: c :: rest -> negb (existsb (N.eqb c) (45%N :: letters)) && negb (has_char 32 (py s)) && negb (negative_number env0 (py s)) = true ->
    forall known, unknown_option env0 letters known (py s)).
  { intros letters s c rest X H known. apply andb_true_iff in H as [H M]. apply andb_true_iff in H as [H B]. apply negb_true_iff in H, M, B.
    apply (U letters known s c rest X); auto. intros I. assert (Q : existsb (N.eqb c) (45%N :: letters) = true) by (apply existsb_exists; exists c; split; [exact I | apply N.eqb_refl]). congruence. }
  split; [right; right; left; apply negative_spec; vm_compute; reflexivity|]. split; [right; right; left; apply negative_spec; vm_compute; reflexivity|].
  split; [right; right; left; apply negative_spec; vm_compute; reflexivity|].
  split; [unfold line; cbn [map]; repeat (apply Forall_cons; [eapply V; [reflexivity | vm_compute; reflexivity]|]); apply Forall_nil|]. split; [eapply V; [reflexivity | vm_compute; reflexivity]|].
  split; [|split; vm_compute; reflexivity].
  exists [[py "-1."]; [fn]]. split; [|reflexivity]. constructor; [|constructor; [|constructor]].
  - constructor. eapply V; [reflexivity | vm_compute; reflexivity].
  - constructor. left. intros (r & X). discriminate X.
Qed.

(** ** C109 *)
(** names and --update in any order: not if --update stands between the names *)
Theorem C109_refuted : exists ws, line_of (install_words (x_env x0)) ws [IName (py "main"); IUpdate; IName (py "v9")]
  /\ main x0 disk2 world0 (py "install" :: ws) = ([], usr_dir disk2, ([], Exn (SystemExit 2))).
Proof.
  exists (line ["main"; "-u"; "v9"]). split; [|vm_compute; reflexivity].
  exists [[py "main"]; [py "-u"]; [py "v9"]]. split; [|reflexivity]. constructor; [|constructor; [|constructor; [|constructor]]].
  - constructor. left. apply plain_by. discriminate.
  - constructor. left. reflexivity.
  - constructor. left. apply plain_by. discriminate.
Qed.
Print Assumptions C109_refuted.

(** the names, in order, are installed if they stand together ("main" without any); with
    update if and only if the option is there *)
Theorem C109_partial : forall x k w word ws items sets, usable (x_json x) k sets -> stands_for subcommands word (py "install") ->
  line_of (install_words (x_env x)) ws items -> ~ In IUnknown items -> names_together items ->
  exists update, (update = true <-> In IUpdate items)
    /\ main x k w (word :: ws)
       = func_install (x_json x) k None update (x_net x) (match said install_name items with [] => [py "main"] | l => l end).
Proof.
  intros x k w word ws items sets U S L NU T. destruct (proj2 (install_line (x_env x) word ws items S L) NU T) as (u & P & B). exists u. split; [exact B|].
  destruct (main_usable x k w (word :: ws) sets U) as (c & ref & I & _ & M). rewrite M, P. cbn [run_command].
  unfold func_install. cbn [cache_manager]. rewrite I. reflexivity.
Qed.
Print Assumptions C109_partial.

(** otherwise nothing is installed *)
Theorem C109_rejected : forall x k w word ws items sets, usable (x_json x) k sets -> stands_for subcommands word (py "install") ->
  line_of (install_words (x_env x)) ws items -> In IUnknown items \/ ~ names_together items ->
  main x k w (word :: ws) = ([], usr_dir k, ([], Exn (SystemExit 2))).
Proof.
  intros x k w word ws items sets U S L H. destruct (main_usable x k w (word :: ws) sets U) as (c & ref & _ & _ & M).
  rewrite M, (proj1 (install_line (x_env x) word ws items S L) H). reflexivity.
Qed.
Print Assumptions C109_rejected.

Example C109_example : names_together [IUpdate; IName (py "main"); IName (py "v9"); IUpdate]
  /\ fst (main x0 disk2 world0 (line ["ins"; "--upd"; "main"; "v9"; "-u"])) = fst (func_install rj2 disk2 None true net1 names1)
  /\ snd (snd (main x0 disk2 world0 (line ["ins"; "--upd"; "main"; "v9"; "-u"]))) = Ok tt.
Proof.
  split; [exists [IUpdate], names1, [IUpdate]; repeat split; intros n [H | []]; discriminate|]. split; vm_compute; reflexivity.
Qed.

(** ** C110 *)
(** whatever is done, is done by a subcommand the line asks for *)
Theorem C110_harmless : forall x k w argv, (forall c, parse_args (x_env x) argv <> Ok (Some c)) ->
  exists e, main x k w argv = ([], usr_dir k, ([], Exn e)).
Proof.
  intros x k w argv H. unfold main. destruct (cache_manager (x_json x) k None) as [p [c|e]]; [|eauto]. destruct (default_ref c) as [ref|e]; [|eauto].
  destruct (parse_args (x_env x) argv) as [[cmd|]|e]; [exfalso; exact (H cmd eq_refl) | eauto | eauto].
Qed.
Print Assumptions C110_harmless.

(** and if it does not, the exit code is 1 for no subcommand, else 2, or 0 after help and
    version *)
Theorem C110_codes : forall x k w argv sets, usable (x_json x) k sets -> (forall c, parse_args (x_env x) argv <> Ok (Some c)) ->
  exists code, main x k w argv = ([], usr_dir k, ([], Exn (SystemExit code)))
    /\ (code = 0%Z \/ code = 2%Z \/ (code = 1%Z /\ argv = [])).
Proof.
  intros x k w argv sets U H. destruct (main_usable x k w argv sets U) as (c & ref & _ & _ & M). rewrite M.
  destruct (parse_args (x_env x) argv) as [[cmd|]|e] eqn:P; [exfalso; exact (H cmd eq_refl) | |].
  - exists 1%Z. split; [reflexivity|]. right. right. split; [reflexivity|]. unfold parse_args in P.
    destruct argv as [|a rest]; [reflexivity|]. exfalso. cbn [unabbreviate] in P.
    assert (T : forall l b, l <> [] \/ b = true -> Forall (fun wk => from opts_punx (snd wk)) l -> forall y, top (x_env x) l b = Ok (None, y) -> y = true).
    { induction l as [|[a' kd] l IH]; intros b Hb Fl y Ty; [destruct Hb as [Hb | ->]; [contradiction|]; injection Ty as <-; reflexivity|].
      inversion Fl as [|? ? Fw Fl']; subst. destruct kd as [|o flag xp|]; cbn [top] in Ty; [discriminate| |].
      - exfalso. cbn [snd from] in Fw. pose proof (word_options_fails opts_punx o flag xp Fw) as W. destruct (word_options opts_punx o flag xp) as [f|e] eqn:Wo; [|discriminate].
        cbn [rbind] in Ty.
        assert (Q : exists o' v l', fo_acts f = (o', v) :: l' /\ In o' opts_punx).
        { destruct W as (Wa & _). destruct (fo_acts f) as [|[o' v] l'] eqn:Fa; [|inversion Wa; subst; eauto].
          exfalso. assert (Kx : takes_value o = false) by (vm_compute in Fw; destruct Fw as [<- | [<- | []]]; reflexivity).
          destruct xp as [[sep z]|]; cbn [word_options] in Wo; [|rewrite Kx in Wo; injection Wo as <-; discriminate].
          destruct z as [|d z]; cbn [expand] in Wo; rewrite Kx in Wo; [destruct flag as [|? [|? ?]]; discriminate|].
          destruct flag as [|? [|fc ?]]; [discriminate | discriminate|]. destruct (N.eqb fc ch_dash || sep || N.eqb d ch_dash); [discriminate|].
          destruct (find_opt opts_punx [ch_dash; d]) as [o'|]; [|injection Wo as <-; discriminate].
          destruct z as [|ez z]; [destruct (takes_value o'); injection Wo as <-; discriminate|].
          destruct (if N.eqb ez ch_eq then _ else _); [|discriminate]. injection Wo as <-. discriminate. }
        destruct Q as (o' & v & l' & Fa & Io). rewrite Fa in Ty. cbn [take_actions] in Ty.
        assert (A : take_action (x_env x) (o', v) = Exn (SystemExit 0)) by (vm_compute in Io; destruct Io as [<- | [<- | []]]; reflexivity).
        rewrite A in Ty. discriminate.
      - apply (IH true); [right; reflexivity | exact Fl' | exact Ty]. }
    destruct (startswith a (py "-")).
    + cbn [rbind] in P. destruct (cut_dashes (a :: rest)) as [before after] eqn:Cd. pose proof (classify_all_fails (x_env x) opts_punx before) as C.
      destruct (classify_all (x_env x) opts_punx before) as [l|e]; [|discriminate]. cbn [rbind] in P. destruct C as (C1 & C2).
      destruct (top (x_env x) l false) as [[[[c' r]|] extra]|e] eqn:Tp; [| |discriminate]; cbn [rbind] in P.
      * destruct (parse_command (x_env x) c' _) as [y|e]; [|discriminate]. cbn [rbind] in P. destruct (extra || snd y); discriminate.
      * destruct after as [after|]; [cbn [is_some] in P; rewrite orb_true_r in P; discriminate|].
        assert (l <> []).
        { intros ->. cbn [cut_dashes] in Cd. destruct (str_eqb (py "--") a); [discriminate|]. destruct (cut_dashes rest). injection Cd as <- _. discriminate C2. }
        rewrite (T l false (or_introl H0) C1 extra Tp) in P. discriminate.
    + destruct (parse_subcommand subcommands a) as [c'|e] eqn:S; [|discriminate]. cbn [rbind cut_dashes] in P.
      assert (Pc : plain c').
      { apply (subcommand_spec subcommands a punx_NoDup) in S. apply (stands_line a c' S). }
      rewrite (plain_not_dashes c' Pc) in P. destruct (cut_dashes rest) as [before after]. cbn [classify_all] in P.
      rewrite (plain_classify _ _ c' Pc) in P. cbn [rbind] in P. destruct (classify_all (x_env x) opts_punx before) as [l|e]; [|discriminate].
      cbn [rbind top] in P. destruct (parse_command (x_env x) c' _) as [y|e]; [|discriminate]. cbn [rbind] in P. destruct (false || snd y); discriminate.
  - destruct (parse_args_fails (x_env x) argv e P) as [-> | ->]; [exists 0%Z | exists 2%Z]; split; auto.
Qed.
Print Assumptions C110_codes.

(** no words: exit code 1 *)
Theorem C110_none : forall x k w sets, usable (x_json x) k sets -> main x k w [] = ([], usr_dir k, ([], Exn (SystemExit 1))).
Proof. intros x k w sets U. destruct (main_usable x k w [] sets U) as (c & ref & _ & _ & M). rewrite M. reflexivity. Qed.
Print Assumptions C110_none.

(** a first word that stands for no subcommand and is no option: exit code 2 *)
Theorem C110_unknown : forall x k w word rest sets, usable (x_json x) k sets -> plain word ->
  (forall c, ~ stands_for subcommands word c) ->
  main x k w (word :: rest) = ([], usr_dir k, ([], Exn (SystemExit 2))).
Proof.
  intros x k w word rest sets U P H. destruct (main_usable x k w (word :: rest) sets U) as (c & ref & _ & _ & M). rewrite M.
  assert (X : parse_args (x_env x) (word :: rest) = Exn (SystemExit 2)).
  { unfold parse_args. cbn [unabbreviate]. destruct (startswith word (py "-")) eqn:E; [apply startswith_prefix in E; contradiction|].
    rewrite (C56_rejected subcommands word punx_NoDup H). reflexivity. }
  rewrite X. reflexivity.
Qed.
Print Assumptions C110_unknown.

(** an option before the subcommand that punx does not know: exit code 2, or 0 if help follows, and
    nothing is done, whatever the rest of the line is *)
Lemma top_extra : forall E l r x, top E l true = Ok (r, x) -> x = true.
Proof.
  intros E l. induction l as [|[w k] l IH]; intros r x H; [injection H as _ <-; reflexivity|]. destruct k as [|o f xp|]; cbn [top] in H.
  - injection H as _ <-. reflexivity.
  - destruct (word_options opts_punx o f xp) as [fo|]; [|discriminate]. cbn [rbind] in H. destruct (take_actions E (fo_acts fo)); [|discriminate]. cbn [rbind orb] in H. eauto.
  - eauto.
Qed.
Theorem C110_leading : forall x k w word rest sets, usable (x_json x) k sets ->
  unknown_option (x_env x) (py "hv") [py "--help"; py "--version"] word ->
  exists code, (code = 0%Z \/ code = 2%Z) /\ main x k w (word :: rest) = ([], usr_dir k, ([], Exn (SystemExit code))).
Proof.
  intros x k w word rest sets U Un. destruct (main_usable x k w (word :: rest) sets U) as (c & ref & _ & _ & M). rewrite M.
  assert (X : exists e, parse_args (x_env x) (word :: rest) = Exn e).
  { unfold parse_args. cbn [unabbreviate].
    assert (S : startswith word (py "-") = true) by (apply startswith_prefix; destruct Un as [((t & ->) & _) | (d & t & -> & _)]; [exists (py "-" ++ t) | exists (d :: t)]; reflexivity).
    rewrite S. cbn [rbind cut_dashes].
    rewrite (fine_dashes word (unknown_fine (x_env x) (py "hv") [py "--help"; py "--version"] word (or_introl eq_refl) Un)).
    destruct (cut_dashes rest) as [before after]. cbn [classify_all]. rewrite (unknown_classify (x_env x) (py "hv") opts_punx [py "--help"; py "--version"] word); [|reflexivity | | exact Un].
    2:{ apply known_flags. reflexivity. }
    cbn [rbind]. destruct (classify_all (x_env x) opts_punx before) as [l|e]; [|eexists; reflexivity]. cbn [rbind top].
    destruct (top (x_env x) l true) as [[r ex]|e] eqn:T; [|eexists; reflexivity]. apply top_extra in T. subst ex. cbn [rbind]. destruct r as [[cmd ws]|]; [|eexists; reflexivity].
    destruct (parse_command (x_env x) cmd _) as [[cm bx]|e]; [exists (SystemExit 2) | exists e]; reflexivity. }
  destruct X as (e & X). rewrite X. destruct (parse_args_fails _ _ _ X) as [-> | ->]; [exists 0%Z | exists 2%Z]; auto.
Qed.
Print Assumptions C110_leading.
Lemma foo_unknown : forall E letters known, Forall (fun f => startswith f (py "--foo") = false) known -> unknown_option E letters known (py "--foo").
Proof.
  intros E letters known H. left. split; [exists (py "foo"); reflexivity|]. split; [vm_compute; intuition discriminate|]. split; [vm_compute; intuition discriminate|].
  intros f I P. apply startswith_prefix in P. rewrite Forall_forall in H. rewrite (H f I) in P. discriminate.
Qed.
Example C110_leading_case : unknown_option env0 (py "hv") [py "--help"; py "--version"] (py "--foo")
  /\ main x0 disk2 world0 (line ["--foo"; "tree"; "file.nxs"]) = ([], usr_dir disk2, ([], Exn (SystemExit 2)))
  /\ main x0 disk2 world0 (line ["--foo"; "install"; "main"]) = ([], usr_dir disk2, ([], Exn (SystemExit 2))).
Proof. split; [apply foo_unknown; repeat constructor | split; vm_compute; reflexivity]. Qed.

(** help of the program and of every subcommand, and the version: exit code 0 *)
Theorem C110_help : forall x k w word c flag rest sets, usable (x_json x) k sets -> In flag [py "-h"; py "--help"] -> Forall plain rest ->
  (stands_for subcommands word c -> main x k w (word :: flag :: rest) = ([], usr_dir k, ([], Exn (SystemExit 0))))
  /\ main x k w (flag :: rest) = ([], usr_dir k, ([], Exn (SystemExit 0)))
  /\ main x k w (py "-v" :: rest) = ([], usr_dir k, ([], Exn (SystemExit 0)))
  /\ main x k w (py "--version" :: rest) = ([], usr_dir k, ([], Exn (SystemExit 0))).
Proof.
  intros x k w word c flag rest sets U F R.
  assert (Rf : Forall fine rest) by (eapply Forall_impl; [|exact R]; intros y; apply plain_fine).
  assert (Ff : fine flag).
  { cbn [In] in F. destruct F as [<- | [<- | []]]; [apply (fine_short 104 []); discriminate | apply (fine_third 104 (py "elp")); discriminate]. }
  assert (Tp : forall f, In f [py "-h"; py "--help"; py "-v"; py "--version"] -> fine f -> parse_args (x_env x) (f :: rest) = Exn (SystemExit 0)).
  { intros f I Fi. unfold parse_args. cbn [unabbreviate].
    assert (S : startswith f (py "-") = true) by (cbn [In] in I; destruct I as [<- | [<- | [<- | [<- | []]]]]; reflexivity). rewrite S. cbn [rbind].
    rewrite no_dashes by (constructor; assumption).
    destruct (top_all (x_env x) rest Rf) as (l & C & _). cbn [classify_all]. rewrite C.
    cbn [In] in I. destruct I as [<- | [<- | [<- | [<- | []]]]]; reflexivity. }
  split; [|split; [|split]].
  - intros S. destruct (main_usable x k w (word :: flag :: rest) sets U) as (cm & ref & _ & _ & M). rewrite M.
    destruct (stands_line _ _ S) as (Sub & Pw & Pc).
    rewrite (parse_line (x_env x) word c (flag :: rest) Sub Pw Pc) by (constructor; assumption).
    assert (Ca : forall opts, exists l, classify_all (x_env x) opts rest = Ok l).
    { intros opts. clear -R. induction R as [|y rest Py R (l & IH)]; [eexists; reflexivity|]. cbn [classify_all]. rewrite (plain_classify _ _ y Py), IH. eexists; reflexivity. }
    assert (X : parse_command (x_env x) c (flag :: rest) = Exn (SystemExit 0)).
    { destruct S as (I & _). cbn [subcommands In] in I. unfold parse_words.
      destruct I as [<-|[<-|[<-|[<-|[<-|[]]]]]];
        match goal with |- parse_command ?E (py ?n) _ = _ =>
          first [ destruct (Ca opts_plain) as (l & Cl) | idtac ] end;
        cbn [In] in F; destruct F as [<- | [<- | []]]; unfold parse_command; cbn [str_eqb];
        repeat match goal with |- context [if ?b then _ else _] => let v := eval vm_compute in b in change b with v; cbv iota end;
        unfold parse_words; (rewrite no_dashes by (constructor; [exact Ff | exact Rf])); cbn [classify_all];
        match goal with |- context [classify_all _ ?o rest] => destruct (Ca o) as (l' & ->) end; reflexivity. }
    rewrite X. reflexivity.
  - destruct (main_usable x k w (flag :: rest) sets U) as (cm & ref & _ & _ & M). rewrite M, Tp; [reflexivity | | exact Ff].
    cbn [In] in F |- *. destruct F as [<- | [<- | []]]; auto.
  - destruct (main_usable x k w (py "-v" :: rest) sets U) as (cm & ref & _ & _ & M). rewrite M, Tp; [reflexivity | | apply (fine_short 118 []); discriminate]. cbn [In]; auto.
  - destruct (main_usable x k w (py "--version" :: rest) sets U) as (cm & ref & _ & _ & M). rewrite M, Tp; [reflexivity | | apply (fine_third 118 (py "ersion")); discriminate]. cbn [In]; auto.
Qed.
Print Assumptions C110_help.

Example C110_example : usable rj2 disk2 (sets_of_disk disk2)
  /\ snd (snd (main x0 disk2 world0 (line ["--foo"]))) = Exn (SystemExit 2)
  /\ snd (snd (main x0 disk2 world0 (line ["--foo"; "tree"; "file.nxs"]))) = Exn (SystemExit 2)
  /\ snd (snd (main x0 disk2 world0 (line ["hierarchy"; "x"]))) = Exn (SystemExit 2)
  /\ snd (snd (main x0 disk2 world0 (line ["conf"; "-h"; "x"]))) = Exn (SystemExit 0)
  /\ snd (snd (main x0 disk2 world0 (line ["conf"]))) = Ok tt.
Proof. split; [exact usable2|]. repeat split; vm_compute; reflexivity. Qed.

(** ** C111 *)
(** an info file that cannot be read makes every subcommand fail, even showing the tree of
    an HDF5 file, and installing the damaged file set again *)
Definition rj_damaged : json_reader := fun text => if str_eqb text (py "damaged") then Exn ValueError else rj2 text.
Definition x_damaged : outside :=
  mkOut rj_damaged load0 upc0 env0 (fun s => s) (fun _ => DObject [] []) 100 (fun _ => XMissing) (fun _ _ => SMissing) net1 fn.
Definition disk_damaged : disk := mkDisk (src_path disk2) (src_dir disk2) (usr_path disk2) [(py "main", set0 "damaged")].
Theorem C111_refuted :
  main x_damaged disk_damaged world0 (line ["tree"; "file.nxs"]) = ([], usr_dir disk_damaged, ([], Exn ValueError))
  /\ main x_damaged disk_damaged world0 (line ["install"; "--update"; "main"]) = ([], usr_dir disk_damaged, ([], Exn ValueError))
  /\ snd (snd (main x_damaged disk2 world0 (line ["tree"; "file.nxs"]))) = Ok tt
  /\ snd (snd (main x_damaged disk2 world0 (line ["install"; "--update"; "main"]))) = Ok tt.
Proof. split; [vm_compute; reflexivity|]. split; [vm_compute; reflexivity|]. split; vm_compute; reflexivity. Qed.
Print Assumptions C111_refuted.

(** so it is for every line: if the caches cannot be read the program fails as reading them
    does, and changes nothing *)
Theorem C111_caches : forall x k w argv e, cm_init (x_json x) k = Exn e -> main x k w argv = ([], usr_dir k, ([], Exn e)).
Proof. intros x k w argv e H. unfold main. cbn [cache_manager]. rewrite H. reflexivity. Qed.
Print Assumptions C111_caches.

(** and reading them succeeds exactly if every info file can be read, the dates can be compared,
    and there is a newest file set, with a hash if it has a ref *)
Theorem C111_starts : forall rj k, (exists c, cm_init rj k = Ok c)
  <-> readable rj (src_dir k) /\ readable rj (usr_dir k)
      /\ exists sets n fs, all_file_sets rj k = Ok sets /\ comparable sets /\ newest sets n fs /\ described fs.
Proof.
  intros rj k. split.
  - intros (c & H). unfold cm_init in H. destruct (all_file_sets rj k) as [sets|] eqn:A; cbn [rbind] in H; [|discriminate].
    destruct (all_sets_readable _ _ _ A) as [R1 R2]. split; [exact R1|]. split; [exact R2|].
    destruct (select_cases sets None (all_sets_NoDup _ _ _ A)) as [(C & fs & [[D E] | [_ E]] & [(r & Q & _) | (_ & n & Hn)]) | [[_ E] | [_ E]]]; rewrite E in H; try discriminate.
    exists sets, n, fs. auto.
  - intros (_ & _ & sets & n & fs & A & C & N & D). unfold cm_init. rewrite A. cbn [rbind].
    destruct (select_cases sets None (all_sets_NoDup _ _ _ A)) as [(_ & f & E & [(r & Q & _) | (_ & n' & N')]) | [[-> _] | [X _]]]; [discriminate | | | contradiction].
    + pose proof (newest_unique _ _ _ _ _ N N') as X. injection X as <- <-. destruct E as [[_ ->] | [X _]]; [eauto | contradiction].
    + destruct N as (b & a & X & _). destruct b; discriminate.
Qed.
Print Assumptions C111_starts.

(** with caches that can be read, the tree of an HDF5 file does not depend on them *)
Theorem C111_partial : forall x k k' w word ws items f sets sets', usable (x_json x) k sets -> usable (x_json x) k' sets' ->
  stands_for subcommands word (py "tree") -> line_of (tree_words (x_env x)) ws items -> said tree_file items = [f] -> ~ is_nxdl f ->
  snd (main x k w (word :: ws)) = snd (main x k' w (word :: ws)).
Proof.
  intros x k k' w word ws items f sets sets' U U' S L F NX.
  destruct (main_usable x k w (word :: ws) sets U) as (c & ref & _ & _ & M). destruct (main_usable x k' w (word :: ws) sets' U') as (c' & ref' & _ & _ & M').
  rewrite M, M'. destruct (in_dec (fun a b : tree_item => ltac:(decide equality; [apply (list_eq_dec N.eq_dec) | apply Z.eq_dec])) TUnknown items) as [I | I].
  - rewrite (proj1 (tree_line (x_env x) word ws items S L) (or_introl I)). reflexivity.
  - destruct (proj2 (tree_line (x_env x) word ws items S L) f I F) as (a & P & A & _). rewrite P. cbn [run_command snd]. unfold func_tree.
    destruct (endswith (ta_infile a) (py ".nxdl.xml")) eqn:X; [|reflexivity]. exfalso. apply NX. rewrite <- A. apply not_nxdl. exact X.
Qed.
Print Assumptions C111_partial.

Example C111_example : usable (x_json x0) disk2 (sets_of_disk disk2) /\ usable (x_json x0) disk3 (sets_of_disk disk3) /\ ~ is_nxdl fn
  /\ exists l, snd (main x0 disk3 world0 (line ["tree"; "file.nxs"])) = ([Printed l], Ok tt) /\ l <> [].
Proof.
  split; [exact usable2|]. split; [exact usable3|]. split; [exact not_nxdl0|]. eexists. split; [vm_compute; reflexivity | discriminate].
Qed.
