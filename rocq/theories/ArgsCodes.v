(** * How reading a command line can fail *)

From Coq Require Import List NArith ZArith Bool String Lia.
From Verif Require Import PyBase PyFacts Regex H5 Findings Cache Install Cli Args Spec_Cli Spec_Args CliFacts ArgsFacts ArgsEnd.
Import ListNotations.
Open Scope string_scope.
Open Scope list_scope.
Local Open Scope nat_scope.

Definition leaves (e : exn) : Prop := e = SystemExit 0 \/ e = SystemExit 2.
Definition from (opts : list opt) (k : word) : Prop := match k with WOpt o _ _ => In o opts | _ => True end.

Lemma find_opt_In : forall opts f o, find_opt opts f = Some o -> In o opts.
Proof. intros opts f o H. apply find_some in H. apply H. Qed.
Lemma all_flags_In : forall opts fo, In fo (all_flags opts) -> In (snd fo) opts.
Proof. intros opts fo I. apply in_flat_map in I. destruct I as (o & I & J). apply in_map_iff in J. destruct J as (f & <- & _). exact I. Qed.
Lemma tuples_from : forall opts w k, In k (option_tuples opts w) -> from opts k.
Proof.
  intros opts [|c [|d t]] k I; [destruct I | destruct I|]. cbn [option_tuples] in I. destruct (N.eqb d ch_dash).
  - assert (X : exists p x, In k (flat_map (fun fo => if startswith (fst fo) p then [WOpt (snd fo) (fst fo) x] else []) (all_flags opts))).
    { destruct (cut_eq (c :: d :: t)) as [[a b]|]; eauto. }
    destruct X as (p & x & X). apply in_flat_map in X. destruct X as (fo & J & K). destruct (startswith (fst fo) p); [|destruct K].
    destruct K as [<- | []]. cbn [from]. apply all_flags_In. exact J.
  - apply in_flat_map in I. destruct I as (fo & J & K). apply all_flags_In in J. destruct (str_eqb (fst fo) [ch_dash; d]).
    + destruct K as [<- | []]. exact J.
    + destruct (startswith (fst fo) (c :: d :: t)); [|destruct K]. destruct K as [<- | []]. exact J.
Qed.
Lemma classify_fails : forall E opts w, match classify E opts w with Ok k => from opts k | Exn e => leaves e end.
Proof.
  intros E opts [|c t]; [exact I|]. cbn [classify]. destruct (negb (N.eqb c ch_dash)); [exact I|].
  destruct (find_opt opts (c :: t)) eqn:F; [cbn [from]; eapply find_opt_In; eauto|]. destruct t as [|d t]; [exact I|].
  destruct (cut_eq (c :: d :: t)) as [[f x]|].
  - destruct (find_opt opts f) eqn:F'; [cbn [from]; eapply find_opt_In; eauto|].
    pose proof (tuples_from opts (c :: d :: t)) as T. destruct (option_tuples opts (c :: d :: t)) as [|r [|r' l]].
    + destruct (negative_number E _); [exact I|]. destruct (has_char _ _); exact I.
    + apply T. left. reflexivity.
    + right. reflexivity.
  - pose proof (tuples_from opts (c :: d :: t)) as T. destruct (option_tuples opts (c :: d :: t)) as [|r [|r' l]].
    + destruct (negative_number E _); [exact I|]. destruct (has_char _ _); exact I.
    + apply T. left. reflexivity.
    + right. reflexivity.
Qed.
Lemma classify_all_fails : forall E opts ws, match classify_all E opts ws with Ok l => Forall (fun wk => from opts (snd wk)) l /\ map fst l = ws | Exn e => leaves e end.
Proof.
  intros E opts ws. induction ws as [|w ws IH]; [split; [constructor | reflexivity]|]. cbn [classify_all]. pose proof (classify_fails E opts w) as C.
  destruct (classify E opts w) as [k|e]; [|exact C]. cbn [rbind]. destruct (classify_all E opts ws) as [l|e]; [|exact IH]. cbn [rbind]. destruct IH as (A & B).
  split; [constructor; assumption | cbn [map fst]; rewrite B; reflexivity].
Qed.

Definition found_from (opts : list opt) (f : found) : Prop :=
  Forall (fun ov => In (fst ov) opts) (fo_acts f) /\ match fo_wants f with Some o => In o opts | None => True end.
Lemma expand_fails : forall opts n x, List.length x <= n -> forall o flag sep, In o opts ->
  match expand opts o flag sep x with Ok f => found_from opts f | Exn e => leaves e end.
Proof.
  intros opts n. induction n as [|n IH]; intros x L o flag sep Io.
  - destruct x; [|cbn in L; lia]. cbn [expand]. destruct (takes_value o); [repeat constructor; exact Io|]. destruct flag as [|? [|? ?]]; right; reflexivity.
  - destruct x as [|d rest]; cbn [expand].
    + destruct (takes_value o); [repeat constructor; exact Io|]. destruct flag as [|? [|? ?]]; right; reflexivity.
    + destruct (takes_value o); [repeat constructor; exact Io|]. destruct flag as [|? [|c ?]]; [right; reflexivity | right; reflexivity|].
      destruct (N.eqb c ch_dash || sep || N.eqb d ch_dash); [right; reflexivity|].
      destruct (find_opt opts [ch_dash; d]) as [o'|] eqn:F; [|repeat constructor; exact Io]. apply find_opt_In in F.
      destruct rest as [|e rest]; [destruct (takes_value o'); repeat constructor; assumption|].
      assert (X : match (if N.eqb e ch_eq then expand opts o' [ch_dash; d] true rest else expand opts o' [ch_dash; d] false (e :: rest)) with
                  Ok f => found_from opts f | Exn e => leaves e end).
      { destruct (N.eqb e ch_eq); apply IH; try exact F; cbn [List.length] in *; lia. }
      destruct (if N.eqb e ch_eq then _ else _) as [f|x]; [|exact X]. cbn [rbind]. destruct X as (A & B). split; [constructor; assumption | exact B].
Qed.
Lemma word_options_fails : forall opts o flag x, In o opts -> match word_options opts o flag x with Ok f => found_from opts f | Exn e => leaves e end.
Proof.
  intros opts o flag [[sep x]|] I; cbn [word_options]; [apply (expand_fails opts (List.length x) x (le_n _)); exact I|].
  destruct (takes_value o); repeat constructor; exact I.
Qed.

(** options of punx exit with 0; numbers are numbers *)
Definition tidy (opts : list opt) : Prop := forall o c, In o opts -> o_kind o = OExit c -> c = 0%Z.
Definition numbers (E : env) (opts : list opt) (l : list (pystr * pystr)) : Prop :=
  forall d v, In (d, v) l -> exists o, In o opts /\ o_dest o = d /\ (o_kind o = OInt -> exists z, py_int_text E v = Ok z).
Lemma take_action_fails : forall E opts ov, tidy opts -> In (fst ov) opts ->
  match take_action E ov with Ok dv => numbers E opts [dv] | Exn e => leaves e end.
Proof.
  intros E opts [o v] T I. cbn [fst] in I. unfold take_action. cbn [fst snd]. destruct (o_kind o) eqn:K.
  - intros d x [X | []]. injection X as <- <-. exists o. rewrite K. repeat split; [exact I | discriminate].
  - intros d x [X | []]. injection X as <- <-. exists o. rewrite K. repeat split; [exact I | discriminate].
  - destruct (py_int_text E v) as [z|e] eqn:Z; [|right; reflexivity]. intros d x [X | []]. injection X as <- <-. exists o. repeat split; [exact I|]. intros _. exists z. exact Z.
  - left. rewrite (T o code I K). reflexivity.
Qed.
Lemma take_actions_fails : forall E opts l, tidy opts -> Forall (fun ov => In (fst ov) opts) l ->
  match take_actions E l with Ok a => numbers E opts a | Exn e => leaves e end.
Proof.
  intros E opts l T F. induction F as [|ov l I F IH]; [intros d v []|]. cbn [take_actions]. pose proof (take_action_fails E opts ov T I) as A.
  destruct (take_action E ov) as [dv|e]; [|exact A]. cbn [rbind]. destruct (take_actions E l) as [a|e]; [|exact IH]. cbn [rbind].
  intros d v [X | J]; [apply A; left; exact X | apply IH; exact J].
Qed.
Lemma scan_fails : forall E opts n k l, List.length l <= k -> forall s, tidy opts -> Forall (fun wk => from opts (snd wk)) l -> numbers E opts (s_acts s) ->
  match scan E opts n l s with Ok s' => numbers E opts (s_acts s') | Exn e => leaves e end.
Proof.
  intros E opts n k. induction k as [|k IH]; intros l L s T F N.
  - destruct l; [exact N | cbn in L; lia].
  - destruct l as [|[w kd] l]; [exact N|]. cbn [List.length] in L. inversion F as [|? ? Fw Fl]; subst. cbn [snd] in Fw. destruct kd as [|o flag x|].
    + cbn [scan]. apply IH; [lia | exact T | exact Fl|]. unfold take_word. destruct (s_open s); [destruct n|]; exact N.
    + cbn [scan]. cbn [from] in Fw. pose proof (word_options_fails opts o flag x Fw) as W.
      destruct (word_options opts o flag x) as [[acts wants extra]|e]; [|exact W]. destruct W as (Wa & Ww). cbn [fo_acts fo_wants] in Wa, Ww.
      assert (Nadd : forall a x, numbers E opts a -> numbers E opts (s_acts (add_acts a x (close s)))).
      { intros a x0 Na d v I. cbn [add_acts close s_acts] in I. apply in_app_iff in I. destruct I as [I | I]; [apply N; exact I | apply Na; exact I]. }
      destruct wants as [o'|].
      * destruct l as [|[v [|? ? ?|]] l]; [right; reflexivity | | right; reflexivity | right; reflexivity].
        pose proof (take_actions_fails E opts (acts ++ [(o', v)]) T) as A. destruct (take_actions E (acts ++ [(o', v)])) as [a|e]; cbn [rbind].
        -- inversion Fl; subst. apply IH; [cbn [List.length] in L; lia | exact T | assumption|]. apply Nadd, A. apply Forall_app. split; [exact Wa | repeat constructor; exact Ww].
        -- apply A. apply Forall_app. split; [exact Wa | repeat constructor; exact Ww].
      * pose proof (take_actions_fails E opts acts T Wa) as A. destruct (take_actions E acts) as [a|e]; cbn [rbind]; [|exact A].
        apply IH; [lia | exact T | exact Fl | apply Nadd; exact A].
    + cbn [scan]. apply IH; [lia | exact T | exact Fl|]. cbn [add_acts close s_acts]. rewrite app_nil_r. exact N.
Qed.
Lemma required_fails : forall E opts n s, numbers E opts (s_acts s) ->
  match required n s with Ok s => numbers E opts (s_acts s) | Exn e => leaves e end.
Proof. intros E opts n s H. unfold required. destruct n, (s_pos s); try exact H. right. reflexivity. Qed.
Lemma take_word_acts : forall n ws s, s_acts (fold_left (fun s w => take_word n w s) ws s) = s_acts s.
Proof.
  intros n ws. induction ws as [|w ws IH]; intros s; [reflexivity|]. cbn [fold_left]. rewrite IH. unfold take_word. destruct (s_open s), n; reflexivity.
Qed.
Lemma parse_words_fails : forall E opts n ws, tidy opts ->
  match parse_words E opts n ws with Ok s => numbers E opts (s_acts s) | Exn e => leaves e end.
Proof.
  intros E opts n ws T. unfold parse_words.
  assert (X : forall n' l, Forall (fun wk => from opts (snd wk)) l -> match scan E opts n' l start with Ok s => numbers E opts (s_acts s) | Exn e => leaves e end).
  { intros n' l F. exact (scan_fails E opts n' (List.length l) l (le_n _) start T F ltac:(intros d v [])). }
  destruct (cut_dashes ws) as [before [after|]].
  - pose proof (classify_all_fails E opts before) as C. destruct (classify_all E opts before) as [l|e]; [|exact C]. cbn [rbind].
    pose proof (X n l (proj1 C)) as S. destruct (scan E opts n l start) as [s|e]; [|exact S]. cbn [rbind].
    pose proof (X ManyArgs l (proj1 C)) as M. destruct (scan E opts ManyArgs l start) as [m|e]; [|exact M]. cbn [rbind].
    apply required_fails. rewrite take_word_acts.
    destruct n; [|destruct (s_open m)..]; try exact S; cbn [add_acts s_acts]; rewrite app_nil_r; exact S.
  - pose proof (classify_all_fails E opts ws) as C. destruct (classify_all E opts ws) as [l|e]; [|exact C]. cbn [rbind].
    pose proof (X n l (proj1 C)) as S. destruct (scan E opts n l start) as [s|e]; [|exact S]. cbn [rbind]. apply required_fails. exact S.
Qed.
Lemma last_act_In : forall d l v, last_act d l = Some v -> In (d, v) l.
Proof. intros d l v H. unfold last_act in H. apply in_rev. apply aget_In in H; [exact H | apply str_eqb_eq]. Qed.

Ltac tidy_table := intros o c I K; vm_compute in I; repeat (destruct I as [<- | I]; [cbn in K; try discriminate K; injection K as <-; reflexivity|]); destruct I.
Lemma tidy_punx : tidy opts_punx. Proof. tidy_table. Qed.
Lemma tidy_plain : tidy opts_plain. Proof. tidy_table. Qed.
Lemma tidy_install : tidy opts_install. Proof. tidy_table. Qed.
Lemma tidy_tree : tidy opts_tree. Proof. tidy_table. Qed.
Lemma tidy_validate : tidy opts_validate. Proof. tidy_table. Qed.

Lemma parse_command_fails : forall E c ws e, parse_command E c ws = Exn e -> leaves e.
Proof.
  intros E c ws e H. unfold parse_command in H.
  destruct (str_eqb c (py "configuration")).
  { pose proof (parse_words_fails E opts_plain NoArg ws tidy_plain) as P. destruct (parse_words E opts_plain NoArg ws); [discriminate|]. injection H as <-. exact P. }
  destruct (str_eqb c (py "demonstrate")).
  { pose proof (parse_words_fails E opts_plain NoArg ws tidy_plain) as P. destruct (parse_words E opts_plain NoArg ws); [discriminate|]. injection H as <-. exact P. }
  destruct (str_eqb c (py "install")).
  { pose proof (parse_words_fails E opts_install ManyArgs ws tidy_install) as P. destruct (parse_words E opts_install ManyArgs ws); [discriminate|]. injection H as <-. exact P. }
  destruct (str_eqb c (py "tree")).
  { pose proof (parse_words_fails E opts_tree OneArg ws tidy_tree) as P. destruct (parse_words E opts_tree OneArg ws) as [s|x]; [|injection H as <-; exact P].
    cbn [rbind] in H. destruct (last_act (py "max_array_items") (s_acts s)) as [v|] eqn:A; [|discriminate]. apply last_act_In in A.
    destruct (P _ _ A) as (o & I & D & K). assert (Ko : o_kind o = OInt).
    { vm_compute in I. repeat (destruct I as [<- | I]; [try reflexivity; exfalso; vm_compute in D; discriminate D|]). destruct I. }
    destruct (K Ko) as (z & Z). rewrite Z in H. discriminate. }
  destruct (str_eqb c (py "validate")).
  { pose proof (parse_words_fails E opts_validate OneArg ws tidy_validate) as P. destruct (parse_words E opts_validate OneArg ws); [discriminate|]. injection H as <-. exact P. }
  injection H as <-. right. reflexivity.
Qed.
Lemma top_fails : forall E l x e, Forall (fun wk => from opts_punx (snd wk)) l -> top E l x = Exn e -> leaves e.
Proof.
  intros E l. induction l as [|[w [|o flag xp|]] l IH]; intros x e F H; [discriminate | discriminate | |].
  - inversion F as [|? ? Fw Fl]; subst. cbn [snd from] in Fw. cbn [top] in H. pose proof (word_options_fails opts_punx o flag xp Fw) as W.
    destruct (word_options opts_punx o flag xp) as [f|x']; [|injection H as <-; exact W]. cbn [rbind] in H.
    pose proof (take_actions_fails E opts_punx (fo_acts f) tidy_punx (proj1 W)) as A. destruct (take_actions E (fo_acts f)) as [a|x']; [|injection H as <-; exact A].
    cbn [rbind] in H. eapply IH; eauto.
  - inversion F; subst. cbn [top] in H. eapply IH; eauto.
Qed.
Lemma parse_args_fails : forall E argv e, parse_args E argv = Exn e -> leaves e.
Proof.
  intros E argv e H. unfold parse_args in H.
  destruct (unabbreviate argv) as [ws|x] eqn:U.
  2:{ cbn [rbind] in H. injection H as <-. destruct argv as [|w rest]; [discriminate|]. cbn [unabbreviate] in U. destruct (startswith w (py "-")); [discriminate|].
      destruct (parse_subcommand subcommands w) as [c|y] eqn:S; [discriminate|]. injection U as <-. unfold parse_subcommand in S. cbv zeta beta in S.
      destruct (Nat.ltb 0 _ && _); [|destruct (existsb (str_eqb w) subcommands); [discriminate | injection S as <-; right; reflexivity]].
      destruct (Nat.ltb _ 2); [injection S as <-; right; reflexivity|]. destruct (filter _ _) as [|c [|c' l]];
        [injection S as <-; right; reflexivity | destruct (existsb (str_eqb c) subcommands); [discriminate | injection S as <-; right; reflexivity] | injection S as <-; right; reflexivity]. }
  cbn [rbind] in H. destruct (cut_dashes ws) as [before after].
  pose proof (classify_all_fails E opts_punx before) as C. destruct (classify_all E opts_punx before) as [l|x]; [|injection H as <-; exact C]. cbn [rbind] in H.
  destruct (top E l false) as [[[[c rest]|] extra]|x] eqn:T; [| |injection H as <-; exact (top_fails E l false x (proj1 C) T)].
  - cbn [rbind] in H. destruct (parse_command E c _) as [r|x] eqn:P; [|injection H as <-; eapply parse_command_fails; eauto]. cbn [rbind] in H.
    destruct (extra || snd r); [injection H as <-; right; reflexivity | discriminate].
  - cbn [rbind] in H. destruct (extra || is_some after); [injection H as <-; right; reflexivity | discriminate].
Qed.
