(** * What command lines mean *)

From Coq Require Import List NArith ZArith Bool String Lia.
From Verif Require Import PyBase PyFacts Regex H5 Findings Cache Install Cli Args Spec_Cli Spec_Number NumberFacts Spec_Args CliFacts ArgsFacts.
Import ListNotations.
Open Scope string_scope.
Open Scope list_scope.
Local Open Scope nat_scope.

(** ** From the line to the subcommand's own parser *)
Lemma top_all : forall E ws, Forall fine ws -> exists l, classify_all E opts_punx ws = Ok l /\ map fst l = ws.
Proof.
  intros E ws F. induction F as [|w ws W F (l & C & M)]; [exists []; split; reflexivity|].
  destruct (top_ok E w W) as (k & K). exists ((w, k) :: l). cbn [classify_all]. rewrite K, C. cbn [rbind map fst]. rewrite M. split; reflexivity.
Qed.
Lemma plain_fine : forall w, plain w -> fine w.
Proof. intros w P t ->. exfalso. apply P. exists (py "-" ++ t). reflexivity. Qed.
Lemma value_fine : forall E letters w, value_word E letters w -> fine w.
Proof.
  intros E letters w [P | [-> | [M | (c & rest & -> & N & _)]]]; [apply plain_fine, P | intros t H; discriminate H| |].
  - destruct (negative_second E w M) as (c & rest & -> & R). intros t H. injection H as -> _. exfalso. lia.
  - intros t H. injection H as -> _. exfalso. apply N. left. reflexivity.
Qed.
Lemma fine_dashes : forall w, fine w -> str_eqb (py "--") w = false.
Proof.
  intros w F. destruct (str_eqb (py "--") w) eqn:X; [|reflexivity]. apply str_eqb_eq in X. subst w. destruct (F [] eq_refl) as (c & t & X & _). discriminate.
Qed.
Lemma no_dashes : forall ws, Forall fine ws -> cut_dashes ws = (ws, None).
Proof. intros ws F. induction F as [|w ws W F IH]; [reflexivity|]. cbn [cut_dashes]. rewrite (fine_dashes w W), IH. reflexivity. Qed.
Lemma at_dashes : forall ws after, Forall fine ws -> cut_dashes (ws ++ py "--" :: after) = (ws, Some after).
Proof. intros ws after F. induction F as [|w ws W F IH]; [reflexivity|]. cbn [app cut_dashes]. rewrite (fine_dashes w W), IH. reflexivity. Qed.

Lemma parse_tail : forall E w c ws tail, parse_subcommand subcommands w = Ok c -> plain w -> plain c -> Forall fine ws ->
  tail = [] \/ (exists after, tail = py "--" :: after) ->
  parse_args E (w :: ws ++ tail) = (dor r <- parse_command E c (ws ++ tail) ; if snd r then Exn (SystemExit 2) else Ok (Some (fst r))).
Proof.
  intros E w c ws tail S P Pc F T. unfold parse_args.
  cbn [unabbreviate]. destruct (startswith w (py "-")) eqn:X; [apply startswith_prefix in X; contradiction|].
  rewrite S. cbn [rbind].
  assert (D : cut_dashes (c :: ws ++ tail) = (c :: ws, match tail with [] => None | _ :: after => Some after end)).
  { destruct T as [-> | (after & ->)].
    - rewrite app_nil_r. apply no_dashes. constructor; [apply plain_fine; exact Pc | exact F].
    - apply (at_dashes (c :: ws) after). constructor; [apply plain_fine; exact Pc | exact F]. }
  rewrite D. cbn [classify_all]. rewrite (plain_classify E opts_punx c Pc). cbn [rbind]. destruct (top_all E ws F) as (l & C & M).
  rewrite C. cbn [rbind top]. rewrite M.
  assert (Y : match (match tail with [] => None | _ :: after => Some after end) with Some ws0 => py "--" :: ws0 | None => [] end = tail).
  { destruct T as [-> | (after & ->)]; reflexivity. }
  rewrite Y. destruct (parse_command E c (ws ++ tail)) as [[cmd x]|e]; reflexivity.
Qed.
Lemma parse_line : forall E w c ws, parse_subcommand subcommands w = Ok c -> plain w -> plain c -> Forall fine ws ->
  parse_args E (w :: ws) = (dor r <- parse_command E c ws ; if snd r then Exn (SystemExit 2) else Ok (Some (fst r))).
Proof.
  intros E w c ws S P Pc F. pose proof (parse_tail E w c ws [] S P Pc F (or_introl eq_refl)) as H. rewrite app_nil_r in H. exact H.
Qed.

(** ** Effects *)
Inductive eff := EWord (w : pystr) | EActs (a : list (pystr * pystr)) | EExtra.
Definition apply_eff (n : nargs) (e : eff) (s : scanned) : scanned :=
  match e with
  | EWord w => take_word n w s
  | EActs a => add_acts a false (close s)
  | EExtra => add_acts [] true (close s)
  end.
Definition eff_acts (e : eff) : list (pystr * pystr) := match e with EActs a => a | _ => [] end.
Definition eff_word (e : eff) : option pystr := match e with EWord w => Some w | _ => None end.
Definition is_extra (e : eff) : bool := match e with EExtra => true | _ => false end.

Lemma one_closed : forall l a p x, p <> [] ->
  fold_left (fun s e => apply_eff OneArg e s) l (mkSc a p false x)
  = mkSc (a ++ flat_map eff_acts l) p false (x || existsb is_extra l || Nat.ltb 0 (List.length (said eff_word l))).
Proof.
  induction l as [|e l IH]; intros a p x N; [cbn; rewrite app_nil_r, !orb_false_r; reflexivity|]. cbn [fold_left].
  destruct e as [w|b|]; cbn [apply_eff]; unfold take_word, close, add_acts; cbn [s_open s_acts s_pos s_extra].
  - rewrite IH by exact N. unfold said. cbn [flat_map eff_acts app existsb is_extra said eff_word]. rewrite !orb_true_r. reflexivity.
  - destruct p; [contradiction|]. rewrite IH by discriminate. unfold said. cbn [flat_map eff_acts existsb is_extra said eff_word app]. rewrite app_assoc, orb_false_r. reflexivity.
  - destruct p; [contradiction|]. rewrite IH by discriminate. unfold said. cbn [flat_map eff_acts existsb is_extra said eff_word app]. rewrite app_nil_r. destruct x; reflexivity.
Qed.
Lemma one_open : forall l a x,
  fold_left (fun s e => apply_eff OneArg e s) l (mkSc a [] true x)
  = mkSc (a ++ flat_map eff_acts l) (firstn 1 (said eff_word l)) (Nat.eqb 0 (List.length (said eff_word l)))
         (x || existsb is_extra l || Nat.ltb 1 (List.length (said eff_word l))).
Proof.
  induction l as [|e l IH]; intros a x; [cbn; rewrite app_nil_r, !orb_false_r; reflexivity|]. cbn [fold_left].
  destruct e as [w|b|]; cbn [apply_eff]; unfold take_word, close, add_acts; cbn [s_open s_acts s_pos s_extra].
  - rewrite one_closed by discriminate. reflexivity.
  - rewrite IH. unfold said. cbn [flat_map eff_acts existsb is_extra said eff_word app]. rewrite app_assoc, orb_false_r. reflexivity.
  - rewrite IH. unfold said. cbn [flat_map eff_acts existsb is_extra said eff_word app]. rewrite app_nil_r. destruct x; reflexivity.
Qed.

(** the words of a parser with one positional argument *)
Lemma one_words : forall E opts ws (effs : list eff), Forall fine ws -> line_of (fun w e => reads E opts OneArg w (apply_eff OneArg e)) ws effs ->
  parse_words E opts OneArg ws
  = match said eff_word effs with
    | [] => Exn (SystemExit 2)
    | f :: rest => Ok (mkSc (flat_map eff_acts effs) [f] false (existsb is_extra effs || Nat.ltb 0 (List.length rest)))
    end.
Proof.
  intros E opts ws effs Fi L. unfold parse_words. rewrite (no_dashes ws Fi).
  destruct (reads_all E opts OneArg _ (apply_eff OneArg) (fun _ _ H => H) ws effs L start) as (l & C & S).
  rewrite C. cbn [rbind]. rewrite S. cbn [rbind]. unfold start. rewrite one_open. unfold required. cbn [s_pos]. destruct (said eff_word effs) as [|f rest]; reflexivity.
Qed.

(** options *)
Lemma last_act_app : forall dest l d v, last_act dest (l ++ [(d, v)]) = if str_eqb dest d then Some v else last_act dest l.
Proof. intros. unfold last_act. rewrite rev_app_distr. reflexivity. Qed.
Lemma last_said_app : forall A B (f : A -> option B) l x, last_said f (l ++ [x]) = match f x with Some y => Some y | None => last_said f l end.
Proof.
  intros. unfold last_said, said. rewrite flat_map_app. cbn [flat_map]. rewrite app_nil_r. destruct (f x); [rewrite rev_app_distr; reflexivity|].
  rewrite app_nil_r. reflexivity.
Qed.

(** items have effects *)
Lemma choose_effects : forall A E opts (words : list pystr -> A -> Prop) (R : A -> eff -> Prop),
  (forall ws i, words ws i -> exists e, R i e /\ forall n, reads E opts n ws (apply_eff n e)) ->
  forall line items, line_of words line items ->
  exists effs, Forall2 R items effs /\ line_of (fun w e => forall n, reads E opts n w (apply_eff n e)) line effs.
Proof.
  intros A E opts words R H line items (l & F & ->). induction F as [|ws i l items W F (effs & R' & (l' & F' & X))].
  - exists []. split; [constructor|]. exists []. split; [constructor | reflexivity].
  - destruct (H ws i W) as (e & Re & Rd). exists (e :: effs). split; [constructor; assumption|]. exists (ws :: l'). split; [constructor; assumption|].
    cbn [List.concat]. rewrite X. reflexivity.
Qed.
Lemma line_at : forall E opts n line effs, line_of (fun w e => forall n, reads E opts n w (apply_eff n e)) line effs ->
  line_of (fun w e => reads E opts n w (apply_eff n e)) line effs.
Proof. intros E opts n line effs (l & F & X). exists l. split; [|exact X]. clear -F. induction F as [|w e l effs H F IH]; [constructor|]. constructor; [apply H | exact IH]. Qed.
Lemma said_related : forall A (R : A -> eff -> Prop) (f : A -> option pystr), (forall i e, R i e -> eff_word e = f i) ->
  forall items effs, Forall2 R items effs -> said eff_word effs = said f items.
Proof.
  intros A R f H items effs F. induction F as [|i e items effs Re F IH]; [reflexivity|]. unfold said in *. cbn [flat_map]. rewrite (H i e Re), IH. reflexivity.
Qed.

(** ** Words that do not disturb the first parser *)
Lemma fine_third : forall c t, c <> ch_eq -> fine (py "--" ++ c :: t).
Proof. intros c t N r X. apply app_inv_head in X. subst r. exists c, t. auto. Qed.
Lemma fine_short : forall c t, c <> ch_dash -> fine (py "-" ++ c :: t).
Proof. intros c t N r X. injection X as X _. contradiction. Qed.
Lemma long_fine : forall c full w t, c <> ch_eq -> long_option (py "--" ++ [c]) full w -> fine (w ++ t).
Proof. intros c full w t N ((r & ->) & _). rewrite <- !app_assoc. cbn [app]. apply fine_third. exact N. Qed.
Lemma unknown_fine : forall E letters known w, In (py "--help") known -> unknown_option E letters known w -> fine w.
Proof.
  intros E letters known w K [((t & ->) & _ & Eq & U) | (c & rest & -> & N & _)] r X.
  - apply app_inv_head in X. subst r. destruct t as [|c t].
    + exfalso. apply (U _ K). exists (py "help"). reflexivity.
    + exists c, t. split; [reflexivity|]. intros ->. apply Eq. right. right. left. reflexivity.
  - injection X as -> _. exfalso. apply N. left. reflexivity.
Qed.
Lemma line_fine : forall A (words : list pystr -> A -> Prop) line items, (forall ws i, words ws i -> Forall fine ws) -> line_of words line items -> Forall fine line.
Proof.
  intros A words line items H (l & F & ->). induction F as [|ws i l items W F IH]; [constructor|]. cbn [List.concat]. apply Forall_app. split; [eapply H; eauto | exact IH].
Qed.

Lemma tree_fine : forall E ws i, tree_words E ws i -> Forall fine ws.
Proof.
  intros E ws i W. destruct W as [f P | | w s z O Z NW | w s z O Z | s z Z | w U]; try apply int_number in Z.
  - constructor; [eapply value_fine; exact P | constructor].
  - constructor; [apply (fine_short 97 []); discriminate | constructor].
  - constructor; [|constructor; [eapply value_fine; eauto | constructor]]. destruct O as [-> | L]; [apply (fine_short 109 []); discriminate|].
    rewrite <- (app_nil_r w). apply (long_fine 109%N _ w [] ltac:(discriminate) L).
  - constructor; [|constructor]. destruct O as [-> | L]; [apply (fine_short 109 (py "=" ++ s)); discriminate|]. apply (long_fine 109%N _ w _ ltac:(discriminate) L).
  - constructor; [apply (fine_short 109 s); discriminate | constructor].
  - constructor; [eapply unknown_fine; [|exact U]; left; reflexivity | constructor].
Qed.
Lemma validate_fine : forall E ws i, validate_words E ws i -> Forall fine ws.
Proof.
  intros E ws i W. destruct W as [f P | w s O P | w s O | s N Q | w s O P | w s O | w U].
  - constructor; [eapply value_fine; exact P | constructor].
  - constructor; [|constructor; [eapply value_fine; exact P | constructor]]. destruct O as [-> | L]; [apply (fine_short 102 []); discriminate|].
    rewrite <- (app_nil_r w). apply (long_fine 102%N _ w [] ltac:(discriminate) L).
  - constructor; [|constructor]. destruct O as [-> | L]; [apply (fine_short 102 (py "=" ++ s)); discriminate|]. apply (long_fine 102%N _ w _ ltac:(discriminate) L).
  - constructor; [apply (fine_short 102 s); discriminate | constructor].
  - constructor; [|constructor; [eapply value_fine; exact P | constructor]].
    rewrite <- (app_nil_r w). apply (long_fine 114%N _ w [] ltac:(discriminate) O).
  - constructor; [|constructor]. apply (long_fine 114%N _ w _ ltac:(discriminate) O).
  - constructor; [eapply unknown_fine; [|exact U]; left; reflexivity | constructor].
Qed.
Lemma install_fine : forall E ws i, install_words E ws i -> Forall fine ws.
Proof.
  intros E ws i W. destruct W as [f P | w O | w U].
  - constructor; [eapply value_fine; exact P | constructor].
  - constructor; [|constructor]. destruct O as [-> | L]; [apply (fine_short 117 []); discriminate|].
    rewrite <- (app_nil_r w). apply (long_fine 117%N _ w [] ltac:(discriminate) L).
  - constructor; [eapply unknown_fine; [|exact U]; left; reflexivity | constructor].
Qed.

(** ** punx tree *)
Definition tree_eff (E : env) (i : tree_item) (e : eff) : Prop :=
  match i with
  | TFile f => e = EWord f
  | TNoAttributes => e = EActs [(py "show_attributes", [])]
  | TItems z => exists s, e = EActs [(py "max_array_items", s)] /\ py_int_text E s = Ok z
  | TUnknown => e = EExtra
  end.
Lemma known_flags : forall opts known, forallb (fun fo => implb (startswith (fst fo) (py "--")) (existsb (str_eqb (fst fo)) known)) (all_flags opts) = true ->
  forall fo, In fo (all_flags opts) -> prefix_of (py "--") (fst fo) -> In (fst fo) known.
Proof.
  intros opts known H fo I P. rewrite forallb_forall in H. specialize (H fo I). cbv beta in H. apply startswith_prefix in P. rewrite P in H. cbn [implb] in H.
  apply existsb_exists in H. destruct H as (x & J & X). apply str_eqb_eq in X. rewrite X. exact J.
Qed.
Lemma tree_reads : forall E ws i, tree_words E ws i -> exists e, tree_eff E i e /\ forall n, reads E opts_tree n ws (apply_eff n e).
Proof.
  intros E ws i W. destruct W as [f P | | w s z O Z NW | w s z O Z | s z Z | w U]; try apply int_number in Z.
  - exists (EWord f). split; [reflexivity | intros n; eapply reads_word; [|exact P]; reflexivity].
  - exists (EActs [(py "show_attributes", [])]). split; [reflexivity|]. intros n.
    apply (reads_flag E opts_tree n (py "-a") (mkOpt [py "-a"] OFlag (py "show_attributes")) (py "-a")); reflexivity.
  - exists (EActs [(py "max_array_items", s)]). split; [exists s; auto|]. intros n. destruct (items_classify E w O) as (f & C).
    apply (reads_value E opts_tree n w o_items f s); [exact C | reflexivity | eapply value_classify; [|exact NW]; reflexivity|].
    unfold take_action. cbn [fst snd o_items o_kind o_dest]. rewrite Z. reflexivity.
  - exists (EActs [(py "max_array_items", s)]). split; [exists s; auto|]. intros n. destruct (items_equals E w s O) as (f & C).
    apply (reads_explicit E opts_tree n _ o_items f true s); [exact C | reflexivity|].
    unfold take_action. cbn [fst snd o_items o_kind o_dest]. rewrite Z. reflexivity.
  - exists (EActs [(py "max_array_items", s)]). split; [exists s; auto|]. intros n. destruct s as [|d s]; [discriminate|].
    apply (reads_explicit E opts_tree n _ o_items (py "-m") false (d :: s)); [apply items_joined | reflexivity|].
    + intros ->. apply int_number in Z. exact (number_no_equals _ _ _ Z).
    + unfold take_action. cbn [fst snd o_items o_kind o_dest]. rewrite Z. reflexivity.
  - exists EExtra. split; [reflexivity|]. intros n. apply (reads_unknown E opts_tree n w). eapply unknown_classify; [| |exact U]; [reflexivity | apply known_flags; reflexivity].
Qed.

Lemma tree_effects : forall E items effs, Forall2 (tree_eff E) items effs ->
  (existsb is_extra effs = true <-> In TUnknown items)
  /\ (last_act (py "show_attributes") (flat_map eff_acts effs) <> None <-> In TNoAttributes items)
  /\ match last_said tree_items items with
     | Some z => exists s, last_act (py "max_array_items") (flat_map eff_acts effs) = Some s /\ py_int_text E s = Ok z
     | None => last_act (py "max_array_items") (flat_map eff_acts effs) = None
     end.
Proof.
  intros E items. induction items as [|i items IH] using rev_ind; intros effs F.
  - inversion F; subst. cbn. split; [split; [discriminate | intros []]|]. split; [split; [intros H; exfalso; apply H; reflexivity | intros []] | reflexivity].
  - apply Forall2_app_inv_l in F. destruct F as (e1 & e2 & F1 & F2 & ->). inversion F2 as [|? e ? ? R F3]; subst. inversion F3; subst.
    specialize (IH e1 F1). destruct IH as (A & B & C). rewrite existsb_app, flat_map_app, last_said_app. cbn [existsb flat_map]. rewrite !app_nil_r, !orb_false_r.
    rewrite !in_app_iff. destruct i as [f | | z |]; cbn [tree_eff] in R; cbn [tree_items].
    + subst e. cbn [is_extra eff_acts]. rewrite orb_false_r, app_nil_r. split; [|split; [|exact C]].
      * rewrite A. split; [auto | intros [H | [H | []]]; [exact H | discriminate]].
      * rewrite B. split; [auto | intros [H | [H | []]]; [exact H | discriminate]].
    + subst e. cbn [is_extra eff_acts]. rewrite orb_false_r, !last_act_app. split; [|split].
      * rewrite A. split; [auto | intros [H | [H | []]]; [exact H | discriminate]].
      * change (str_eqb (py "show_attributes") (py "show_attributes")) with true. split; [intros _; right; left; reflexivity | discriminate].
      * change (str_eqb (py "max_array_items") (py "show_attributes")) with false. exact C.
    + destruct R as (s & -> & Z). cbn [is_extra eff_acts]. rewrite orb_false_r, !last_act_app. split; [|split].
      * rewrite A. split; [auto | intros [H | [H | []]]; [exact H | discriminate]].
      * change (str_eqb (py "show_attributes") (py "max_array_items")) with false. rewrite B. split; [auto | intros [H | [H | []]]; [exact H | discriminate]].
      * change (str_eqb (py "max_array_items") (py "max_array_items")) with true. exists s. auto.
    + subst e. cbn [is_extra eff_acts]. rewrite orb_true_r, app_nil_r. split; [|split; [|exact C]].
      * split; [intros _; right; left; reflexivity | reflexivity].
      * rewrite B. split; [auto | intros [H | [H | []]]; [exact H | discriminate]].
Qed.

(** every subcommand's words *)
Lemma punx_subcommands_NoDup : NoDup subcommands.
Proof. repeat constructor; cbn; intuition discriminate. Qed.
Lemma stands_line : forall w c, stands_for subcommands w c -> parse_subcommand subcommands w = Ok c /\ plain w /\ plain c.
Proof.
  intros w c S. split; [apply (subcommand_spec subcommands w punx_subcommands_NoDup); exact S|]. destruct S as (I & S).
  assert (P : plain c).
  { intros (r & X). cbn [subcommands In] in I. destruct I as [I|[I|[I|[I|[I|[]]]]]]; rewrite <- I in X; discriminate X. }
  split; [|exact P]. destruct S as [-> | (_ & L & (r & X) & _)]; [exact P|]. intros (t & ->). apply P. exists (t ++ r). rewrite X. reflexivity.
Qed.

Lemma tree_line : forall E w line items, stands_for subcommands w (py "tree") -> line_of (tree_words E) line items ->
  (In TUnknown items \/ List.length (said tree_file items) <> 1 -> parse_args E (w :: line) = Exn (SystemExit 2))
  /\ (forall f, ~ In TUnknown items -> said tree_file items = [f] ->
       exists a, parse_args E (w :: line) = Ok (Some (CTree a)) /\ ta_infile a = f
         /\ (ta_attributes a = true <-> ~ In TNoAttributes items)
         /\ ta_items a = match last_said tree_items items with Some z => z | None => 5%Z end).
Proof.
  intros E w line items S L. destruct (stands_line _ _ S) as (Sub & P & Pc).
  pose proof (line_fine _ _ _ _ (tree_fine E) L) as Fi. rewrite (parse_line E w (py "tree") line Sub P Pc Fi).
  destruct (choose_effects _ E opts_tree (tree_words E) (tree_eff E) (tree_reads E) line items L) as (effs & F & L').
  assert (Sd : said eff_word effs = said tree_file items).
  { apply (said_related _ (tree_eff E)); [|exact F]. intros i e R. destruct i; cbn [tree_eff] in R; [subst e; reflexivity | subst e; reflexivity | destruct R as (s & -> & _); reflexivity | subst e; reflexivity]. }
  destruct (tree_effects E items effs F) as (A & B & C).
  change (parse_command E (py "tree") line) with
    (dor s <- parse_words E opts_tree OneArg line ;
     dor z <- match last_act (py "max_array_items") (s_acts s) with Some v => py_int_text E v | None => Ok 5%Z end ;
     Ok (CTree (mkTA (hd [] (s_pos s)) (negb (is_some (last_act (py "show_attributes") (s_acts s)))) z), s_extra s)).
  rewrite (one_words E opts_tree line effs Fi (line_at _ _ _ _ _ L')), Sd.
  assert (Z : forall acts, acts = flat_map eff_acts effs -> match last_act (py "max_array_items") acts with Some v => py_int_text E v | None => Ok 5%Z end
              = Ok (match last_said tree_items items with Some z => z | None => 5%Z end)).
  { intros acts ->. destruct (last_said tree_items items); [destruct C as (s & -> & Zs); exact Zs | rewrite C; reflexivity]. }
  split.
  - intros H. destruct (said tree_file items) as [|f rest] eqn:T; [reflexivity|]. cbn [rbind s_acts s_pos s_extra hd]. rewrite (Z _ eq_refl). cbn [rbind snd].
    destruct H as [U | N].
    + apply A in U. rewrite U. reflexivity.
    + destruct rest as [|g rest]; [exfalso; apply N; reflexivity|]. cbn [List.length]. rewrite orb_true_r. reflexivity.
  - intros f NU Sf. rewrite Sf. cbn [rbind s_acts s_pos s_extra hd]. rewrite (Z _ eq_refl). cbn [rbind snd List.length].
    assert (X : existsb is_extra effs = false) by (destruct (existsb is_extra effs); [exfalso; apply NU, A; reflexivity | reflexivity]).
    rewrite X. eexists. split; [reflexivity|]. cbn [ta_infile ta_attributes ta_items]. split; [reflexivity|]. split; [|reflexivity].
    rewrite <- B. destruct (last_act (py "show_attributes") (flat_map eff_acts effs)); cbn [is_some negb].
    + split; [discriminate | intros H; exfalso; apply H; discriminate].
    + split; [intros _ H; apply H; reflexivity | reflexivity].
Qed.

(** ** punx validate *)
Definition validate_eff (i : validate_item) (e : eff) : Prop :=
  e = match i with
      | VFile f => EWord f
      | VSet n => EActs [(py "file_set_name", n)]
      | VReport r => EActs [(py "report", r)]
      | VUnknown => EExtra
      end.
Lemma validate_reads : forall E ws i, validate_words E ws i -> exists e, validate_eff i e /\ forall n, reads E opts_validate n ws (apply_eff n e).
Proof.
  intros E ws i W. destruct W as [f P | w s O P | w s O | s N Q | w s O P | w s O | w U]; (eexists; split; [reflexivity | intros n0]).
  - eapply reads_word; [|exact P]; reflexivity.
  - destruct (set_classify E w O) as (f & C).
    apply (reads_value E opts_validate n0 w o_set f s); [exact C | reflexivity | eapply value_classify; [|exact P]; reflexivity | reflexivity].
  - destruct (set_equals E w s O) as (f & C). apply (reads_explicit E opts_validate n0 _ o_set f true s); [exact C | reflexivity | reflexivity].
  - destruct s as [|d s]; [contradiction|].
    apply (reads_explicit E opts_validate n0 _ o_set (py "-f") false (d :: s)); [apply set_joined | reflexivity | reflexivity].
    intros ->. apply Q. exists s. reflexivity.
  - destruct (report_classify E w O) as (f & C).
    apply (reads_value E opts_validate n0 w o_report f s); [exact C | reflexivity | eapply value_classify; [|exact P]; reflexivity | reflexivity].
  - destruct (report_equals E w s O) as (f & C). apply (reads_explicit E opts_validate n0 _ o_report f true s); [exact C | reflexivity | reflexivity].
  - apply (reads_unknown E opts_validate n0 w). eapply unknown_classify; [| |exact U]; [reflexivity | apply known_flags; reflexivity].
Qed.
Lemma validate_effects : forall items effs, Forall2 validate_eff items effs ->
  (existsb is_extra effs = true <-> In VUnknown items)
  /\ last_act (py "file_set_name") (flat_map eff_acts effs) = last_said validate_set items
  /\ last_act (py "report") (flat_map eff_acts effs) = last_said validate_report items.
Proof.
  intros items. induction items as [|i items IH] using rev_ind; intros effs F.
  - inversion F; subst. cbn. split; [split; [discriminate | intros []]|]. split; reflexivity.
  - apply Forall2_app_inv_l in F. destruct F as (e1 & e2 & F1 & F2 & ->). inversion F2 as [|? e ? ? R F3]; subst. inversion F3; subst.
    specialize (IH e1 F1). destruct IH as (A & B & C). rewrite existsb_app, flat_map_app, !last_said_app. cbn [existsb flat_map]. rewrite !app_nil_r, !orb_false_r.
    rewrite !in_app_iff. unfold validate_eff in R. subst e.
    assert (X : In VUnknown items \/ In VUnknown [i] <-> In VUnknown items \/ i = VUnknown) by (cbn [In]; tauto).
    rewrite X. destruct i as [f | n | r |]; cbn [is_extra eff_acts validate_set validate_report]; rewrite ?orb_false_r, ?orb_true_r, ?app_nil_r, ?last_act_app.
    + split; [rewrite A; split; [auto | intros [H | H]; [exact H | discriminate]]|]. split; assumption.
    + split; [rewrite A; split; [auto | intros [H | H]; [exact H | discriminate]]|].
      change (str_eqb (py "file_set_name") (py "file_set_name")) with true. change (str_eqb (py "report") (py "file_set_name")) with false. split; [reflexivity | assumption].
    + split; [rewrite A; split; [auto | intros [H | H]; [exact H | discriminate]]|].
      change (str_eqb (py "file_set_name") (py "report")) with false. change (str_eqb (py "report") (py "report")) with true. split; [assumption | reflexivity].
    + split; [split; auto|]. split; assumption.
Qed.
Lemma validate_line : forall E w line items, stands_for subcommands w (py "validate") -> line_of (validate_words E) line items ->
  (In VUnknown items \/ List.length (said validate_file items) <> 1 -> parse_args E (w :: line) = Exn (SystemExit 2))
  /\ (forall f, ~ In VUnknown items -> said validate_file items = [f] ->
       parse_args E (w :: line) = Ok (Some (CValidate f (last_said validate_set items) (last_said validate_report items)))).
Proof.
  intros E w line items S L. destruct (stands_line _ _ S) as (Sub & P & Pc).
  pose proof (line_fine _ _ _ _ (validate_fine E) L) as Fi. rewrite (parse_line E w (py "validate") line Sub P Pc Fi).
  destruct (choose_effects _ E opts_validate (validate_words E) validate_eff (validate_reads E) line items L) as (effs & F & L').
  assert (Sd : said eff_word effs = said validate_file items).
  { apply (said_related _ validate_eff); [|exact F]. intros i e R. unfold validate_eff in R. subst e. destruct i; reflexivity. }
  destruct (validate_effects items effs F) as (A & B & C).
  change (parse_command E (py "validate") line) with
    (dor s <- parse_words E opts_validate OneArg line ;
     Ok (CValidate (hd [] (s_pos s)) (last_act (py "file_set_name") (s_acts s)) (last_act (py "report") (s_acts s)), s_extra s)).
  rewrite (one_words E opts_validate line effs Fi (line_at _ _ _ _ _ L')), Sd. split.
  - intros H. destruct (said validate_file items) as [|f rest] eqn:T; [reflexivity|]. cbn [rbind s_acts s_pos s_extra hd snd].
    destruct H as [U | N].
    + apply A in U. rewrite U. reflexivity.
    + destruct rest as [|g rest]; [exfalso; apply N; reflexivity|]. cbn [List.length]. rewrite orb_true_r. reflexivity.
  - intros f NU Sf. rewrite Sf. cbn [rbind s_acts s_pos s_extra hd snd fst List.length].
    assert (X : existsb is_extra effs = false) by (destruct (existsb is_extra effs); [exfalso; apply NU, A; reflexivity | reflexivity]).
    rewrite X, B, C. reflexivity.
Qed.

(** ** punx install *)
Definition install_eff (i : install_item) (e : eff) : Prop :=
  e = match i with IName n => EWord n | IUpdate => EActs [(py "update", [])] | IUnknown => EExtra end.
Lemma install_reads : forall E ws i, install_words E ws i -> exists e, install_eff i e /\ forall n, reads E opts_install n ws (apply_eff n e).
Proof.
  intros E ws i W. destruct W as [f P | w O | w U]; (eexists; split; [reflexivity | intros n0]).
  - eapply reads_word; [|exact P]; reflexivity.
  - destruct (update_classify E w O) as (f & C). apply (reads_flag E opts_install n0 w o_update f); [exact C | reflexivity | reflexivity].
  - apply (reads_unknown E opts_install n0 w). eapply unknown_classify; [| |exact U]; [reflexivity | apply known_flags; reflexivity].
Qed.
Notation many l := (fold_left (fun s e => apply_eff ManyArgs e s) l).
(** after the names *)
Lemma many_closed : forall l a p x, p <> [] ->
  many l (mkSc a p false x) = mkSc (a ++ flat_map eff_acts l) p false (x || existsb is_extra l || Nat.ltb 0 (List.length (said eff_word l))).
Proof.
  induction l as [|e l IH]; intros a p x N; [cbn; rewrite app_nil_r, !orb_false_r; reflexivity|]. cbn [fold_left].
  destruct e as [w|b|]; cbn [apply_eff]; unfold take_word, close, add_acts; cbn [s_open s_acts s_pos s_extra].
  - rewrite IH by exact N. unfold said. cbn [flat_map eff_acts app existsb is_extra eff_word List.length]. destruct x, (existsb is_extra l); reflexivity.
  - destruct p; [contradiction|]. rewrite IH by discriminate. unfold said. cbn [flat_map eff_acts existsb is_extra eff_word app]. rewrite app_assoc, orb_false_r. reflexivity.
  - destruct p; [contradiction|]. rewrite IH by discriminate. unfold said. cbn [flat_map eff_acts existsb is_extra eff_word app]. rewrite app_nil_r. destruct x; reflexivity.
Qed.
(** among the names *)
Lemma many_names : forall ns a p x, many (map EWord ns) (mkSc a p true x) = mkSc a (p ++ ns) true x.
Proof.
  induction ns as [|n ns IH]; intros a p x; [cbn; rewrite app_nil_r; reflexivity|]. cbn [map fold_left apply_eff]. unfold take_word. cbn [s_open s_acts s_pos s_extra].
  rewrite IH, <- app_assoc. reflexivity.
Qed.
(** before the names *)
Lemma many_before : forall l a x, said eff_word l = [] ->
  many l (mkSc a [] true x) = mkSc (a ++ flat_map eff_acts l) [] true (x || existsb is_extra l).
Proof.
  induction l as [|e l IH]; intros a x S; [cbn; rewrite app_nil_r, !orb_false_r; reflexivity|]. cbn [fold_left].
  destruct e as [w|b|]; [discriminate | |]; cbn [apply_eff]; unfold close, add_acts; cbn [s_open s_acts s_pos s_extra]; (rewrite IH by exact S); cbn [flat_map eff_acts existsb is_extra].
  - rewrite app_assoc, orb_false_r. reflexivity.
  - rewrite app_nil_r. destruct x; reflexivity.
Qed.
(** an item that is no name ends the names *)
Lemma many_after : forall l a p x, p <> [] -> (forall e l', l = e :: l' -> eff_word e = None) ->
  s_extra (many l (mkSc a p true x)) = (x || existsb is_extra l || Nat.ltb 0 (List.length (said eff_word l)))
  /\ s_pos (many l (mkSc a p true x)) = p /\ s_acts (many l (mkSc a p true x)) = a ++ flat_map eff_acts l.
Proof.
  intros [|e l] a p x N H; [cbn; rewrite app_nil_r, !orb_false_r; auto|]. specialize (H e l eq_refl). cbn [fold_left].
  destruct e as [w|b|]; [discriminate | |]; cbn [apply_eff]; unfold close, add_acts; cbn [s_open s_acts s_pos s_extra]; (destruct p as [|p0 p]; [contradiction|]);
    (rewrite many_closed by discriminate); cbn [s_extra s_pos s_acts flat_map eff_acts existsb is_extra]; unfold said; cbn [flat_map eff_word app].
  - rewrite orb_false_r, app_assoc. auto.
  - rewrite app_nil_r. destruct x; auto.
Qed.

(** any list of effects is some without names, a block of names, and the rest *)
Lemma eff_blocks : forall l : list eff, exists a ns c, l = a ++ map EWord ns ++ c /\ said eff_word a = [] /\ (forall e c', c = e :: c' -> eff_word e = None) /\ (ns = [] -> c = []).
Proof.
  induction l as [|e l (a & ns & c & -> & A & C & N)]; [exists [], [], []; cbn; repeat split; auto; discriminate|].
  destruct e as [w|b|].
  - destruct a as [|e a].
    + exists [], (w :: ns), c. repeat split; [exact C | discriminate].
    + exists [], [w], ((e :: a) ++ map EWord ns ++ c). repeat split; [|discriminate]. intros e' c' X. injection X as -> _. destruct e'; [discriminate | reflexivity | reflexivity].
  - exists (EActs b :: a), ns, c. repeat split; [exact A | exact C | exact N].
  - exists (EExtra :: a), ns, c. repeat split; [exact A | exact C | exact N].
Qed.

Lemma many_words : forall E opts ws effs, Forall fine ws -> line_of (fun w e => reads E opts ManyArgs w (apply_eff ManyArgs e)) ws effs ->
  exists a ns c o, effs = a ++ map EWord ns ++ c /\ said eff_word a = [] /\ (ns = [] -> c = [])
    /\ (forall e c', c = e :: c' -> eff_word e = None)
    /\ parse_words E opts ManyArgs ws = Ok (mkSc (flat_map eff_acts effs) ns o (existsb is_extra effs || Nat.ltb 0 (List.length (said eff_word c)))).
Proof.
  intros E opts ws effs Fi L. destruct (eff_blocks effs) as (a & ns & c & X & A & C & N). 
  destruct (reads_all E opts ManyArgs _ (apply_eff ManyArgs) (fun _ _ H => H) ws effs L (mkSc [] [] true false)) as (l & Cl & S).
  assert (Q : exists o, many effs (mkSc [] [] true false) = mkSc (flat_map eff_acts effs) ns o (existsb is_extra effs || Nat.ltb 0 (List.length (said eff_word c)))).
  { rewrite X, !fold_left_app, many_before by exact A. rewrite many_names. cbn [app orb].
    assert (Fm : flat_map eff_acts (map EWord ns) = []) by (clear; induction ns as [|n ns IH]; [reflexivity | exact IH]).
    assert (Em : existsb is_extra (map EWord ns) = false) by (clear; induction ns as [|n ns IH]; [reflexivity | exact IH]).
    rewrite !flat_map_app, Fm, !existsb_app, Em. cbn [app orb].
    destruct ns as [|n ns].
    - rewrite (N eq_refl). cbn [fold_left flat_map existsb said List.length app]. rewrite app_nil_r, !orb_false_r. eexists. reflexivity.
    - destruct (many_after c (flat_map eff_acts a) (n :: ns) (existsb is_extra a) ltac:(discriminate) C) as (M1 & M2 & M3).
      destruct (many c (mkSc (flat_map eff_acts a) (n :: ns) true (existsb is_extra a))) as [acts pos o x]. cbn [s_extra s_pos s_acts] in M1, M2, M3. subst.
      exists o. reflexivity. }
  destruct Q as (o & Q). exists a, ns, c, o. split; [exact X|]. split; [exact A|]. split; [exact N|]. split; [exact C|].
  unfold parse_words. rewrite (no_dashes ws Fi), Cl. cbn [rbind]. unfold start. rewrite S. cbn [rbind]. rewrite Q. reflexivity.
Qed.

Lemma install_effects : forall items effs, Forall2 install_eff items effs ->
  (existsb is_extra effs = true <-> In IUnknown items)
  /\ (last_act (py "update") (flat_map eff_acts effs) <> None <-> In IUpdate items).
Proof.
  intros items. induction items as [|i items IH] using rev_ind; intros effs F.
  - inversion F; subst. cbn. split; [split; [discriminate | intros []]|]. split; [intros H; exfalso; apply H; reflexivity | intros []].
  - apply Forall2_app_inv_l in F. destruct F as (e1 & e2 & F1 & F2 & ->). inversion F2 as [|? e ? ? R F3]; subst. inversion F3; subst.
    specialize (IH e1 F1). destruct IH as (A & B). rewrite existsb_app, flat_map_app. cbn [existsb flat_map]. rewrite !app_nil_r, !orb_false_r.
    rewrite !in_app_iff. unfold install_eff in R. subst e.
    assert (X : forall j, In j items \/ In j [i] <-> In j items \/ i = j) by (intros j; cbn [In]; tauto).
    rewrite !X. destruct i as [n | |]; cbn [is_extra eff_acts]; rewrite ?orb_false_r, ?orb_true_r, ?app_nil_r, ?last_act_app.
    + rewrite A, B. split; (split; [auto | intros [H | H]; [exact H | discriminate]]).
    + change (str_eqb (py "update") (py "update")) with true. rewrite A. split; [split; [auto | intros [H | H]; [exact H | discriminate]]|]. split; [auto | discriminate].
    + rewrite B. split; [split; auto|]. split; [auto | intros [H | H]; [exact H | discriminate]].
Qed.
Lemma install_eff_items : forall items effs, Forall2 install_eff items effs -> items = map (fun e => match e with EWord n => IName n | EActs _ => IUpdate | EExtra => IUnknown end) effs.
Proof. intros items effs F. induction F as [|i e items effs R F IH]; [reflexivity|]. cbn [map]. rewrite <- IH. unfold install_eff in R. subst e. destruct i; reflexivity. Qed.

Lemma no_names : forall (l : list eff), said eff_word l = [] <-> forall n, ~ In (IName n) (map (fun e => match e with EWord n => IName n | EActs _ => IUpdate | EExtra => IUnknown end) l).
Proof.
  induction l as [|e l IH]; [split; [intros _ n [] | reflexivity]|]. unfold said in *. cbn [flat_map map]. destruct e as [w|b|]; cbn [eff_word app].
  - split; [discriminate | intros H; exfalso; apply (H w); left; reflexivity].
  - rewrite IH. split; [intros H n [X | I]; [discriminate | exact (H n I)] | intros H n I; apply (H n); right; exact I].
  - rewrite IH. split; [intros H n [X | I]; [discriminate | exact (H n I)] | intros H n I; apply (H n); right; exact I].
Qed.

Lemma said_nil : forall a l, (forall n, ~ In (IName n) l) -> said install_name (a ++ l) = said install_name a.
Proof.
  intros a l H. unfold said. rewrite flat_map_app. rewrite (flat_map_nil _ _ _ l), app_nil_r; [reflexivity|].
  intros [n | |] I; [exfalso; exact (H n I) | reflexivity | reflexivity].
Qed.
Lemma said_block : forall a ns c, (forall n, ~ In (IName n) a) -> (forall n, ~ In (IName n) c) -> said install_name (a ++ map IName ns ++ c) = ns.
Proof.
  intros a ns c A C. rewrite app_assoc, said_nil by exact C. unfold said. rewrite flat_map_app.
  rewrite (flat_map_nil _ _ _ a); [|intros [n | |] I; [exfalso; exact (A n I) | reflexivity | reflexivity]].
  clear. induction ns as [|n ns IH]; [reflexivity|]. cbn [map flat_map install_name app]. f_equal. exact IH.
Qed.
(** two names with something else between them do not stand together *)
Lemma not_together : forall l, names_together l -> forall a x b m c n d, l = a ++ IName x :: b ++ m :: c ++ IName n :: d -> (forall k, m <> IName k) -> False.
Proof.
  intros l (p & ns & q & -> & P & Q) a x b m c n d E M.
  assert (X : forall p a, (forall n, ~ In (IName n) p) -> p ++ map IName ns ++ q = a ++ IName x :: b ++ m :: c ++ IName n :: d -> exists a', a = p ++ a').
  { induction p0 as [|i p0 IH]; intros a0 H0 E0; [exists a0; reflexivity|]. destruct a0 as [|j a0].
    - injection E0 as -> _. exfalso. apply (H0 x). left. reflexivity.
    - injection E0 as -> E0. destruct (IH a0) as (a' & ->); [intros k I; apply (H0 k); right; exact I | exact E0 | exists a'; reflexivity]. }
  destruct (X p a P E) as (a' & ->). rewrite <- app_assoc in E. apply app_inv_head in E.
  assert (Y : forall ns r, map IName ns ++ q = r ++ m :: c ++ IName n :: d -> False).
  { induction ns0 as [|k ns0 IH]; intros r E0.
    - apply (Q n). cbn [map app] in E0. rewrite E0. apply in_app_iff. right. right. apply in_app_iff. right. left. reflexivity.
    - destruct r as [|j r]; [injection E0 as E0 _; exact (M k (eq_sym E0))|]. injection E0 as _ E0. exact (IH r E0). }
  apply (Y ns (a' ++ IName x :: b)). rewrite <- app_assoc. exact E.
Qed.

Lemma install_line : forall E w line items, stands_for subcommands w (py "install") -> line_of (install_words E) line items ->
  (In IUnknown items \/ ~ names_together items -> parse_args E (w :: line) = Exn (SystemExit 2))
  /\ (~ In IUnknown items -> names_together items ->
      exists u, parse_args E (w :: line) = Ok (Some (CInstall (match said install_name items with [] => [py "main"] | l => l end) u)) /\ (u = true <-> In IUpdate items)).
Proof.
  intros E w line items S L. destruct (stands_line _ _ S) as (Sub & P & Pc).
  pose proof (line_fine _ _ _ _ (install_fine E) L) as Fi. rewrite (parse_line E w (py "install") line Sub P Pc Fi).
  destruct (choose_effects _ E opts_install (install_words E) install_eff (install_reads E) line items L) as (effs & F & L').
  destruct (install_effects items effs F) as (A & B).
  change (parse_command E (py "install") line) with
    (dor s <- parse_words E opts_install ManyArgs line ;
     Ok (CInstall (match s_pos s with [] => [GITHUB_NXDL_BRANCH] | l => l end) (is_some (last_act (py "update") (s_acts s))), s_extra s)).
  destruct (many_words E opts_install line effs Fi (line_at _ _ _ _ _ L')) as (a & ns & c & o & X & Sa & N & C & Pw). rewrite Pw. cbn [rbind s_pos s_acts s_extra snd fst].
  pose proof (install_eff_items items effs F) as I. set (g := fun e => match e with EWord n => IName n | EActs _ => IUpdate | EExtra => IUnknown end) in *.
  assert (Gm : map g (map EWord ns) = map IName ns) by (rewrite map_map; reflexivity).
  assert (T : said eff_word c = [] <-> names_together items).
  { split.
    - intros Sc. exists (map g a), ns, (map g c). split; [rewrite I, X, !map_app, Gm; reflexivity|]. split; [apply no_names; exact Sa | apply no_names; exact Sc].
    - intros T. destruct (said eff_word c) as [|n l] eqn:Sc; [reflexivity|]. exfalso.
      destruct ns as [|n0 ns]; [rewrite (N eq_refl) in Sc; discriminate|].
      destruct c as [|m c]; [discriminate|]. pose proof (C m c eq_refl) as Cm.
      assert (In (IName n) (map g c)) as J.
      { assert (H : forall l', In n (said eff_word l') -> In (IName n) (map g l')).
        { intros l' H. unfold said in H. apply in_flat_map in H. destruct H as (e & He & Hn). destruct e as [w'|b|]; cbn [eff_word] in Hn; try destruct Hn as [Hn | []]; [|destruct Hn..].
          subst w'. apply in_map_iff. exists (EWord n). auto. }
        apply H. unfold said in Sc |- *. cbn [flat_map] in Sc. rewrite Cm in Sc. cbn [app] in Sc. rewrite Sc. left. reflexivity. }
      apply in_split in J. destruct J as (c1 & c2 & J).
      eapply (not_together items T (map g a) n0 (map IName ns) (g m) c1 n c2).
      + rewrite I, X, !map_app, Gm. cbn [map app]. rewrite J. reflexivity.
      + intros k H. destruct m; [discriminate Cm | discriminate H | discriminate H]. }
  split.
  - intros H. destruct (existsb is_extra effs) eqn:Ex; [reflexivity|]. destruct H as [U | NT]; [apply A in U; discriminate|].
    destruct (said eff_word c) as [|n l] eqn:Sc; [exfalso; apply NT, T; reflexivity | reflexivity].
  - intros NU NT. assert (Ex : existsb is_extra effs = false) by (destruct (existsb is_extra effs); [exfalso; apply NU, A; reflexivity | reflexivity]).
    apply T in NT. rewrite Ex, NT. cbn [orb List.length Nat.ltb Nat.leb].
    assert (Sn : said install_name items = ns).
    { rewrite I, X, !map_app, Gm. apply said_block; apply no_names; assumption. }
    rewrite Sn. eexists. split; [destruct ns; reflexivity|]. rewrite <- B. destruct (last_act (py "update") (flat_map eff_acts effs)); cbn [is_some].
    + split; [discriminate | reflexivity].
    + split; [discriminate | intros H; exfalso; apply H; reflexivity].
Qed.
