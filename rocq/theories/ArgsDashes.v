(** * The word "--" on the command line *)

From Coq Require Import List NArith ZArith Bool String Lia.
From Verif Require Import PyBase PyFacts H5 Cache Install Cli Args Spec_Number NumberFacts Spec_Cli Spec_Args CliFacts ArgsFacts ArgsEnd.
Import ListNotations.
Open Scope string_scope.
Open Scope list_scope.
Local Open Scope nat_scope.

Notation eff_last effs := (exists a ns, effs = a ++ map EWord ns /\ said eff_word a = []).

(** the scan for any number of words is open as long as the first block of them lasts *)
Lemma many_open : forall effs, s_open (fold_left (fun s e => apply_eff ManyArgs e s) effs start) = true <-> eff_last effs.
Proof.
  intros effs. destruct (eff_blocks effs) as (a & ns & c & X & A & C & N).
  assert (Q : c = [] -> s_open (fold_left (fun s e => apply_eff ManyArgs e s) effs start) = true).
  { intros ->. rewrite X, app_nil_r, fold_left_app. unfold start. rewrite many_before by exact A. rewrite many_names. reflexivity. }
  destruct c as [|e c]; [split; [|auto]|].
  - intros _. exists a, ns. split; [rewrite X, app_nil_r; reflexivity | exact A].
  - specialize (C e c eq_refl). destruct ns as [|n ns]; [discriminate (N eq_refl)|]. split.
    + intros H. exfalso. rewrite X, !fold_left_app in H. unfold start in H. rewrite many_before, many_names in H by exact A. cbn [app fold_left] in H.
      destruct e as [w|b|]; [discriminate | |]; cbn [apply_eff] in H; unfold close, add_acts in H; cbn [s_open s_acts s_pos s_extra] in H;
        rewrite many_closed in H by discriminate; discriminate.
    + intros (a' & ns' & Y & A'). exfalso. rewrite X in Y.
      assert (Z : forall (p q : list eff) m e' r, said eff_word q = [] -> eff_word e' = None -> p ++ EWord m :: r ++ e' :: c = q ++ map EWord ns' -> False).
      { intros p q m e' r Hq He Hx.
        assert (T : forall (p q : list eff), said eff_word q = [] -> p ++ EWord m :: r ++ e' :: c = q ++ map EWord ns' -> exists l, r ++ e' :: c = map EWord l).
        { clear. induction p as [|y p IH]; intros q Hq Hx.
          - destruct q as [|z q]; [|injection Hx as <- Hx; discriminate Hq]. destruct ns' as [|n' ns']; [discriminate|]. injection Hx as _ Hx. exists ns'. exact Hx.
          - destruct q as [|z q].
            + destruct ns' as [|n' ns']; [discriminate|]. injection Hx as _ Hx. clear IH. cbn [app] in Hx. revert ns' Hx.
              induction p as [|y' p IHp]; intros [|n'' ns''] Hx; [discriminate | injection Hx as _ Hx; exists ns''; exact Hx | discriminate | injection Hx as _ Hx; eauto].
            + injection Hx as <- Hx. apply (IH q); [|exact Hx]. unfold said in Hq |- *. cbn [flat_map] in Hq. destruct (eff_word y); [discriminate | exact Hq]. }
        destruct (T p q Hq Hx) as (l & Hl). assert (I : In e' (map EWord l)) by (rewrite <- Hl; apply in_or_app; right; left; reflexivity).
        apply in_map_iff in I. destruct I as (n' & <- & _). discriminate. }
      cbn [map] in Y. change (a ++ (EWord n :: map EWord ns) ++ e :: c) with (a ++ EWord n :: map EWord ns ++ e :: c) in Y. exact (Z a a' n e (map EWord ns) A' C Y).
Qed.

(** words of a parser with "--" *)
Lemma dashed : forall E opts n ws effs after, n <> NoArg -> Forall fine ws -> line_of (fun w e => forall n, reads E opts n w (apply_eff n e)) ws effs ->
  exists b, (b = true <-> eff_last effs)
    /\ parse_words E opts n (ws ++ py "--" :: after)
       = required n (fold_left (fun s e => apply_eff n e s) (map EWord after)
                      (let s := fold_left (fun s e => apply_eff n e s) effs start in if b then s else add_acts [] true s)).
Proof.
  intros E opts n ws effs after Nn F L. exists (s_open (fold_left (fun s e => apply_eff ManyArgs e s) effs start)). split; [apply many_open|].
  unfold parse_words. rewrite (at_dashes ws after F).
  destruct (reads_all E opts n _ (apply_eff n) (fun _ _ H => H) ws effs (line_at _ _ n _ _ L) start) as (l & C & S).
  destruct (reads_all E opts ManyArgs _ (apply_eff ManyArgs) (fun _ _ H => H) ws effs (line_at _ _ ManyArgs _ _ L) start) as (l' & C' & S').
  rewrite C in C'. injection C' as <-. rewrite C. cbn [rbind]. rewrite S. cbn [rbind]. rewrite S'. cbn [rbind]. f_equal.
  assert (X : forall ws s, fold_left (fun s w => take_word n w s) ws s = fold_left (fun s e => apply_eff n e s) (map EWord ws) s).
  { clear. induction ws as [|w ws IH]; intros s; [reflexivity|]. cbn [map fold_left apply_eff]. apply IH. }
  rewrite X. destruct n; [contradiction | reflexivity | reflexivity].
Qed.
Lemma said_words : forall after, said eff_word (map EWord after) = after.
Proof. induction after as [|w l IH]; [reflexivity|]. unfold said in *. cbn [map flat_map eff_word app]. rewrite IH. reflexivity. Qed.
Lemma said_app : forall A B (f : A -> option B) a b, said f (a ++ b) = said f a ++ said f b.
Proof. intros. unfold said. apply flat_map_app. Qed.
Lemma acts_words : forall after, flat_map eff_acts (map EWord after) = [].
Proof. induction after as [|w l IH]; [reflexivity | exact IH]. Qed.
Lemma extra_words : forall after, existsb is_extra (map EWord after) = false.
Proof. induction after as [|w l IH]; [reflexivity | exact IH]. Qed.

Definition extra_too (b : bool) (s : scanned) : scanned := if b then s else add_acts [] true s.
Lemma extra_word : forall n w b s, take_word n w (extra_too b s) = extra_too b (take_word n w s).
Proof.
  intros n w b [a p o x]. destruct b; [reflexivity|]. unfold extra_too, add_acts, take_word. cbn [s_open s_acts s_pos s_extra].
  destruct o, n; cbn [s_open s_acts s_pos s_extra]; rewrite ?app_nil_r, ?orb_true_r; reflexivity.
Qed.
Lemma extra_fold : forall n ws b s, fold_left (fun s e => apply_eff n e s) (map EWord ws) (extra_too b s) = extra_too b (fold_left (fun s e => apply_eff n e s) (map EWord ws) s).
Proof. intros n ws b. induction ws as [|w ws IH]; intros s; [reflexivity|]. cbn [map fold_left apply_eff]. rewrite extra_word. apply IH. Qed.

(** one positional argument *)
Lemma one_dashed : forall E opts ws effs after, Forall fine ws -> line_of (fun w e => forall n, reads E opts n w (apply_eff n e)) ws effs ->
  exists b, (b = true <-> eff_last effs)
    /\ parse_words E opts OneArg (ws ++ py "--" :: after)
       = match said eff_word effs ++ after with
         | [] => Exn (SystemExit 2)
         | f :: rest => Ok (mkSc (flat_map eff_acts effs) [f] false (existsb is_extra effs || Nat.ltb 0 (List.length rest) || negb b))
         end.
Proof.
  intros E opts ws effs after F L. destruct (dashed E opts OneArg ws effs after ltac:(discriminate) F L) as (b & B & P). exists b. split; [exact B|].
  rewrite P. cbv zeta. fold (extra_too b (fold_left (fun s e => apply_eff OneArg e s) effs start)). rewrite extra_fold, <- fold_left_app. unfold start. rewrite one_open.
  rewrite flat_map_app, acts_words, existsb_app, extra_words, said_app, said_words, app_nil_r, orb_false_r.
  destruct (said eff_word effs ++ after) as [|f rest]; unfold required, extra_too, add_acts.
  - destruct b; reflexivity.
  - destruct b; cbn [s_open s_acts s_pos s_extra firstn List.length Nat.eqb app orb]; rewrite ?app_nil_r, ?orb_false_r, ?orb_true_r; reflexivity.
Qed.

(** any number *)
Lemma many_dashed : forall E opts ws effs after, Forall fine ws -> line_of (fun w e => forall n, reads E opts n w (apply_eff n e)) ws effs ->
  exists s, parse_words E opts ManyArgs (ws ++ py "--" :: after) = Ok s
    /\ s_acts s = flat_map eff_acts effs
    /\ (existsb is_extra effs = true \/ ~ eff_last effs -> s_extra s = true)
    /\ (existsb is_extra effs = false -> eff_last effs -> s_extra s = false /\ s_pos s = said eff_word effs ++ after).
Proof.
  intros E opts ws effs after F L. destruct (dashed E opts ManyArgs ws effs after ltac:(discriminate) F L) as (b & B & P).
  rewrite P. cbv zeta. fold (extra_too b (fold_left (fun s e => apply_eff ManyArgs e s) effs start)). rewrite extra_fold, <- fold_left_app.
  assert (R : forall s, required ManyArgs s = Ok s) by (intros s; reflexivity). rewrite R. eexists. split; [reflexivity|].
  assert (Ac : forall l a p o x, s_acts (fold_left (fun s e => apply_eff ManyArgs e s) l (mkSc a p o x)) = a ++ flat_map eff_acts l).
  { clear. induction l as [|e l IH]; intros a p o x; [cbn; rewrite app_nil_r; reflexivity|]. cbn [fold_left flat_map].
    destruct e as [w|y|]; cbn [apply_eff]; unfold take_word, close, add_acts; cbn [s_open s_acts s_pos s_extra]; [destruct o| |]; rewrite IH; cbn [eff_acts app]; rewrite <- ?app_assoc; reflexivity. }
  assert (Ex : forall l s, existsb is_extra l = true \/ s_extra s = true -> s_extra (fold_left (fun s e => apply_eff ManyArgs e s) l s) = true).
  { clear. induction l as [|e l IH]; intros s [H | H]; [discriminate | exact H | |]; cbn [fold_left existsb] in *; apply IH;
      destruct e as [w|y|]; cbn [apply_eff is_extra orb] in *; unfold take_word, close, add_acts; auto;
      right; cbn [s_open s_acts s_pos s_extra]; rewrite ?orb_true_r, ?orb_false_r; try destruct (s_open s); cbn [s_extra]; auto. }
  split; [|split].
  - unfold extra_too. destruct b; [|cbn [add_acts s_acts]; rewrite app_nil_r]; unfold start; rewrite Ac, flat_map_app, acts_words, app_nil_r; reflexivity.
  - intros H. unfold extra_too. destruct b; [|cbn [add_acts s_extra]; apply orb_true_r]. apply Ex. left. rewrite existsb_app. destruct H as [-> | H]; [reflexivity|].
    exfalso. apply H, B. reflexivity.
  - intros X La. assert (b = true) as -> by (apply B; exact La). unfold extra_too. destruct La as (a & ns & -> & A). rewrite <- app_assoc, <- map_app, fold_left_app.
    unfold start. rewrite many_before, many_names by exact A. cbn [s_extra s_pos app]. rewrite existsb_app in X. apply orb_false_iff in X. destruct X as [-> _]. split; [reflexivity|].
    rewrite said_app, A, said_words. reflexivity.
Qed.

(** items and effects *)
Lemma last_related : forall A (R : A -> eff -> Prop) (name : pystr -> A), (forall i e n, R i e -> (i = name n <-> e = EWord n)) ->
  forall items effs, Forall2 R items effs ->
  ((exists names, names_last name items [] names) <-> eff_last effs)
  /\ forall after names, names_last name items after names -> names = said eff_word effs ++ after.
Proof.
  intros A R name H items effs F.
  assert (Sp : forall n its es, Forall2 R its es -> its = map name n -> es = map EWord n).
  { clear - H. induction n as [|n ns IH]; intros its es F X; cbn [map] in *; subst its; inversion F as [|i e its' es' Re Fe]; subst; [reflexivity|].
    f_equal; [apply (H _ e n Re); reflexivity | eapply IH; eauto]. }
  assert (Sp' : forall n its es, Forall2 R its es -> es = map EWord n -> its = map name n).
  { clear - H. induction n as [|n ns IH]; intros its es F X; cbn [map] in *; subst es; inversion F as [|i e its' es' Re Fe]; subst; [reflexivity|].
    f_equal; [apply (H i _ n Re); reflexivity | eapply IH; eauto]. }
  assert (No : forall its es, Forall2 R its es -> ((forall n, ~ In (name n) its) <-> said eff_word es = [])).
  { clear - H. intros its es F. induction F as [|i e its es Re F IH]; [split; [reflexivity | intros _ n []]|]. unfold said in *. cbn [flat_map]. split.
    - intros X. destruct (eff_word e) as [w|] eqn:W.
      + exfalso. destruct e; [|discriminate..]. injection W as ->. apply (X w). left. apply (H i _ w Re). reflexivity.
      + cbn [app]. apply IH. intros n I. apply (X n). right. exact I.
    - intros X n [I | I].
      + subst i. assert (e = EWord n) by (apply (H _ e n Re); reflexivity). subst e. discriminate X.
      + destruct (eff_word e); [discriminate|]. apply (proj2 IH X n I). }
  split; [split|].
  - intros (names & a & ns & -> & Na & _). apply Forall2_app_inv_l in F. destruct F as (e1 & e2 & F1 & F2 & ->). exists e1, ns.
    split; [f_equal; eapply Sp; eauto | apply (No a e1 F1); exact Na].
  - intros (a & ns & -> & Sa). apply Forall2_app_inv_r in F. destruct F as (i1 & i2 & F1 & F2 & ->). exists ns, i1, ns.
    split; [f_equal; eapply Sp'; eauto|]. split; [apply (No i1 a F1); exact Sa | rewrite app_nil_r; reflexivity].
  - intros after names (a & ns & -> & Na & ->). apply Forall2_app_inv_l in F. destruct F as (e1 & e2 & F1 & F2 & ->).
    rewrite said_app, (proj1 (No a e1 F1) Na). rewrite (Sp ns _ _ F2 eq_refl), said_words. reflexivity.
Qed.

(** ** The subcommands *)
Lemma names_after : forall A (name : pystr -> A) items after names, names_last name items after names ->
  exists ns, names_last name items [] ns /\ names = ns ++ after.
Proof. intros A name items after names (a & ns & X & N & ->). exists ns. split; [exists a, ns; rewrite app_nil_r; auto | reflexivity]. Qed.
Lemma names_before : forall A (name : pystr -> A) items after ns, names_last name items [] ns -> names_last name items after (ns ++ after).
Proof. intros A name items after ns' (a & ns & X & N & ->). rewrite app_nil_r. exists a, ns. auto. Qed.

(** one positional argument: the name of a file *)
Lemma one_line : forall A E opts (words : list pystr -> A -> Prop) (R : A -> eff -> Prop) (name : pystr -> A) (unknown : A),
  (forall i e n, R i e -> (i = name n <-> e = EWord n)) ->
  forall line items effs after, Forall fine line -> Forall2 R items effs -> line_of (fun w e => forall n, reads E opts n w (apply_eff n e)) line effs ->
  (existsb is_extra effs = true <-> In unknown items) ->
  (In unknown items \/ (forall f, ~ names_last name items after [f]) ->
     parse_words E opts OneArg (line ++ py "--" :: after) = Exn (SystemExit 2)
     \/ exists s, parse_words E opts OneArg (line ++ py "--" :: after) = Ok s /\ s_extra s = true /\ s_acts s = flat_map eff_acts effs)
  /\ (forall f, ~ In unknown items -> names_last name items after [f] ->
       parse_words E opts OneArg (line ++ py "--" :: after) = Ok (mkSc (flat_map eff_acts effs) [f] false false)).
Proof.
  intros A E opts words R name unknown HR line items effs after Fi F L U.
  destruct (one_dashed E opts line effs after Fi L) as (b & B & P). destruct (last_related A R name HR items effs F) as (La & Sd).
  rewrite P. split.
  - intros H. destruct (said eff_word effs ++ after) as [|f rest] eqn:X; [left; reflexivity|]. right. eexists. split; [reflexivity|]. cbn [s_extra s_acts]. split; [|reflexivity].
    destruct H as [H | H]; [apply U in H; rewrite H; reflexivity|].
    destruct rest as [|g rest]; [|cbn [List.length]; rewrite orb_true_r; reflexivity]. destruct b; [|apply orb_true_r]. exfalso.
    destruct (proj2 La (proj1 B eq_refl)) as (ns & Hn). apply (H f). pose proof (names_before _ _ _ after _ Hn) as Y. rewrite <- X, <- (Sd after _ Y). exact Y.
  - intros f NU Hn. rewrite <- (Sd after [f] Hn). cbn [List.length Nat.ltb Nat.leb].
    assert (existsb is_extra effs = false) as -> by (destruct (existsb is_extra effs); [exfalso; apply NU, U; reflexivity | reflexivity]).
    assert (b = true) as ->; [|reflexivity]. apply B, La. destruct (names_after _ _ _ _ _ Hn) as (ns & Hs & _). eauto.
Qed.

Lemma tree_names : forall E i e n, tree_eff E i e -> (i = TFile n <-> e = EWord n).
Proof.
  intros E i e n R. destruct i as [f| |z|]; cbn [tree_eff] in R; [subst e | subst e | destruct R as (s & -> & _) | subst e]; split; intros H; try discriminate;
    injection H as ->; reflexivity.
Qed.
Lemma tree_dashed : forall E w line items after, stands_for subcommands w (py "tree") -> line_of (tree_words E) line items ->
  (In TUnknown items \/ (forall f, ~ names_last TFile items after [f]) -> parse_args E (w :: line ++ py "--" :: after) = Exn (SystemExit 2))
  /\ (forall f, ~ In TUnknown items -> names_last TFile items after [f] ->
       exists a, parse_args E (w :: line ++ py "--" :: after) = Ok (Some (CTree a)) /\ ta_infile a = f
         /\ (ta_attributes a = true <-> ~ In TNoAttributes items)
         /\ ta_items a = match last_said tree_items items with Some z => z | None => 5%Z end).
Proof.
  intros E w line items after S L. destruct (stands_line _ _ S) as (Sub & P & Pc). pose proof (line_fine _ _ _ _ (tree_fine E) L) as Fi.
  rewrite (parse_tail E w (py "tree") line (py "--" :: after) Sub P Pc Fi (or_intror (ex_intro _ after eq_refl))).
  destruct (choose_effects _ E opts_tree (tree_words E) (tree_eff E) (tree_reads E) line items L) as (effs & F & L').
  destruct (tree_effects E items effs F) as (A & B & C).
  destruct (one_line _ E opts_tree (tree_words E) (tree_eff E) TFile TUnknown (tree_names E) line items effs after Fi F L' A) as (Q1 & Q2).
  change (parse_command E (py "tree") (line ++ py "--" :: after)) with
    (dor s <- parse_words E opts_tree OneArg (line ++ py "--" :: after) ;
     dor z <- match last_act (py "max_array_items") (s_acts s) with Some v => py_int_text E v | None => Ok 5%Z end ;
     Ok (CTree (mkTA (hd [] (s_pos s)) (negb (is_some (last_act (py "show_attributes") (s_acts s)))) z), s_extra s)).
  assert (Z : forall acts, acts = flat_map eff_acts effs -> match last_act (py "max_array_items") acts with Some v => py_int_text E v | None => Ok 5%Z end
              = Ok (match last_said tree_items items with Some z => z | None => 5%Z end)).
  { intros acts ->. destruct (last_said tree_items items); [destruct C as (s & -> & Zs); exact Zs | rewrite C; reflexivity]. }
  split.
  - intros H. destruct (Q1 H) as [-> | (s & -> & X & Y)]; [reflexivity|]. cbn [rbind]. rewrite (Z _ Y). cbn [rbind snd]. rewrite X. reflexivity.
  - intros f NU H. rewrite (Q2 f NU H). cbn [rbind s_acts s_pos s_extra hd]. rewrite (Z _ eq_refl). cbn [rbind snd fst].
    eexists. split; [reflexivity|]. cbn [ta_infile ta_attributes ta_items]. split; [reflexivity|]. split; [|reflexivity].
    rewrite <- B. destruct (last_act (py "show_attributes") (flat_map eff_acts effs)); cbn [is_some negb].
    + split; [discriminate | intros H'; exfalso; apply H'; discriminate].
    + split; [intros _ H'; apply H'; reflexivity | reflexivity].
Qed.

Lemma validate_names : forall i e n, validate_eff i e -> (i = VFile n <-> e = EWord n).
Proof. intros i e n R. unfold validate_eff in R. subst e. destruct i; split; intros H; try discriminate; injection H as ->; reflexivity. Qed.
Lemma validate_dashed : forall E w line items after, stands_for subcommands w (py "validate") -> line_of (validate_words E) line items ->
  (In VUnknown items \/ (forall f, ~ names_last VFile items after [f]) -> parse_args E (w :: line ++ py "--" :: after) = Exn (SystemExit 2))
  /\ (forall f, ~ In VUnknown items -> names_last VFile items after [f] ->
       parse_args E (w :: line ++ py "--" :: after) = Ok (Some (CValidate f (last_said validate_set items) (last_said validate_report items)))).
Proof.
  intros E w line items after S L. destruct (stands_line _ _ S) as (Sub & P & Pc). pose proof (line_fine _ _ _ _ (validate_fine E) L) as Fi.
  rewrite (parse_tail E w (py "validate") line (py "--" :: after) Sub P Pc Fi (or_intror (ex_intro _ after eq_refl))).
  destruct (choose_effects _ E opts_validate (validate_words E) validate_eff (validate_reads E) line items L) as (effs & F & L').
  destruct (validate_effects items effs F) as (A & B & C).
  destruct (one_line _ E opts_validate (validate_words E) validate_eff VFile VUnknown validate_names line items effs after Fi F L' A) as (Q1 & Q2).
  change (parse_command E (py "validate") (line ++ py "--" :: after)) with
    (dor s <- parse_words E opts_validate OneArg (line ++ py "--" :: after) ;
     Ok (CValidate (hd [] (s_pos s)) (last_act (py "file_set_name") (s_acts s)) (last_act (py "report") (s_acts s)), s_extra s)).
  split.
  - intros H. destruct (Q1 H) as [-> | (s & -> & X & Y)]; [reflexivity|]. cbn [rbind snd]. rewrite X. reflexivity.
  - intros f NU H. rewrite (Q2 f NU H). cbn [rbind s_acts s_pos s_extra hd snd fst]. rewrite B, C. reflexivity.
Qed.

Lemma install_names : forall i e n, install_eff i e -> (i = IName n <-> e = EWord n).
Proof. intros i e n R. unfold install_eff in R. subst e. destruct i; split; intros H; try discriminate; injection H as ->; reflexivity. Qed.
Lemma install_dashed : forall E w line items after, stands_for subcommands w (py "install") -> line_of (install_words E) line items ->
  (In IUnknown items \/ (forall names, ~ names_last IName items after names) -> parse_args E (w :: line ++ py "--" :: after) = Exn (SystemExit 2))
  /\ (forall names, ~ In IUnknown items -> names_last IName items after names ->
       exists update, parse_args E (w :: line ++ py "--" :: after) = Ok (Some (CInstall (match names with [] => [GITHUB_NXDL_BRANCH] | l => l end) update))
         /\ (update = true <-> In IUpdate items)).
Proof.
  intros E w line items after S L. destruct (stands_line _ _ S) as (Sub & P & Pc). pose proof (line_fine _ _ _ _ (install_fine E) L) as Fi.
  rewrite (parse_tail E w (py "install") line (py "--" :: after) Sub P Pc Fi (or_intror (ex_intro _ after eq_refl))).
  destruct (choose_effects _ E opts_install (install_words E) install_eff (install_reads E) line items L) as (effs & F & L').
  destruct (install_effects items effs F) as (A & B). destruct (last_related _ install_eff IName install_names items effs F) as (La & Sd).
  destruct (many_dashed E opts_install line effs after Fi L') as (s & Ps & Ac & X1 & X2).
  change (parse_command E (py "install") (line ++ py "--" :: after)) with
    (dor s <- parse_words E opts_install ManyArgs (line ++ py "--" :: after) ;
     Ok (CInstall (match s_pos s with [] => [GITHUB_NXDL_BRANCH] | l => l end) (is_some (last_act (py "update") (s_acts s))), s_extra s)).
  rewrite Ps. cbn [rbind snd fst]. split.
  - intros H. rewrite X1; [reflexivity|]. destruct H as [H | H]; [left; apply A; exact H | right]. intros Y. apply La in Y. destruct Y as (ns & Y).
    apply (H (ns ++ after)). apply names_before. exact Y.
  - intros names NU H. destruct X2 as (X & Y).
    + destruct (existsb is_extra effs); [exfalso; apply NU, A; reflexivity | reflexivity].
    + apply La. destruct (names_after _ _ _ _ _ H) as (ns & Hs & _). eauto.
    + rewrite X, Y, <- (Sd after names H), Ac. eexists. split; [destruct names; reflexivity|]. rewrite <- B.
      destruct (last_act (py "update") (flat_map eff_acts effs)); cbn [is_some].
      * split; [discriminate | reflexivity].
      * split; [discriminate | intros H'; exfalso; apply H'; reflexivity].
Qed.

(** ** Where "--" has no place *)
Lemma first_dashes : forall E after, parse_args E (py "--" :: after) = Exn (SystemExit 2).
Proof. intros E after. reflexivity. Qed.
Lemma plain_dashed : forall E w c after, stands_for subcommands w c -> In c [py "configuration"; py "demonstrate"] ->
  parse_args E (w :: py "--" :: after) = Exn (SystemExit 2).
Proof.
  intros E w c after S I. destruct (stands_line _ _ S) as (Sub & P & Pc).
  pose proof (parse_tail E w c [] (py "--" :: after) Sub P Pc (Forall_nil _) (or_intror (ex_intro _ after eq_refl))) as X. cbn [app] in X. rewrite X.
  assert (Y : exists s, parse_words E opts_plain NoArg (py "--" :: after) = Ok s /\ s_extra s = true).
  { unfold parse_words. change (cut_dashes (py "--" :: after)) with (@nil pystr, Some after). cbn [classify_all scan rbind]. eexists. split; [reflexivity|].
    assert (Z : forall l s, s_extra s = true -> s_extra (fold_left (fun s w => take_word NoArg w s) l s) = true).
    { clear. induction l as [|x l IH]; intros s H; [exact H|]. cbn [fold_left]. apply IH. unfold take_word. destruct (s_open s); reflexivity. }
    apply Z. reflexivity. }
  destruct Y as (s & Y & Z). cbn [In] in I. destruct I as [<- | [<- | []]].
  - change (parse_command E (py "configuration") (py "--" :: after)) with (dor s <- parse_words E opts_plain NoArg (py "--" :: after) ; Ok (CConfiguration, s_extra s)).
    rewrite Y. cbn [rbind snd]. rewrite Z. reflexivity.
  - change (parse_command E (py "demonstrate") (py "--" :: after)) with (dor s <- parse_words E opts_plain NoArg (py "--" :: after) ; Ok (CDemonstrate, s_extra s)).
    rewrite Y. cbn [rbind snd]. rewrite Z. reflexivity.
Qed.
