(** * Facts about command lines *)

From Coq Require Import List NArith ZArith Bool String Lia.
From Verif Require Import PyBase PyFacts Regex H5 Findings Cache Install Cli Args Spec_Cli Spec_Number NumberFacts Spec_Args CliFacts.
Import ListNotations.
Open Scope string_scope.
Open Scope list_scope.
Local Open Scope nat_scope.

(** ** Prefixes *)
Lemma startswith_prefix : forall s p, startswith s p = true <-> prefix_of p s.
Proof.
  intros s p; revert s. induction p as [|a p IH]; intros s; simpl.
  - split; [intros _; exists s; reflexivity | reflexivity].
  - destruct s as [|b s].
    + split; [discriminate | intros (r & E); discriminate].
    + rewrite andb_true_iff, IH, N.eqb_eq. split.
      * intros (-> & (r & ->)). exists r. reflexivity.
      * intros (r & E). injection E as -> ->. split; [reflexivity | exists r; reflexivity].
Qed.
Lemma prefix_firstn : forall w f, prefix_of w f -> w = firstn (List.length w) f /\ List.length w <= List.length f.
Proof. intros w f (r & ->). split; [rewrite firstn_app, Nat.sub_diag, firstn_all, app_nil_r; reflexivity | rewrite app_length; lia]. Qed.
Lemma plain_word : forall w, plain w -> w = [] \/ exists c t, w = c :: t /\ c <> ch_dash.
Proof.
  intros [|c t] H; [left; reflexivity | right]. exists c, t. split; [reflexivity|]. intros ->. apply H. exists t. reflexivity.
Qed.
Lemma plain_classify : forall E opts w, plain w -> classify E opts w = Ok WPos.
Proof.
  intros E opts w H. destruct (plain_word w H) as [-> | (c & t & -> & N)]; [reflexivity|]. cbn [classify].
  destruct (N.eqb_spec c ch_dash); [contradiction | reflexivity].
Qed.
Lemma plain_not_dashes : forall w, plain w -> str_eqb (py "--") w = false.
Proof.
  intros w H. destruct (str_eqb (py "--") w) eqn:X; [|reflexivity]. apply str_eqb_eq in X. subst w. exfalso. apply H. exists (py "-"). reflexivity.
Qed.

(** ** Numbers *)
Lemma digits_decimal : forall E t, digits E t <-> forallb (decimal E) t = true.
Proof.
  intros E t. unfold digits. rewrite forallb_forall, Forall_forall.
  assert (X : forall c, ((48 <= c <= 57)%N \/ ((128 <= c)%N /\ e_decimal E c <> None)) <-> decimal E c = true).
  { intros c. unfold decimal, char_decimal. destruct (N.ltb_spec c 128).
    - destruct (ascii_digit c) eqn:A; cbn [is_some].
      + apply NumberFacts.ascii_digit_range in A. split; [reflexivity | intros _; left; lia].
      + split; [|discriminate]. intros [B | [B _]]; [apply NumberFacts.ascii_digit_range in B; congruence | lia].
    - destruct (e_decimal E c); cbn [is_some]; split; try discriminate; auto; [intros _; right; split; [exact H | discriminate]|].
      intros [B | [_ B]]; [lia | contradiction]. }
  split; intros H c I; apply X; auto.
Qed.
Lemma decimal_digit : forall E c, decimal E c = true -> (c < 128)%N -> (48 <= c <= 57)%N.
Proof.
  intros E c H L. unfold decimal, char_decimal in H. apply N.ltb_lt in L. rewrite L in H. destruct (ascii_digit c) eqn:D; [|discriminate].
  unfold ascii_digit in D. apply andb_true_iff in D. destruct D as (A & B). apply N.leb_le in A, B. lia.
Qed.
(** short options by their letter *)
Definition letter (o : opt) (c : N) : bool := existsb (str_eqb [ch_dash; c]) (o_flags o).

Lemma not_dash_eq : forall E c, decimal E c = true -> c <> ch_dash /\ c <> ch_eq.
Proof.
  intros E c H. destruct (N.ltb_spec c 128).
  - pose proof (decimal_digit E c H H0). unfold ch_dash, ch_eq. lia.
  - unfold ch_dash, ch_eq. lia.
Qed.
Lemma cut_none : forall s, ~ In ch_eq s -> cut_eq s = None.
Proof.
  induction s as [|c s IH]; intros N; [reflexivity|]. cbn [cut_eq]. destruct (N.eqb_spec c ch_eq); [subst; exfalso; apply N; left; reflexivity|].
  rewrite IH; [reflexivity | intros I; apply N; right; exact I].
Qed.
Lemma cut_some : forall a b, ~ In ch_eq a -> cut_eq (a ++ ch_eq :: b) = Some (a, b).
Proof.
  induction a as [|c a IH]; intros b N; [cbn [cut_eq app]; rewrite N.eqb_refl; reflexivity|]. cbn [cut_eq app].
  destruct (N.eqb_spec c ch_eq); [subst; exfalso; apply N; left; reflexivity|]. rewrite IH; [reflexivity | intros I; apply N; right; exact I].
Qed.

Lemma find_opt_none : forall opts w, (forall fo, In fo (all_flags opts) -> fst fo <> w) -> find_opt opts w = None.
Proof.
  intros opts w. unfold find_opt, all_flags. induction opts as [|o opts IH]; intros H; [reflexivity|]. cbn [find].
  destruct (existsb (str_eqb w) (o_flags o)) eqn:X.
  - apply existsb_exists in X. destruct X as (f & I & E). apply str_eqb_eq in E. subst f. exfalso. apply (H (w, o)); [|reflexivity].
    apply in_flat_map. exists o. split; [left; reflexivity|]. apply in_map_iff. exists w. auto.
  - apply IH. intros fo I. apply H. apply in_flat_map in I. destruct I as (o' & I & J). apply in_flat_map. exists o'. split; [right; exact I | exact J].
Qed.
Lemma flat_map_nil : forall A B (f : A -> list B) l, (forall x, In x l -> f x = []) -> flat_map f l = [].
Proof. induction l as [|a l IH]; intros H; [reflexivity|]. cbn [flat_map]. rewrite (H a (or_introl eq_refl)). apply IH. intros x I. apply H. right. exact I. Qed.

(** negative numbers *)
Lemma after_app : forall E a b, forallb (decimal E) a = true -> (match b with c :: _ => decimal E c = false | [] => True end) -> after_digits E (a ++ b) = b.
Proof.
  induction a as [|c a IH]; intros b D H; cbn [app].
  - destruct b as [|c b]; [reflexivity|]. cbn [after_digits]. rewrite H. reflexivity.
  - cbn [forallb] in D. apply andb_true_iff in D as [D1 D2]. cbn [after_digits]. rewrite D1. auto.
Qed.
Lemma after_split : forall E s, exists a, s = a ++ after_digits E s /\ forallb (decimal E) a = true.
Proof.
  induction s as [|c s (a & A & D)]; [exists []; split; reflexivity|]. cbn [after_digits]. destruct (decimal E c) eqn:X.
  - exists (c :: a). split; [cbn [app]; f_equal; exact A | cbn [forallb]; rewrite X; exact D].
  - exists []. split; reflexivity.
Qed.
Lemma all_digits_spec : forall E s, all_digits E s = true <-> s <> [] /\ digits E s.
Proof.
  intros E s. rewrite digits_decimal. unfold all_digits. destruct s; [split; [discriminate | intros [X _]; contradiction]|]. split; [intros H; split; [discriminate | exact H] | intros [_ H]; exact H].
Qed.
Lemma last_not : forall E a c, decimal E c = true -> N.eqb (last (a ++ [c]) 0%N) 10 = false.
Proof. intros E a c D. rewrite last_last. destruct (N.eqb_spec c 10) as [->|]; [discriminate D | reflexivity]. Qed.
Lemma digits_end : forall E t, t <> [] -> digits E t -> exists q c, t = q ++ [c] /\ decimal E c = true.
Proof.
  intros E t H D. destruct (exists_last H) as (q & c & ->). exists q, c. split; [reflexivity|]. apply digits_decimal in D. rewrite forallb_forall in D. apply D.
  apply in_or_app. right. left. reflexivity.
Qed.
Definition number_body (E : env) (s : pystr) : Prop :=
  (s <> [] /\ digits E s) \/ exists a b, s = a ++ 46%N :: b /\ digits E a /\ digits E b /\ b <> [].
Lemma body_end : forall E s, number_body E s -> exists q c, s = q ++ [c] /\ decimal E c = true.
Proof.
  intros E s [[H D] | (a & b & -> & _ & D & H)]; [apply digits_end; assumption|]. destruct (digits_end E b H D) as (q & c & -> & X).
  exists (a ++ 46%N :: q), c. rewrite <- app_assoc. split; [reflexivity | exact X].
Qed.
Lemma body_spec : forall E s, all_digits E s || match after_digits E s with d :: t => N.eqb d ch_dot && all_digits E t | [] => false end = true <-> number_body E s.
Proof.
  intros E s. unfold number_body. rewrite orb_true_iff, all_digits_spec. apply or_iff_compat_l. split.
  - destruct (after_split E s) as (a & A & D). destruct (after_digits E s) as [|d t] eqn:X; [discriminate|]. intros H. apply andb_true_iff in H as [H1 H2].
    apply N.eqb_eq in H1. subst d. apply all_digits_spec in H2 as [H2 H3]. exists a, t. rewrite digits_decimal. split; [exact A|]. split; [exact D|]. split; assumption.
  - intros (a & b & -> & A & B & Nb). rewrite after_app; [|apply digits_decimal; exact A | reflexivity]. apply andb_true_iff. split; [reflexivity|].
    apply all_digits_spec. split; assumption.
Qed.
Lemma negative_spec : forall E w, negative_number E w = true <-> negative_word E w.
Proof.
  intros E w. unfold negative_number, negative_word. fold (number_body E). split.
  - destruct (before_line_end w) as [|c s] eqn:X; [discriminate|]. intros H. apply andb_true_iff in H as [H1 H2]. apply N.eqb_eq in H1. subst c.
    apply body_spec in H2. exists s. split; [|exact H2]. unfold before_line_end in X. destruct (N.eqb_spec (last w 0%N) 10) as [L|L]; [|left; exact X].
    right. destruct w as [|x w]; [discriminate|]. rewrite (app_removelast_last 0%N (l := x :: w)) by discriminate. rewrite X, L. reflexivity.
  - intros (s & H & B). assert (X : before_line_end w = 45%N :: s).
    { destruct (body_end E s B) as (q & c & Q & D). unfold before_line_end. destruct H as [-> | ->].
      - rewrite Q. change (45%N :: q ++ [c]) with ((45%N :: q) ++ [c]). rewrite (last_not E _ _ D). reflexivity.
      - change (45%N :: s ++ [10%N]) with ((45%N :: s) ++ [10%N]). rewrite last_last, removelast_last. reflexivity. }
    rewrite X. apply andb_true_iff. split; [reflexivity | apply body_spec; exact B].
Qed.
Lemma negative_second : forall E w, negative_word E w -> exists c rest, w = 45%N :: c :: rest /\ ((48 <= c <= 57)%N \/ (128 <= c)%N \/ c = 46%N).
Proof.
  intros E w (s & H & B).
  assert (Q : exists c rest, s = c :: rest /\ ((48 <= c <= 57)%N \/ (128 <= c)%N \/ c = 46%N)).
  { destruct B as [[X D] | (a & b & -> & A & _ & _)].
    - destruct s as [|c s]; [contradiction|]. exists c, s. split; [reflexivity|]. inversion D as [|? ? Y _]; subst. destruct Y as [Y | [Y _]]; auto.
    - destruct a as [|c a]; [exists 46%N, b; auto|]. exists c, (a ++ 46%N :: b). split; [reflexivity|]. inversion A as [|? ? Y _]; subst. destruct Y as [Y | [Y _]]; auto. }
  destruct Q as (c & rest & -> & Q). destruct H as [-> | ->]; [exists c, rest | exists c, (rest ++ [10%N])]; auto.
Qed.
(** ** Reading word by word *)
Definition reads (E : env) (opts : list opt) (n : nargs) (ws : list pystr) (f : scanned -> scanned) : Prop :=
  exists l, (forall rest, classify_all E opts (ws ++ rest) = (dor r <- classify_all E opts rest ; Ok (l ++ r)))
         /\ (forall r s, scan E opts n (l ++ r) s = scan E opts n r (f s)).

Lemma classify_one : forall E opts w k, classify E opts w = Ok k ->
  forall rest, classify_all E opts ([w] ++ rest) = (dor r <- classify_all E opts rest ; Ok ([(w, k)] ++ r)).
Proof. intros E opts w k H rest. cbn [app classify_all]. rewrite H. reflexivity. Qed.
Lemma classify_two : forall E opts w k v k', classify E opts w = Ok k -> classify E opts v = Ok k' ->
  forall rest, classify_all E opts ([w; v] ++ rest) = (dor r <- classify_all E opts rest ; Ok ([(w, k); (v, k')] ++ r)).
Proof. intros E opts w k v k' H H' rest. cbn [app classify_all]. rewrite H, H'. cbn [rbind]. destruct (classify_all E opts rest); reflexivity. Qed.

(** flags are one letter of these after "-", or begin with "--" *)
Definition flag_ok (letters : pystr) (f : pystr) : bool :=
  match f with
  | [a; b] => N.eqb a 45 && (existsb (N.eqb b) letters && (97 <=? b)%N && (b <=? 122)%N)
  | a :: b :: _ => N.eqb a 45 && N.eqb b 45
  | _ => false
  end.
Definition flags_ok (letters : pystr) (opts : list opt) : bool := forallb (fun o => forallb (flag_ok letters) (o_flags o)) opts.
Definition no_option (letters : pystr) (c : N) : Prop := c <> 45%N /\ (In c letters -> ~ (97 <= c <= 122)%N).
Lemma flag_not : forall letters f c rest, flag_ok letters f = true -> no_option letters c -> f <> 45%N :: c :: rest.
Proof.
  intros letters f c rest H [D L] ->. destruct rest as [|d rest]; cbn [flag_ok] in H.
  - change (N.eqb 45 45) with true in H. cbn [andb] in H. apply andb_true_iff in H as [H B]. apply andb_true_iff in H as [H A]. apply N.leb_le in A, B.
    apply existsb_exists in H as (x & I & E). apply N.eqb_eq in E. subst x. apply (L I). lia.
  - change (N.eqb 45 45) with true in H. cbn [andb] in H. apply N.eqb_eq in H. contradiction.
Qed.
Lemma find_none : forall letters opts w, flags_ok letters opts = true -> (forall f, flag_ok letters f = true -> f <> w) -> find_opt opts w = None.
Proof.
  intros letters opts w H N. unfold find_opt, flags_ok in *. induction opts as [|o opts IH]; [reflexivity|]. cbn [find forallb] in *.
  apply andb_true_iff in H as [H1 H2]. destruct (existsb (str_eqb w) (o_flags o)) eqn:X; [|auto]. exfalso.
  apply existsb_exists in X as (f & I & E). apply str_eqb_eq in E. subst f. rewrite forallb_forall in H1. apply (N w (H1 w I)). reflexivity.
Qed.
Lemma cut_eq_prefix : forall s a b, cut_eq s = Some (a, b) -> s = a ++ 61%N :: b.
Proof.
  induction s as [|c s IH]; intros a b H; cbn [cut_eq] in H; [discriminate|]. destruct (N.eqb_spec c ch_eq) as [-> | N]; [injection H as <- <-; reflexivity|].
  destruct (cut_eq s) as [[x y]|]; [|discriminate]. injection H as <- <-. cbn [app]. f_equal. auto.
Qed.
(** "-" and a character that is no option *)
Lemma dash_classify : forall E letters opts c rest, flags_ok letters opts = true -> no_option letters c ->
  classify E opts (45%N :: c :: rest) = if negative_number E (45%N :: c :: rest) then Ok WPos else if has_char ch_space (45%N :: c :: rest) then Ok WPos else Ok WUnknown.
Proof.
  intros E letters opts c rest G N. cbn [classify]. change (negb (N.eqb 45 ch_dash)) with false. cbv iota.
  rewrite (find_none letters); [|exact G | intros f F; apply (flag_not letters); assumption].
  assert (C : match cut_eq (45%N :: c :: rest) with
              | Some (f, x) => match find_opt opts f with Some o => Some (WOpt o f (Some (true, x))) | None => None end
              | None => None end = None).
  { destruct (cut_eq (45%N :: c :: rest)) as [[f x]|] eqn:X; [|reflexivity]. rewrite (find_none letters); [reflexivity | exact G|]. intros g F ->.
    apply cut_eq_prefix in X. destruct f as [|a [|b f]]; [discriminate F | discriminate F|]. injection X as <- <- _. apply (flag_not _ _ _ f F N). reflexivity. }
  rewrite C.
  assert (O : option_tuples opts (45%N :: c :: rest) = []).
  { cbn [option_tuples]. destruct (N.eqb_spec c ch_dash) as [-> | D]; [exfalso; apply (proj1 N); reflexivity|]. unfold all_flags.
    unfold flags_ok in G. clear C. induction opts as [|o opts IH]; [reflexivity|]. cbn [flat_map forallb] in *. apply andb_true_iff in G as [G1 G2].
    rewrite flat_map_app, (IH G2), app_nil_r. clear IH G2. induction (o_flags o) as [|f l IH]; [reflexivity|]. cbn [map flat_map forallb fst snd] in *.
    apply andb_true_iff in G1 as [F G1]. rewrite (IH G1), app_nil_r.
    destruct (str_eqb f [ch_dash; c]) eqn:X; [apply str_eqb_eq in X; exfalso; apply (flag_not letters f c [] F N X)|].
    destruct (startswith f (45%N :: c :: rest)) eqn:Y; [|reflexivity]. apply startswith_prefix in Y as (r & Y). exfalso. apply (flag_not letters f c (rest ++ r) F N Y). }
  rewrite O. reflexivity.
Qed.
Lemma not_in_no_option : forall letters c, ~ In c (45%N :: letters) -> no_option letters c.
Proof. intros letters c H. split; [intros ->; apply H; left; reflexivity | intros I; exfalso; apply H; right; exact I]. Qed.
Lemma has_blank : forall w, has_char ch_space w = true <-> In 32%N w.
Proof.
  intros w. unfold has_char. rewrite existsb_exists. split; [intros (x & I & X); apply N.eqb_eq in X; subst x; exact I | intros I; exists 32%N; split; [exact I | reflexivity]].
Qed.
Lemma value_classify : forall E letters opts w, flags_ok letters opts = true -> value_word E letters w -> classify E opts w = Ok WPos.
Proof.
  intros E letters opts w G [P | [-> | [M | (c & rest & -> & N & S)]]].
  - apply plain_classify, P.
  - change (py "-") with [45%N]. cbn [classify]. change (negb (N.eqb 45 ch_dash)) with false. cbv iota.
    rewrite (find_none letters); [reflexivity | exact G | intros f F ->; discriminate].
  - destruct (negative_second E w M) as (c & rest & -> & R). rewrite (dash_classify E letters opts c rest G).
    + apply negative_spec in M. rewrite M. reflexivity.
    + split; [intros ->; lia | intros _; lia].
  - rewrite (dash_classify E letters opts c rest G (not_in_no_option _ _ N)). destruct (negative_number E (45%N :: c :: rest)); [reflexivity|].
    assert (H : has_char ch_space (45%N :: c :: rest) = true) by (apply has_blank; right; exact S). rewrite H. reflexivity.
Qed.
Lemma reads_word : forall E letters opts n w, flags_ok letters opts = true -> value_word E letters w -> reads E opts n [w] (take_word n w).
Proof. intros E letters opts n w G P. exists [(w, WPos)]. split; [apply classify_one; eapply value_classify; eassumption | intros r s; reflexivity]. Qed.
Lemma reads_unknown : forall E opts n w, classify E opts w = Ok WUnknown -> reads E opts n [w] (fun s => add_acts [] true (close s)).
Proof. intros E opts n w C. exists [(w, WUnknown)]. split; [apply classify_one; exact C | intros r s; reflexivity]. Qed.
Lemma reads_flag : forall E opts n w o f a, classify E opts w = Ok (WOpt o f None) -> takes_value o = false -> take_action E (o, []) = Ok a ->
  reads E opts n [w] (fun s => add_acts [a] false (close s)).
Proof.
  intros E opts n w o f a C T A. exists [(w, WOpt o f None)]. split; [apply classify_one; exact C|]. intros r s. cbn [app scan word_options].
  rewrite T. cbn [take_actions]. rewrite A. reflexivity.
Qed.
Lemma reads_value : forall E opts n w o f v a, classify E opts w = Ok (WOpt o f None) -> takes_value o = true -> classify E opts v = Ok WPos ->
  take_action E (o, v) = Ok a -> reads E opts n [w; v] (fun s => add_acts [a] false (close s)).
Proof.
  intros E opts n w o f v a C T V A. exists [(w, WOpt o f None); (v, WPos)]. split; [apply classify_two; assumption|]. intros r s.
  cbn [app scan word_options]. rewrite T. cbn [app take_actions]. rewrite A. reflexivity.
Qed.
Lemma expand_value : forall opts o f b x, takes_value o = true -> expand opts o f b x = Ok (mkFound [(o, x)] None false).
Proof. intros opts o f b x T. destruct x; cbn [expand]; rewrite T; reflexivity. Qed.
Lemma reads_explicit : forall E opts n w o f b x a, classify E opts w = Ok (WOpt o f (Some (b, x))) -> takes_value o = true ->
  take_action E (o, x) = Ok a -> reads E opts n [w] (fun s => add_acts [a] false (close s)).
Proof.
  intros E opts n w o f b x a C T A. exists [(w, WOpt o f (Some (b, x)))]. split; [apply classify_one; exact C|]. intros r s.
  cbn [app scan word_options]. rewrite expand_value by exact T. cbn [take_actions]. rewrite A. reflexivity.
Qed.

Lemma reads_all : forall {A} E opts n (words : list pystr -> A -> Prop) (f : A -> scanned -> scanned),
  (forall ws i, words ws i -> reads E opts n ws (f i)) ->
  forall line items, line_of words line items -> forall s0,
  exists l, classify_all E opts line = Ok l /\ scan E opts n l s0 = Ok (fold_left (fun s i => f i s) items s0).
Proof.
  intros A E opts n words f H line items (l & F & ->). induction F as [|ws i l items W F IH]; intros s0.
  - exists []. split; reflexivity.
  - destruct (H ws i W) as (k & C & S). cbn [List.concat fold_left]. destruct (IH (f i s0)) as (r & C' & S').
    exists (k ++ r). rewrite C, C'. split; [reflexivity|]. rewrite S. exact S'.
Qed.

(** ** The kinds of words *)
Lemma long_cases : forall short full w, long_option short full w ->
  In w (map (fun n => firstn n full) (seq (List.length short) (S (List.length full - List.length short)))).
Proof.
  intros short full w ((r & ->) & P). destruct (prefix_firstn _ _ P) as (X & L). apply in_map_iff. exists (List.length (short ++ r)).
  split; [symmetry; exact X|]. apply in_seq. rewrite app_length in *. lia.
Qed.
Ltac cases_of I := cbn [map seq List.length Nat.sub py firstn In] in I; repeat (destruct I as [<- | I]); [..|destruct I].

Definition o_items : opt := mkOpt [py "-m"; py "--max_array_items"] OInt (py "max_array_items").
Definition o_set : opt := mkOpt [py "-f"; py "--file_set_name"] OText (py "file_set_name").
Definition o_report : opt := mkOpt [py "--report"] OText (py "report").
Definition o_update : opt := mkOpt [py "-u"; py "--update"] OFlag (py "update").

Lemma items_classify : forall E w, items_option w -> exists f, classify E opts_tree w = Ok (WOpt o_items f None).
Proof.
  intros E w [-> | L]; [eexists; vm_compute; reflexivity|]. apply long_cases in L. cases_of L; eexists; vm_compute; reflexivity.
Qed.
Lemma items_equals : forall E w s, items_option w -> exists f, classify E opts_tree (w ++ py "=" ++ s) = Ok (WOpt o_items f (Some (true, s))).
Proof.
  intros E w s [-> | L]; [eexists; vm_compute; reflexivity|]. apply long_cases in L. cases_of L; eexists; vm_compute; reflexivity.
Qed.
Lemma set_classify : forall E w, set_option w -> exists f, classify E opts_validate w = Ok (WOpt o_set f None).
Proof.
  intros E w [-> | L]; [eexists; vm_compute; reflexivity|]. apply long_cases in L. cases_of L; eexists; vm_compute; reflexivity.
Qed.
Lemma set_equals : forall E w s, set_option w -> exists f, classify E opts_validate (w ++ py "=" ++ s) = Ok (WOpt o_set f (Some (true, s))).
Proof.
  intros E w s [-> | L]; [eexists; vm_compute; reflexivity|]. apply long_cases in L. cases_of L; eexists; vm_compute; reflexivity.
Qed.
Lemma report_classify : forall E w, report_option w -> exists f, classify E opts_validate w = Ok (WOpt o_report f None).
Proof. intros E w L. apply long_cases in L. cases_of L; eexists; vm_compute; reflexivity. Qed.
Lemma report_equals : forall E w s, report_option w -> exists f, classify E opts_validate (w ++ py "=" ++ s) = Ok (WOpt o_report f (Some (true, s))).
Proof. intros E w s L. apply long_cases in L. cases_of L; eexists; vm_compute; reflexivity. Qed.
Lemma update_classify : forall E w, w = py "-u" \/ long_option (py "--u") (py "--update") w -> exists f, classify E opts_install w = Ok (WOpt o_update f None).
Proof.
  intros E w [-> | L]; [eexists; vm_compute; reflexivity|]. apply long_cases in L. cases_of L; eexists; vm_compute; reflexivity.
Qed.
Lemma cut_joined : forall c d s, c <> ch_eq -> d <> ch_eq ->
  cut_eq (ch_dash :: c :: d :: s) = match cut_eq s with Some (a, b) => Some (ch_dash :: c :: d :: a, b) | None => None end.
Proof.
  intros c d s C D. cbn [cut_eq]. apply N.eqb_neq in C, D. change (N.eqb ch_dash ch_eq) with false. rewrite C, D. destruct (cut_eq s) as [[a b]|]; reflexivity.
Qed.
Lemma items_joined : forall E d s, d <> ch_eq -> classify E opts_tree (py "-m" ++ d :: s) = Ok (WOpt o_items (py "-m") (Some (false, d :: s))).
Proof.
  intros E d s D. cbn [py app]. cbn [classify]. change (N.eqb 45 ch_dash) with true. cbn [negb].
  change (find_opt opts_tree (45%N :: 109%N :: d :: s)) with (@None opt).
  change 45%N with ch_dash. rewrite cut_joined by (exact D || discriminate). destruct (cut_eq s) as [[a b]|]; reflexivity.
Qed.
Lemma set_joined : forall E d s, d <> ch_eq -> classify E opts_validate (py "-f" ++ d :: s) = Ok (WOpt o_set (py "-f") (Some (false, d :: s))).
Proof.
  intros E d s D. cbn [py app]. cbn [classify]. change (N.eqb 45 ch_dash) with true. cbn [negb].
  change (find_opt opts_validate (45%N :: 102%N :: d :: s)) with (@None opt).
  change 45%N with ch_dash. rewrite cut_joined by (exact D || discriminate). destruct (cut_eq s) as [[a b]|]; reflexivity.
Qed.

Lemma unknown_classify : forall E letters opts known w, flags_ok letters opts = true ->
  (forall fo, In fo (all_flags opts) -> prefix_of (py "--") (fst fo) -> In (fst fo) known) ->
  unknown_option E letters known w -> classify E opts w = Ok WUnknown.
Proof.
  intros E letters opts known w G K [((t & ->) & Sp & Eq & U) | (c & rest & -> & Nc & Sp & Nn)].
  2:{ rewrite (dash_classify E letters opts c rest G (not_in_no_option _ _ Nc)).
      destruct (negative_number E (45%N :: c :: rest)) eqn:M; [apply negative_spec in M; contradiction|].
      destruct (has_char ch_space (45%N :: c :: rest)) eqn:B; [apply has_blank in B; contradiction | reflexivity]. }
  change (py "--" ++ t) with (45%N :: 45%N :: t) in *.
  assert (X : forall fo, In fo (all_flags opts) -> ~ prefix_of (45%N :: 45%N :: t) (fst fo)).
  { intros fo I P. apply (U (fst fo)); [|exact P]. apply K; [exact I|]. destruct P as (r & P). exists (t ++ r). exact P. }
  cbn [classify]. change (N.eqb 45 ch_dash) with true. cbn [negb].
  rewrite find_opt_none by (intros fo I Y; apply (X fo I); exists []; rewrite app_nil_r; exact Y).
  rewrite (cut_none _ Eq).
  assert (T : option_tuples opts (45%N :: 45%N :: t) = []).
  { cbn [option_tuples]. change (N.eqb 45 ch_dash) with true. rewrite (cut_none _ Eq). apply flat_map_nil. intros fo I.
    destruct (startswith (fst fo) (45%N :: 45%N :: t)) eqn:Y; [|reflexivity]. apply startswith_prefix in Y. exfalso. exact (X fo I Y). }
  rewrite T.
  assert (NN : negative_number E (45%N :: 45%N :: t) = false).
  { unfold negative_number, before_line_end. destruct (N.eqb _ 10); [|reflexivity]. destruct t; reflexivity. }
  rewrite NN.
  assert (S : has_char ch_space (45%N :: 45%N :: t) = false).
  { unfold has_char. destruct (existsb _ _) eqn:Y; [|reflexivity]. apply existsb_exists in Y. destruct Y as (c & I & Y). apply N.eqb_eq in Y. subst c.
    exfalso. exact (Sp I). }
  rewrite S. reflexivity.
Qed.

(** ** The words before the subcommand's own parser *)
Definition fine (w : pystr) : Prop := forall t, w = py "--" ++ t -> exists c t', t = c :: t' /\ c <> ch_eq.

Lemma top_ok : forall E w, fine w -> exists k, classify E opts_punx w = Ok k.
Proof.
  intros E [|c [|d t]] F; [eexists; reflexivity | destruct (N.eqb c ch_dash) eqn:C; cbn [classify]; rewrite C; cbn [negb]; [destruct (find_opt _ _)|]; eexists; reflexivity|].
  cbn [classify]. destruct (N.eqb c ch_dash) eqn:C; cbn [negb]; [|eexists; reflexivity]. apply N.eqb_eq in C. subst c.
  destruct (find_opt opts_punx _); [eexists; reflexivity|].
  destruct (match cut_eq (ch_dash :: d :: t) with Some _ => _ | None => _ end); [eexists; reflexivity|].
  assert (L : List.length (option_tuples opts_punx (ch_dash :: d :: t)) <= 1).
  { cbn [option_tuples]. destruct (N.eqb_spec d ch_dash) as [-> | D].
    - destruct (F t eq_refl) as (e & t' & -> & Ne).
      assert (Q : forall a (x : option (bool * pystr)),
        List.length (flat_map (fun fo => if startswith (fst fo) (ch_dash :: ch_dash :: e :: a) then [WOpt (snd fo) (fst fo) x] else []) (all_flags opts_punx)) <= 1).
      2:{ rewrite cut_joined by (exact Ne || discriminate). destruct (cut_eq t') as [[a b]|]; apply Q. }
      intros a x. unfold opts_punx, all_flags. cbn [flat_map map o_flags opt_help app].
      cbn [fst snd]. destruct (N.eq_dec e 104) as [-> | N1].
      + assert (Y : startswith (py "--version") (ch_dash :: ch_dash :: 104%N :: a) = false) by reflexivity.
        assert (Y1 : startswith (py "-h") (ch_dash :: ch_dash :: 104%N :: a) = false) by reflexivity.
        assert (Y2 : startswith (py "-v") (ch_dash :: ch_dash :: 104%N :: a) = false) by reflexivity.
        rewrite Y, Y1, Y2. cbn [app]. destruct (startswith (py "--help") _); cbn [app List.length]; lia.
      + assert (Y : startswith (py "--help") (ch_dash :: ch_dash :: e :: a) = false) 
          by (change (N.eqb e 104 && startswith (py "elp") a = false); apply N.eqb_neq in N1; rewrite N1; reflexivity).
        assert (Y1 : startswith (py "-h") (ch_dash :: ch_dash :: e :: a) = false) by reflexivity.
        assert (Y2 : startswith (py "-v") (ch_dash :: ch_dash :: e :: a) = false) by reflexivity.
        rewrite Y, Y1, Y2. cbn [app]. destruct (startswith (py "--version") _); cbn [app List.length]; lia.
    - assert (D1 : N.eqb d ch_dash = false) by (apply N.eqb_neq; exact D).
      unfold opts_punx, all_flags. cbn [flat_map map o_flags opt_help app fst snd].
      assert (Y : forall r, startswith (py "--" ++ r) (ch_dash :: d :: t) = false).
      { intros r. change (py "--" ++ r) with (45%N :: 45%N :: r). cbn [startswith]. change 45%N with ch_dash. rewrite D1. reflexivity. }
      pose proof (Y (py "help") : startswith (py "--help") _ = false) as Y1. pose proof (Y (py "version") : startswith (py "--version") _ = false) as Y2. rewrite Y1, Y2.
      assert (Z : forall r, str_eqb (py "--" ++ r) [ch_dash; d] = false).
      { intros r. change (py "--" ++ r) with (45%N :: 45%N :: r). cbn [str_eqb]. change 45%N with ch_dash. rewrite (N.eqb_sym ch_dash d), D1. reflexivity. }
      pose proof (Z (py "help") : str_eqb (py "--help") _ = false) as Z1. pose proof (Z (py "version") : str_eqb (py "--version") _ = false) as Z2. rewrite Z1, Z2.
      destruct (str_eqb (py "-h") [ch_dash; d]) eqn:H1.
      + apply str_eqb_eq in H1. injection H1 as <-. cbn [app]. 
        assert (V : str_eqb (py "-v") [ch_dash; 104%N] = false) by reflexivity. assert (V1 : startswith (py "-v") (ch_dash :: 104%N :: t) = false) by reflexivity.
        rewrite V, V1. cbn [app List.length]. lia.
      + destruct (startswith (py "-h") (ch_dash :: d :: t)) eqn:H2.
        * exfalso. apply startswith_prefix in H2. destruct H2 as (r & H2). injection H2 as <- _. discriminate.
        * cbn [app]. destruct (str_eqb (py "-v") [ch_dash; d]); cbn [app List.length]; [lia|]. destruct (startswith (py "-v") _); cbn [app List.length]; lia. }
  destruct (option_tuples opts_punx (ch_dash :: d :: t)) as [|x [|y l]]; [|eexists; reflexivity | cbn in L; lia].
  destruct (negative_number E _); [eexists; reflexivity|]. destruct (has_char _ _); eexists; reflexivity.
Qed.
