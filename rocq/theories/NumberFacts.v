(** * Proofs about numbers written as text *)

From Coq Require Import List NArith ZArith Bool Lia.
From Verif Require Import PyBase Regex H5 Core AttributeCheck Spec_Number.
Import ListNotations.

Lemma ascii_digit_range : forall c, ascii_digit c = true <-> (48 <= c <= 57)%N.
Proof. intros c. unfold ascii_digit. rewrite andb_true_iff, !N.leb_le. reflexivity. Qed.

Lemma space_spec : forall E c, int_space E c = true <-> white_space E c.
Proof.
  intros E c. unfold int_space, white_space. destruct (N.ltb_spec c 128).
  - rewrite orb_true_iff, andb_true_iff, !N.leb_le, N.eqb_eq. split; [intros [X|X]; auto|]. intros [X|[X|[X _]]]; auto. lia.
  - split; [auto|]. intros [X|[X|[_ X]]]; [lia|lia|exact X].
Qed.

Lemma int_digit_value : forall E c d, int_digit E c = Some d <-> digit_value E c d.
Proof.
  intros E c d. unfold int_digit, int_space, char_decimal, digit_value. destruct (N.ltb_spec c 128).
  - destruct (ascii_digit c) eqn:A.
    + apply ascii_digit_range in A. replace ((9 <=? c)%N && (c <=? 13)%N || (c =? 32)%N) with false.
      2:{ symmetry. apply orb_false_iff. split; [apply andb_false_iff; right; apply N.leb_gt; lia | apply N.eqb_neq; lia]. }
      split; [intros X; injection X as <-; left; auto|]. intros [[_ ->]|[X _]]; [reflexivity|lia].
    + split; [destruct (_ || _); discriminate|]. intros [[X _]|[X _]]; [apply ascii_digit_range in X; congruence|lia].
  - destruct (e_space E c); split; try discriminate; auto.
    + intros [[X _]|(_ & X & _)]; [lia|discriminate].
    + intros [[X _]|(_ & _ & X)]; [lia|exact X].
Qed.

Lemma underscore_no_digit : forall E, int_digit E 95 = None.
Proof. reflexivity. Qed.

Lemma short_ind : forall (P : pystr -> Prop), P [] -> (forall c s, P s -> (forall c' s', s = c' :: s' -> P s') -> P (c :: s)) -> forall s, P s.
Proof.
  intros P H0 H1 s. assert (X : P s /\ forall c' s', s = c' :: s' -> P s').
  { induction s as [|c s [IH1 IH2]]; [split; [exact H0 | discriminate]|]. split; [apply H1; auto|]. intros c' s' Q. injection Q as _ <-. exact IH1. }
  apply X.
Qed.

Lemma digits_sound : forall E s acc n p, numeral E p acc -> digits_val E acc s = Some n -> numeral E (p ++ s) n.
Proof.
  intros E s. induction s as [|c s IH IH2] using short_ind; intros acc n p NP H; cbn [digits_val] in H.
  - injection H as <-. rewrite app_nil_r. exact NP.
  - destruct (int_digit E c) as [d|] eqn:D.
    + apply int_digit_value in D. replace (p ++ c :: s) with ((p ++ [c]) ++ s) by (rewrite <- app_assoc; reflexivity).
      eapply IH; [|exact H]. apply numeral_next; assumption.
    + destruct (N.eqb_spec c 95) as [->|]; [|discriminate]. destruct s as [|c' s']; [discriminate|].
      destruct (int_digit E c') as [d|] eqn:D'; [|discriminate]. apply int_digit_value in D'.
      replace (p ++ 95%N :: c' :: s') with ((p ++ [95%N; c']) ++ s') by (rewrite <- app_assoc; reflexivity).
      eapply (IH2 c' s' eq_refl); [|exact H]. apply numeral_parted; assumption.
Qed.

Lemma digits_snoc : forall E c d, int_digit E c = Some d -> forall s acc n, digits_val E acc s = Some n ->
  digits_val E acc (s ++ [c]) = Some (10 * n + d)%N /\ digits_val E acc (s ++ [95%N; c]) = Some (10 * n + d)%N.
Proof.
  intros E c d D s. induction s as [|x s IH IH2] using short_ind; intros acc n H.
  - injection H as <-. cbn [app digits_val]. rewrite underscore_no_digit, D. auto.
  - cbn [app digits_val] in H |- *. destruct (int_digit E x) as [dx|]; [apply IH; exact H|].
    destruct (N.eqb x 95); [|discriminate]. destruct s as [|y s']; [discriminate|]. cbn [app]. destruct (int_digit E y); [|discriminate].
    apply (IH2 y s' eq_refl). exact H.
Qed.

Lemma numeral_starts : forall E s n, numeral E s n -> exists c d t, s = c :: t /\ int_digit E c = Some d.
Proof.
  intros E s n H. induction H as [c d D | s n c d H (c0 & d0 & t & -> & X) D | s n c d H (c0 & d0 & t & -> & X) D].
  - exists c, d, []. apply int_digit_value in D. auto.
  - exists c0, d0, (t ++ [c]). auto.
  - exists c0, d0, (t ++ [95%N; c]). auto.
Qed.
Lemma numeral_ends : forall E s n, numeral E s n -> exists c d t, s = t ++ [c] /\ int_digit E c = Some d.
Proof.
  intros E s n H. destruct H as [c d D | s n c d H D | s n c d H D]; apply int_digit_value in D.
  - exists c, d, []. auto.
  - exists c, d, s. auto.
  - exists c, d, (s ++ [95%N]). rewrite <- app_assoc. auto.
Qed.

Lemma digits_numeral : forall E s n, int_digits E s = Some n <-> numeral E s n.
Proof.
  intros E s n. split.
  - destruct s as [|c s]; [discriminate|]. cbn [int_digits]. destruct (int_digit E c) as [d|] eqn:D; [|discriminate]. intros H.
    apply (digits_sound E s d n [c]); [apply numeral_digit; apply int_digit_value; exact D | exact H].
  - intros H. induction H as [c d D | s n c d H IH D | s n c d H IH D]; apply int_digit_value in D.
    + cbn [int_digits]. rewrite D. reflexivity.
    + destruct s as [|x s]; [discriminate|]. cbn [int_digits app] in IH |- *. destruct (int_digit E x); [|discriminate].
      apply (proj1 (digits_snoc E c d D s _ _ IH)).
    + destruct s as [|x s]; [discriminate|]. cbn [int_digits app] in IH |- *. destruct (int_digit E x); [|discriminate].
      apply (proj2 (digits_snoc E c d D s _ _ IH)).
Qed.

Lemma numeral_nonempty : forall E n, ~ numeral E [] n.
Proof. intros E n X. apply digits_numeral in X. discriminate. Qed.

Lemma signed_spec : forall E s z, int_signed E s = Some z <-> signed_number E s z.
Proof.
  intros E s z. split.
  - destruct s as [|c t]; [discriminate|]. cbn [int_signed]. destruct (N.eqb_spec c 45) as [->|A]; [|destruct (N.eqb_spec c 43) as [->|B]].
    + destruct (int_digits E t) as [n|] eqn:D; [|discriminate]. intros X. injection X as <-. apply signed_minus. apply digits_numeral. exact D.
    + destruct (int_digits E t) as [n|] eqn:D; [|discriminate]. intros X. injection X as <-. apply signed_plus. apply digits_numeral. exact D.
    + destruct (int_digits E (c :: t)) as [n|] eqn:D; [|discriminate]. intros X. injection X as <-. apply signed_plain. apply digits_numeral. exact D.
  - intros H. destruct H as [s n H | s n H | s n H].
    + destruct (numeral_starts E s n H) as (c & d & t & -> & D). apply digits_numeral in H. cbn [int_signed].
      destruct (N.eqb_spec c 45) as [->|A]; [discriminate|]. destruct (N.eqb_spec c 43) as [->|B]; [discriminate|]. rewrite H. reflexivity.
    + apply digits_numeral in H. cbn [int_signed N.eqb Pos.eqb]. rewrite H. reflexivity.
    + apply digits_numeral in H. cbn [int_signed N.eqb Pos.eqb]. rewrite H. reflexivity.
Qed.

Lemma skip_parts : forall E s, exists a, s = a ++ skip_spaces E s /\ Forall (white_space E) a.
Proof.
  intros E s. induction s as [|c s (a & IH & F)]; [exists []; auto|]. cbn [skip_spaces]. destruct (int_space E c) eqn:S.
  - exists (c :: a). split; [cbn [app]; rewrite <- IH; reflexivity|]. constructor; [apply space_spec; exact S | exact F].
  - exists []. auto.
Qed.
Lemma skip_app : forall E a c t, Forall (white_space E) a -> int_space E c = false -> skip_spaces E (a ++ c :: t) = c :: t.
Proof.
  intros E a c t F S. induction F as [|x a W F IH]; cbn [app skip_spaces]; [rewrite S; reflexivity|]. apply space_spec in W. rewrite W. exact IH.
Qed.
Lemma strip_parts : forall E s, exists a b, s = a ++ int_strip E s ++ b /\ Forall (white_space E) a /\ Forall (white_space E) b.
Proof.
  intros E s. destruct (skip_parts E s) as (a & A & FA). destruct (skip_parts E (rev (skip_spaces E s))) as (b & B & FB).
  exists a, (rev b). split; [|split; [exact FA | apply Forall_rev; exact FB]]. unfold int_strip. rewrite <- rev_app_distr, <- B, rev_involutive. exact A.
Qed.
Lemma digit_no_space : forall E c d, int_digit E c = Some d -> int_space E c = false.
Proof. intros E c d H. unfold int_digit in H. destruct (int_space E c); [discriminate|reflexivity]. Qed.
Lemma signed_ends : forall E s z, signed_number E s z ->
  (exists c t, s = c :: t /\ int_space E c = false) /\ (exists c t, s = t ++ [c] /\ int_space E c = false).
Proof.
  intros E s z H. destruct H as [s n H | s n H | s n H];
    destruct (numeral_starts _ _ _ H) as (c & d & t & X & D); destruct (numeral_ends _ _ _ H) as (c' & d' & t' & X' & D'); apply digit_no_space in D, D'.
  - split; eauto.
  - split; [eauto|]. exists c', (43%N :: t'). rewrite X'. auto.
  - split; [eauto|]. exists c', (45%N :: t'). rewrite X'. auto.
Qed.
Lemma strip_app : forall E a s z b, Forall (white_space E) a -> signed_number E s z -> Forall (white_space E) b -> int_strip E (a ++ s ++ b) = s.
Proof.
  intros E a s z b FA H FB. destruct (signed_ends _ _ _ H) as ((c & t & X & S) & (c' & t' & X' & S')). unfold int_strip.
  replace (a ++ s ++ b) with (a ++ c :: (t ++ b)) by (rewrite X; reflexivity). rewrite skip_app by assumption.
  change (c :: t ++ b) with ((c :: t) ++ b). rewrite <- X, X', <- app_assoc, rev_app_distr. cbn [app rev]. rewrite <- app_assoc. cbn [app].
  rewrite skip_app; [|apply Forall_rev; exact FB | exact S']. cbn [rev]. rewrite rev_involutive. reflexivity.
Qed.

Lemma int_number : forall E s z, py_int_text E s = Ok z <-> whole_number E s z.
Proof.
  intros E s z. unfold py_int_text. split.
  - destruct (int_signed E (int_strip E s)) as [z'|] eqn:H; [|discriminate]. intros X. injection X as <-. apply signed_spec in H.
    destruct (strip_parts E s) as (a & b & P & FA & FB). rewrite P. apply whole; assumption.
  - intros H. destruct H as [a s z b FA H FB]. rewrite (strip_app E a s z b FA H FB). apply signed_spec in H. rewrite H. reflexivity.
Qed.

Lemma number_no_equals : forall E s z, ~ whole_number E (61%N :: s) z.
Proof.
  intros E s z H. remember (61%N :: s) as w eqn:W. destruct H as [a t z b FA H _]. destruct a as [|x a].
  - cbn [app] in W. destruct H as [t n H | t n H | t n H]; try discriminate W. destruct (numeral_starts _ _ _ H) as (c & d & r & -> & D).
    injection W as -> _. discriminate D.
  - injection W as -> _. inversion FA as [|y l X]; subst. destruct X as [X|[X|[X _]]]; lia.
Qed.

Lemma isdigit_text : forall E s, py_isdigit E s = true <-> digit_text E s.
Proof.
  assert (C : forall E c, char_isdigit E c = true <-> (48 <= c <= 57)%N \/ ((128 <= c)%N /\ e_isdigit E c = true)).
  { intros E c. unfold char_isdigit. destruct (N.ltb_spec c 128).
    - rewrite ascii_digit_range. split; [auto|]. intros [X|[X _]]; [exact X|lia].
    - split; [auto|]. intros [X|[_ X]]; [lia|exact X]. }
  intros E s. unfold py_isdigit, digit_text. destruct s as [|x s]; [split; [discriminate|intros [X _]; congruence]|].
  rewrite forallb_forall. split.
  - intros H. split; [discriminate|]. intros c I. apply C. apply H. exact I.
  - intros [_ H] c I. apply C. apply H. exact I.
Qed.

Lemma int_value : forall E o z, py_int E (OVal o) = Ok z <-> value_number E o z.
Proof.
  intros E o z. split.
  - destruct o; cbn [py_int]; intros H; try discriminate; [apply value_text|injection H as <-; apply value_int|apply value_other_number]; apply int_number; exact H.
  - intros H. destruct H; cbn [py_int]; [reflexivity|apply int_number; assumption|apply int_number; assumption].
Qed.
