(** * Correctness of the derivative matcher *)

From Coq Require Import List NArith Bool String Lia.
From Verif Require Import PyBase PyFacts Regex.
Import ListNotations.
Local Open Scope N_scope.

Section Facts.
  Variable uw : N -> bool.
  Notation lang := (lang uw).
  Notation deriv := (deriv uw).
  Notation full := (full uw).

  Lemma lang_void : forall s, ~ lang Void s.
  Proof. intros s H. inversion H. Qed.
  Lemma lang_eps : forall s, lang Eps s <-> s = [].
  Proof. split; intros H; [inversion H; auto | subst; constructor]. Qed.
  Lemma lang_cls : forall c s, lang (Cls c) s <-> exists x, s = [x] /\ cmatch uw c x = true.
  Proof.
    split.
    - intros H. inversion H; subst. eauto.
    - intros [x [-> H]]. constructor. exact H.
  Qed.
  Lemma lang_seq : forall a b s, lang (Seq a b) s <-> exists u v, s = u ++ v /\ lang a u /\ lang b v.
  Proof.
    split.
    - intros H. inversion H; subst. eauto 6.
    - intros [u [v [-> [H1 H2]]]]. constructor; auto.
  Qed.
  Lemma lang_alt : forall a b s, lang (Alt a b) s <-> lang a s \/ lang b s.
  Proof.
    split.
    - intros H. inversion H; subst; auto.
    - intros [H|H]; [apply L_altl | apply L_altr]; auto.
  Qed.

  Lemma mkseq_lang : forall a b s, lang (mkseq a b) s <-> lang (Seq a b) s.
  Proof.
    intros. destruct a; simpl; try tauto.
    - split; intros H; inversion H; subst. inversion H2.
    - rewrite lang_seq. split.
      + intros H. exists [], s. split; auto. split; auto. constructor.
      + intros [u [v [-> [H1 H2]]]]. apply lang_eps in H1. subst. exact H2.
  Qed.

  Lemma mkalt_lang : forall a b s, lang (mkalt a b) s <-> lang (Alt a b) s.
  Proof.
    intros. rewrite lang_alt.
    assert (HV := lang_void s).
    destruct a; simpl; try tauto; destruct b; try rewrite lang_alt; tauto.
  Qed.

  Lemma nullable_correct : forall r, nullable r = true <-> lang r [].
  Proof.
    induction r; simpl.
    - split; [discriminate | intros H; inversion H].
    - split; [constructor | auto].
    - split; [discriminate | intros H; inversion H].
    - rewrite andb_true_iff, IHr1, IHr2, lang_seq. split.
      + intros [H1 H2]. exists [], []. auto.
      + intros [u [v [H [H1 H2]]]]. symmetry in H. apply app_eq_nil in H as [-> ->]. auto.
    - rewrite orb_true_iff, IHr1, IHr2, lang_alt. tauto.
    - split; auto. intros _. constructor.
  Qed.

  Lemma star_cons : forall a s, lang (Star a) s -> forall x s', s = x :: s' ->
    exists u v, s' = u ++ v /\ lang a (x :: u) /\ lang (Star a) v.
  Proof.
    intros a s H. remember (Star a) as r eqn:Er. induction H; try discriminate.
    inversion Er; subst. intros x s' E. destruct s as [|y s].
    - simpl in E. apply IHlang2; auto.
    - simpl in E. inversion E; subst. exists s, t. auto.
  Qed.

  Lemma deriv_correct : forall r x s, lang (deriv x r) s <-> lang r (x :: s).
  Proof.
    induction r; intros x s; simpl.
    - split; intros H; inversion H.
    - split; intros H; inversion H.
    - destruct (cmatch uw c x) eqn:E.
      + rewrite lang_eps, lang_cls. split.
        * intros ->. eauto.
        * intros [y [H _]]. congruence.
      + split; intros H; inversion H; subst. congruence.
    - assert (Hs : forall s, lang (mkseq (deriv x r1) r2) s <->
                 exists u v, s = u ++ v /\ lang r1 (x :: u) /\ lang r2 v).
      { intros s0. rewrite mkseq_lang, lang_seq. split; intros [u [v [? [H1 H2]]]]; exists u, v;
        rewrite IHr1 in *; auto. }
      destruct (nullable r1) eqn:N1.
      + rewrite mkalt_lang, lang_alt, Hs, IHr2, lang_seq. split.
        * intros [[u [v [-> [H1 H2]]]] | H].
          -- exists (x :: u), v. auto.
          -- exists [], (x :: s). split; auto. split; auto. apply nullable_correct; auto.
        * intros [[|y u] [v [E [H1 H2]]]]; simpl in E.
          -- right. subst. exact H2.
          -- inversion E; subst. left. exists u, v. auto.
      + rewrite Hs, lang_seq. split.
        * intros [u [v [-> [H1 H2]]]]. exists (x :: u), v. auto.
        * intros [[|y u] [v [E [H1 H2]]]]; simpl in E.
          -- apply nullable_correct in H1. congruence.
          -- inversion E; subst. exists u, v. auto.
    - rewrite mkalt_lang, !lang_alt, IHr1, IHr2. tauto.
    - rewrite mkseq_lang, lang_seq. split.
      + intros [u [v [-> [H1 H2]]]]. rewrite IHr in H1.
        change (x :: u ++ v) with ((x :: u) ++ v). constructor; auto.
      + intros H. destruct (star_cons _ _ H x s eq_refl) as [u [v [-> [H1 H2]]]].
        exists u, v. rewrite IHr. auto.
  Qed.

  Theorem full_correct : forall s r, full r s = true <-> lang r s.
  Proof.
    induction s; intros r; simpl.
    - apply nullable_correct.
    - rewrite IHs. apply deriv_correct.
  Qed.

  Theorem prefix_correct : forall s r, prefix uw r s = true <-> exists u v, s = u ++ v /\ lang r u.
  Proof.
    induction s as [|x s IH]; intros r; simpl.
    - rewrite orb_false_r, nullable_correct. split.
      + intros H. exists [], []. auto.
      + intros [u [v [E H]]]. symmetry in E. apply app_eq_nil in E as [-> ->]. exact H.
    - rewrite orb_true_iff, nullable_correct, IH. split.
      + intros [H | [u [v [-> H]]]].
        * exists [], (x :: s). auto.
        * exists (x :: u), v. split; auto. apply deriv_correct. exact H.
      + intros [[|y u] [v [E H]]]; simpl in E.
        * left. exact H.
        * inversion E; subst. right. exists u, v. split; auto. apply deriv_correct. exact H.
  Qed.

  Theorem dollar_correct : forall r s, dollar uw r s = true <->
    lang r s \/ exists t, s = t ++ [ch_nl] /\ lang r t.
  Proof.
    intros r s. unfold dollar. rewrite orb_true_iff, full_correct.
    destruct (rev s) as [|x t] eqn:E.
    - assert (s = []). { rewrite <- (rev_involutive s), E. reflexivity. } subst.
      split; [intros [H|H]; [auto | discriminate] | intros [H|[t [H _]]]; auto].
      symmetry in H. apply app_eq_nil in H as [_ H]. discriminate.
    - assert (Hs : s = rev t ++ [x]). { rewrite <- (rev_involutive s), E. reflexivity. }
      rewrite andb_true_iff, N.eqb_eq, full_correct. split.
      + intros [H | [-> H]]; auto. right. eauto.
      + intros [H | [u [Hu H]]]; auto. right.
        rewrite Hs in Hu. apply app_inj_tail in Hu as [-> ->]. auto.
  Qed.

  (** repeated character class *)
  Lemma star_cls : forall c s, lang (Star (Cls c)) s <-> Forall (fun x => cmatch uw c x = true) s.
  Proof.
    intros c s. split.
    - intros H. remember (Star (Cls c)) as r eqn:Er. induction H; try discriminate.
      + constructor.
      + inversion Er; subst. apply lang_cls in H as [x [-> Hx]]. constructor; auto.
    - induction 1.
      + constructor.
      + change (x :: l) with ([x] ++ l). constructor; auto. constructor. auto.
  Qed.
End Facts.
