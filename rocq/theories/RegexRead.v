(** * The parser of patterns reads the texts of Spec_Regex.v *)

From Coq Require Import List NArith Bool String Lia.
From Verif Require Import PyBase PyFacts Regex RegexFacts Spec_Regex.
Import ListNotations.
Local Open Scope N_scope.

(** ** The matches on characters as tests *)
Ltac bits p := destruct p as [p|p|]; try reflexivity; try (exfalso; congruence).
Ltac allbits c := destruct c as [|p]; [reflexivity|]; do 8 (try (bits p)).

Lemma case93 : forall {A} (c : N) (a b : A), match c with 93 => a | _ => b end = if c =? 93 then a else b.
Proof. intros A c a b. destruct (N.eqb_spec c 93) as [->|H]; [reflexivity|]. allbits c. Qed.

Lemma class_char_eq : forall s, class_char s =
  match s with
  | [] => None
  | c :: s' =>
      if c =? 92 then
        match s' with
        | [] => Some (CClit c, Some c, [])
        | d :: s2 => if d =? 119 then Some (CCword, None, s2) else if is_alnum_ascii d then None else Some (CClit d, Some d, s2)
        end
      else Some (CClit c, Some c, s')
  end.
Proof.
  intros [|c s]; [reflexivity|]. destruct (N.eqb_spec c 92) as [->|H].
  - destruct s as [|d s]; [reflexivity|]. destruct (N.eqb_spec d 119) as [->|H]; [reflexivity|]. unfold class_char. allbits d.
  - unfold class_char. allbits c.
Qed.

(** what follows a member of a set *)
Lemma class_next_eq : forall {A} (lo : option N) (s1 : pystr) (dash other : A) (range : N -> pystr -> A) (bad : A),
  match lo, s1 with
  | _, 45 :: 93 :: _ => dash
  | None, 45 :: _ => bad
  | Some a, 45 :: s2 => range a s2
  | _, _ => other
  end =
  match s1 with
  | c :: s2 => if c =? 45 then match s2 with
                               | d :: _ => if d =? 93 then dash else match lo with None => bad | Some a => range a s2 end
                               | [] => match lo with None => bad | Some a => range a s2 end
                               end
               else other
  | [] => other
  end.
Proof.
  intros A lo s1 dash other range bad. destruct s1 as [|c s2]; [destruct lo; reflexivity|]. destruct (N.eqb_spec c 45) as [->|H].
  - destruct s2 as [|d s3]; [destruct lo; reflexivity|]. destruct (N.eqb_spec d 93) as [->|H]; [destruct lo; reflexivity|]. destruct lo; allbits d.
  - destruct lo; allbits c.
Qed.

Lemma p_class_eq : forall n first s, p_class (S n) first s =
  match s with
  | [] => None
  | c :: s' =>
      if c =? 93 then (if first then None else Some (CCnone, s'))
      else match class_char s with
           | None => None
           | Some (cc, lo, s1) =>
               let continue (cc : cclass) (s : pystr) :=
                 match p_class n false s with Some (cc', s') => Some (CCor cc cc', s') | None => None end in
               match s1 with
               | c :: s2 => if c =? 45 then
                   let range := match lo with
                                | None => None
                                | Some a => match class_char s2 with
                                            | Some (_, Some b, s3) => if a <=? b then continue (CCrange a b) s3 else None
                                            | _ => None
                                            end
                                end in
                   match s2 with
                   | d :: _ => if d =? 93 then continue cc s1 else range
                   | [] => range
                   end
                   else continue cc s1
               | [] => continue cc s1
               end
           end
  end.
Proof.
  intros n first s. destruct s as [|c s]; [reflexivity|]. cbn [p_class]. rewrite case93. destruct (c =? 93); [reflexivity|].
  destruct (class_char (c :: s)) as [[[cc lo] s1]|]; [|reflexivity]. apply class_next_eq.
Qed.

Lemma p_alt_eq : forall n s, p_alt (S n) s =
  match p_seq n s with
  | None => None
  | Some (r, rest) =>
      match rest with
      | c :: rest' => if c =? 124 then match p_alt n rest' with Some (rs, rest2) => Some (r :: rs, rest2) | None => None end else Some ([r], rest)
      | [] => Some ([r], rest)
      end
  end.
Proof.
  intros n s. cbn [p_alt]. destruct (p_seq n s) as [[r rest]|]; [|reflexivity]. destruct rest as [|c rest]; [reflexivity|].
  destruct (N.eqb_spec c 124) as [->|H]; [reflexivity|]. allbits c.
Qed.

Lemma p_atom_eq : forall n s, p_atom (S n) s =
  match s with
  | [] => None
  | c :: s' =>
      if c =? 40 then
        match s' with
        | d :: _ => if d =? 63 then None else match p_alt n s' with Some (rs, x :: rest) => if x =? 41 then Some (alts rs, rest) else None | _ => None end
        | [] => match p_alt n s' with Some (rs, x :: rest) => if x =? 41 then Some (alts rs, rest) else None | _ => None end
        end
      else if c =? 91 then
        match s' with
        | d :: s2 => if d =? 94 then match p_class n true s2 with Some (cc, rest) => Some (Cls (CCnot cc), rest) | None => None end
                     else match p_class n true s' with Some (cc, rest) => Some (Cls cc, rest) | None => None end
        | [] => match p_class n true s' with Some (cc, rest) => Some (Cls cc, rest) | None => None end
        end
      else if c =? 46 then Some (Cls CCany, s')
      else if c =? 92 then
        match s' with
        | d :: s2 => if d =? 119 then Some (Cls CCword, s2) else if is_alnum_ascii d then None else Some (Cls (CClit d), s2)
        | [] => None
        end
      else if is_special c then None else Some (Cls (CClit c), s')
  end.
Proof.
  intros n s. destruct s as [|c s]; [reflexivity|].
  assert (C41 : forall (m : option (list re * pystr)), match m with Some (rs, 41 :: rest) => Some (alts rs, rest) | _ => None end
     = match m with Some (rs, x :: rest) => if x =? 41 then Some (alts rs, rest) else None | _ => None end).
  { intros [[rs [|x rest]]|]; try reflexivity. destruct (N.eqb_spec x 41) as [->|H]; [reflexivity|]. allbits x. }
  destruct (N.eqb_spec c 40) as [->|H40].
  { destruct s as [|d s]; [cbn [p_atom]; apply C41|]. rewrite <- !C41. destruct (N.eqb_spec d 63) as [->|H]; [reflexivity|]. cbn [p_atom]. allbits d. }
  destruct (N.eqb_spec c 91) as [->|H91].
  { destruct s as [|d s]; [reflexivity|]. destruct (N.eqb_spec d 94) as [->|H]; [reflexivity|]. cbn [p_atom]. allbits d. }
  destruct (N.eqb_spec c 46) as [->|H46]; [reflexivity|].
  destruct (N.eqb_spec c 92) as [->|H92].
  { destruct s as [|d s]; [reflexivity|]. destruct (N.eqb_spec d 119) as [->|H]; [reflexivity|]. cbn [p_atom]. allbits d. }
  cbn [p_atom]. allbits c.
Qed.

(** ** Characters *)
Lemma alnum_spec : forall c, is_alnum_ascii c = true <-> letter_or_digit c.
Proof.
  intros c. unfold is_alnum_ascii, ascii_lower, ascii_upper, ascii_digit, letter_or_digit, lower, upper, digit.
  rewrite !orb_true_iff, !andb_true_iff, !N.leb_le. tauto.
Qed.
Lemma alnum_false : forall c, is_alnum_ascii c = false <-> ~ letter_or_digit c.
Proof. intros c. rewrite <- alnum_spec. destruct (is_alnum_ascii c); split; congruence. Qed.
Lemma special_spec : forall c, is_special c = true <-> special c.
Proof.
  intros c. unfold is_special, special. rewrite existsb_exists. split.
  - intros (x & I & E). apply N.eqb_eq in E. subst. auto.
  - intros I. exists c. split; auto. apply N.eqb_refl.
Qed.
Lemma special_false : forall c, is_special c = false <-> ~ special c.
Proof. intros c. rewrite <- special_spec. destruct (is_special c); split; congruence. Qed.

Section Read.
  Context (uw : N -> bool).
  Notation cmatch := (cmatch uw).
  Notation lang := (lang uw).
  Notation set_text := (set_text uw).
  Notation atom_text := (atom_text uw).
  Notation piece_text := (piece_text uw).
  Notation branch_text := (branch_text uw).
  Notation alternatives := (alternatives uw).

  Lemma word_spec : forall x, is_word uw x = true <-> word_char uw x.
  Proof.
    intros x. unfold is_word, word_char, ascii_word, ascii_lower, ascii_upper, ascii_digit, lower, upper, digit, underscore.
    destruct (N.ltb_spec x 128).
    - rewrite !orb_true_iff, !andb_true_iff, !N.leb_le, N.eqb_eq. split; [tauto|]. intros [?|[?|[?|[?|[? _]]]]]; auto; lia.
    - split; [intros U; do 4 right; auto|]. intros [U|[U|[U|[U|[_ U]]]]]; auto; lia.
  Qed.

  (** ** Sets *)
  Definition same_set (cc : cclass) (P : N -> Prop) : Prop := forall x, cmatch cc x = true <-> P x.

  Lemma set_char_read : forall m c s, set_char m c -> class_char (m ++ s) = Some (CClit c, Some c, s) /\ exists x m', m = x :: m' /\ x <> 93.
  Proof.
    intros m c s H. destruct H as [c A B|c A]; rewrite class_char_eq; cbn [app].
    - replace (c =? 92) with false by (symmetry; apply N.eqb_neq; auto). split; eauto.
    - change (92 =? 92) with true. cbv iota. replace (c =? 119) with false; [apply alnum_false in A; rewrite A; split; [auto|exists 92, [c]; split; [auto|discriminate]]|].
      symmetry. apply N.eqb_neq. intros ->. apply A. left. unfold lower. lia.
  Qed.
  Lemma class_char_sound : forall s cc lo s1, class_char s = Some (cc, lo, s1) -> (forall t, s <> 93 :: t) ->
    (exists c m, cc = CClit c /\ lo = Some c /\ s = m ++ s1 /\ (set_char m c \/ (m = [92] /\ s1 = []))) \/ (cc = CCword /\ lo = None /\ s = 92 :: 119 :: s1).
  Proof.
    intros s cc lo s1 H Q. rewrite class_char_eq in H. destruct s as [|c s]; [discriminate|]. destruct (N.eqb_spec c 92) as [->|C].
    - destruct s as [|d s].
      + injection H as <- <- <-. left. exists 92, [92]. auto 6.
      + destruct (N.eqb_spec d 119) as [->|D]; [injection H as <- <- <-; auto|]. destruct (is_alnum_ascii d) eqn:A; [discriminate|]. injection H as <- <- <-.
        left. exists d, [92; d]. split; auto. split; auto. split; auto. left. constructor. apply alnum_false. auto.
    - injection H as <- <- <-. left. exists c, [c]. split; auto. split; auto. split; auto. left. constructor; auto. intros ->. exact (Q s eq_refl).
  Qed.

  Lemma same_or : forall a b P Q, same_set a P -> same_set b Q -> same_set (CCor a b) (fun x => P x \/ Q x).
  Proof. intros a b P Q A B x. cbn [Regex.cmatch]. rewrite orb_true_iff. specialize (A x). specialize (B x). tauto. Qed.
  Lemma same_lit : forall c, same_set (CClit c) (fun x => x = c).
  Proof. intros c x. cbn [Regex.cmatch]. apply N.eqb_eq. Qed.
  Lemma same_range : forall a b, same_set (CCrange a b) (fun x => a <= x <= b).
  Proof. intros a b x. cbn [Regex.cmatch]. rewrite andb_true_iff, !N.leb_le. tauto. Qed.
  Lemma same_word : same_set CCword (word_char uw).
  Proof. intros x. cbn [Regex.cmatch]. apply word_spec. Qed.

  Lemma set_first : forall t P, set_text t P -> forall x t', t = x :: t' -> x <> 93.
  Proof.
    intros t P H. destruct H as [|m c t P M _ _|t P _ _|m a m' b t P M _ _ _]; intros x t' E.
    - discriminate.
    - destruct (set_char_read m c [] M) as (_ & y & m1 & -> & Y). cbn [app] in E. congruence.
    - injection E as <- _. discriminate.
    - destruct (set_char_read m a [] M) as (_ & y & m1 & -> & Y). cbn [app] in E. congruence.
  Qed.

  Lemma no_bracket : forall t P, ~ set_text (45 :: 93 :: t) P.
  Proof.
    intros t P H. inversion H as [|m c t0 P0 M N1 T E|t0 P0 N1 T E|m a m' b t0 P0 M M' L T E]; subst.
    - inversion M; subst; cbn [app] in E; [|discriminate]. assert (t0 = 93 :: t) by congruence. subst t0. exact (set_first _ _ T 93 t eq_refl eq_refl).
    - inversion M; subst; cbn [app] in E; discriminate.
  Qed.

  Lemma set_sound : forall n first s cc rest, p_class n first s = Some (cc, rest) ->
    exists t P, s = t ++ 93 :: rest /\ set_text t P /\ same_set cc P /\ (first = true -> t <> []).
  Proof.
    induction n as [|n IH]; intros first s cc rest H; [discriminate|]. rewrite p_class_eq in H. destruct s as [|c s]; [discriminate|].
    destruct (N.eqb_spec c 93) as [->|C].
    { destruct first; [discriminate|]. injection H as <- <-. exists [], (fun _ => False). split; auto. split; [constructor|]. split; [|discriminate].
      intros x. cbn [Regex.cmatch]. split; [discriminate|tauto]. }
    destruct (class_char (c :: s)) as [[[k lo] s1]|] eqn:K; [|discriminate].
    assert (Q : forall t, c :: s <> 93 :: t) by congruence.
    pose proof (class_char_sound _ _ _ _ K Q) as D.
    assert (Go : forall k, match p_class n false s1 with Some (cc', s') => Some (CCor k cc', s') | None => None end = Some (cc, rest) ->
       exists t P cc', s1 = t ++ 93 :: rest /\ set_text t P /\ same_set cc' P /\ cc = CCor k cc').
    { intros k0 H0. destruct (p_class n false s1) as [[cc' r']|] eqn:E; [|discriminate]. injection H0 as <- <-. destruct (IH _ _ _ _ E) as (t & P & -> & T & S & _). exists t, P, cc'. auto. }
    assert (Plain : (forall t, s1 = 45 :: t -> exists t', t = 93 :: t') ->
       match p_class n false s1 with Some (cc', s') => Some (CCor k cc', s') | None => None end = Some (cc, rest) ->
       exists t P, c :: s = t ++ 93 :: rest /\ set_text t P /\ same_set cc P /\ (first = true -> t <> [])).
    { intros N1 H0. destruct (Go _ H0) as (t & P & cc' & -> & T & S & ->).
      assert (N2 : forall t', t = 45 :: t' -> t' = []).
      { intros t' ->. destruct (N1 _ eq_refl) as (x & E). destruct t' as [|y t']; auto. cbn [app] in E. assert (y = 93) by congruence. subst y.
        exfalso. exact (no_bracket _ _ T). }
      destruct D as [(d & m & -> & -> & E & [M|[-> E1]])|(-> & -> & E)].
      - exists (m ++ t), (fun x => x = d \/ P x). rewrite E, <- app_assoc. split; auto. split; [apply st_char; auto|]. split; [apply same_or; auto; apply same_lit|].
        intros _. inversion M; discriminate.
      - destruct t; discriminate.
      - exists (92 :: 119 :: t), (fun x => word_char uw x \/ P x). rewrite E. split; auto. split; [apply st_word; auto|]. split; [apply same_or; auto; apply same_word|discriminate]. }
    cbv zeta in H. destruct s1 as [|c1 s2]; [apply Plain; auto; discriminate|]. destruct (N.eqb_spec c1 45) as [->|C1]; [|apply Plain; auto; congruence].
    assert (Range : match lo with
              | Some a => match class_char s2 with
                          | Some (_, Some b, s3) => if a <=? b then match p_class n false s3 with Some (cc', s') => Some (CCor (CCrange a b) cc', s') | None => None end else None
                          | _ => None
                          end
              | None => None end = Some (cc, rest) -> (forall t, s2 <> 93 :: t) ->
        exists t P, c :: s = t ++ 93 :: rest /\ set_text t P /\ same_set cc P /\ (first = true -> t <> [])).
    { intros H0 Q2. destruct lo as [a|]; [|discriminate]. destruct (class_char s2) as [[[k2 [b|]] s3]|] eqn:K2; try discriminate.
      pose proof (class_char_sound _ _ _ _ K2 Q2) as D2. destruct (N.leb_spec a b) as [L|]; [|discriminate].
      destruct (p_class n false s3) as [[cc' r']|] eqn:E; [|discriminate]. injection H0 as <- <-. destruct (IH _ _ _ _ E) as (t & P & -> & T & S & _).
      destruct D as [(d & m & -> & Ed & E1 & [M|[-> E1']])|(-> & F & _)]; [|discriminate|discriminate]. injection Ed as <-.
      destruct D2 as [(d2 & m2 & -> & Ed2 & E2 & [M2|[-> E2']])|(_ & F & _)]; [|destruct t; discriminate|discriminate]. injection Ed2 as <-.
      exists (m ++ 45 :: m2 ++ t), (fun x => a <= x <= b \/ P x). rewrite E1, E2. split; [rewrite <- !app_assoc; cbn [app]; rewrite <- !app_assoc; auto|].
      split; [apply st_range; auto|]. split; [apply same_or; auto; apply same_range|]. intros _. inversion M; discriminate. }
    destruct s2 as [|d s2']; [apply Range; auto; discriminate|]. destruct (N.eqb_spec d 93) as [->|D93]; [apply Plain; auto; intros t E; injection E as <-; eauto|].
    apply Range; auto. congruence.
  Qed.

  Lemma set_complete : forall t P, set_text t P -> forall n first rest, (List.length t < n)%nat -> (first = true -> t <> []) ->
    exists cc, p_class n first (t ++ 93 :: rest) = Some (cc, rest) /\ same_set cc P.
  Proof.
    induction 1 as [|m c t P M N1 T IH|t P N1 T IH|m a m' b t P M M' L T IH]; intros n first rest Ln F; (destruct n as [|n]; [lia|]); rewrite p_class_eq.
    - cbn [app]. change (93 =? 93) with true. cbv iota. destruct first; [exfalso; apply F; auto|]. exists CCnone. split; auto. intros x. cbn [Regex.cmatch]. split; [discriminate|tauto].
    - destruct (set_char_read m c (t ++ 93 :: rest) M) as (R & y & m1 & -> & Y). rewrite <- app_assoc. rewrite R. cbn [app]. replace (y =? 93) with false by (symmetry; apply N.eqb_neq; auto).
      cbn [app List.length] in Ln. rewrite app_length in Ln. destruct (IH n false rest ltac:(lia) ltac:(discriminate)) as (cc & E & S).
      cbv zeta. rewrite E. exists (CCor (CClit c) cc). split; [|apply same_or; auto; apply same_lit].
      destruct t as [|z t]; cbn [app]; [change (93 =? 45) with false; auto|]. destruct (N.eqb_spec z 45) as [->|Z]; auto.
      rewrite (N1 t eq_refl). cbn [app]. change (93 =? 93) with true. auto.
    - rewrite class_char_eq. cbn [app]. change (92 =? 93) with false. change (92 =? 92) with true. change (119 =? 119) with true. cbv iota. cbn [List.length] in Ln.
      destruct (IH n false rest ltac:(lia) ltac:(discriminate)) as (cc & E & S). cbv zeta. rewrite E. exists (CCor CCword cc). split; [|apply same_or; auto; apply same_word].
      destruct t as [|z t]; cbn [app]; [change (93 =? 45) with false; auto|]. destruct (N.eqb_spec z 45) as [->|Z]; auto.
      rewrite (N1 t eq_refl). cbn [app]. change (93 =? 93) with true. auto.
    - repeat (rewrite <- !app_assoc; cbn [app]). destruct (set_char_read m a (45 :: m' ++ t ++ 93 :: rest) M) as (R & y & m1 & -> & Y). rewrite R. cbn [app].
      replace (y =? 93) with false by (symmetry; apply N.eqb_neq; auto). change (45 =? 45) with true. cbv iota zeta.
      destruct (set_char_read m' b (t ++ 93 :: rest) M') as (R' & y' & m1' & -> & Y'). rewrite R'. cbn [app]. replace (y' =? 93) with false by (symmetry; apply N.eqb_neq; auto).
      replace (a <=? b) with true by (symmetry; apply N.leb_le; auto). repeat (rewrite !app_length in Ln; cbn [app List.length] in Ln).
      destruct (IH n false rest ltac:(lia) ltac:(discriminate)) as (cc & E & S). rewrite E. exists (CCor (CCrange a b) cc). split; auto. apply same_or; auto. apply same_range.
  Qed.

  (** ** Expressions *)
  Definition same (r : re) (L : pystr -> Prop) : Prop := forall s, lang r s <-> L s.

  Lemma same_cls : forall cc P, same_set cc P -> same (Cls cc) (fun s => exists x, s = [x] /\ P x).
  Proof. intros cc P H s. rewrite lang_cls. split; intros (x & E & X); exists x; split; auto; apply H; auto. Qed.
  Lemma same_char : forall c, same (Cls (CClit c)) (fun s => s = [c]).
  Proof.
    intros c s. rewrite (same_cls _ _ (same_lit c) s). split; [intros (x & -> & ->); auto|intros ->; eauto].
  Qed.
  Lemma same_any : same (Cls CCany) (fun s => exists x, s = [x] /\ x <> 10).
  Proof. apply same_cls. intros x. cbn [Regex.cmatch]. unfold ch_nl. destruct (N.eqb_spec x 10); cbn [negb]; split; intros Q; congruence. Qed.
  Lemma same_not : forall cc P, same_set cc P -> same (Cls (CCnot cc)) (fun s => exists x, s = [x] /\ ~ P x).
  Proof. intros cc P H. apply (same_cls (CCnot cc) (fun x => ~ P x)). intros x. cbn [Regex.cmatch]. rewrite <- (H x). destruct (cmatch cc x); cbn [negb]; split; intros Q; try congruence; exfalso; apply Q; auto. Qed.
  Lemma same_seq : forall a b L L', same a L -> same b L' -> same (Seq a b) (fun s => exists u v, s = u ++ v /\ L u /\ L' v).
  Proof.
    intros a b L L' A B s. rewrite lang_seq. split; intros (u & v & E & U & V); exists u, v; (split; [auto|]); split; try apply A; try apply B; auto.
  Qed.
  Lemma star_concat : forall a s, lang (Star a) s <-> exists l, s = List.concat l /\ Forall (lang a) l.
  Proof.
    intros a s. split.
    - intros H. remember (Star a) as r eqn:R. induction H; try discriminate.
      + exists []. auto.
      + injection R as ->. destruct (IHlang2 eq_refl) as (l & -> & F). exists (s :: l). auto.
    - intros (l & -> & F). induction F; cbn [List.concat]; [constructor|]. apply L_star1; auto.
  Qed.
  Lemma same_all : forall a L l, same a L -> (Forall (lang a) l <-> Forall L l).
  Proof. intros a L l H. split; apply Forall_impl; intros s; apply H. Qed.
  Lemma same_star : forall a L, same a L -> same (Star a) (fun s => exists l, s = List.concat l /\ Forall L l).
  Proof. intros a L H s. rewrite star_concat. split; intros (l & E & F); exists l; split; auto; apply (same_all _ _ _ H); auto. Qed.
  Lemma same_plus : forall a L, same a L -> same (Seq a (Star a)) (fun s => exists l, s = List.concat l /\ Forall L l /\ l <> []).
  Proof.
    intros a L H s. rewrite lang_seq. split.
    - intros (u & v & -> & U & V). apply star_concat in V. destruct V as (l & -> & F). exists (u :: l). split; auto. split; [|discriminate].
      constructor; [apply H; auto|apply (same_all _ _ _ H); auto].
    - intros (l & -> & F & Nn). destruct l as [|u l]; [congruence|]. inversion F; subst. rename H2 into U, H3 into F'. exists u, (List.concat l). split; auto. split; [apply H; auto|]. apply star_concat. exists l. split; auto. apply (same_all _ _ _ H); auto.
  Qed.
  Lemma same_option : forall a L, same a L -> same (Alt a Eps) (fun s => s = [] \/ L s).
  Proof. intros a L H s. rewrite lang_alt, lang_eps, (H s). tauto. Qed.
  Lemma same_alts : forall rs Ls, Forall2 same rs Ls -> same (alts rs) (fun s => Exists (fun L => L s) Ls).
  Proof.
    intros rs Ls H. induction H as [|r L rs Ls R F IH]; intros s.
    - cbn [alts]. split; [intros V; destruct (lang_void uw s V)|intros V; inversion V].
    - rewrite Exists_cons. destruct F as [|r2 L2 rs Ls R2 F].
      + cbn [alts]. rewrite (R s), Exists_nil. tauto.
      + change (alts (r :: r2 :: rs)) with (Alt r (alts (r2 :: rs))). rewrite lang_alt, (R s), (IH s). tauto.
  Qed.

  Lemma post_sound : forall a s r rest t L, p_post a s = Some (r, rest) -> atom_text t L -> same a L ->
    exists q L', s = q ++ rest /\ piece_text (t ++ q) L' /\ same r L'.
  Proof.
    intros a s r rest t L H T S. unfold p_post in H.
    assert (Q : forall c s', is_quant c = true -> Some (if c =? 42 then Star a else if c =? 43 then Seq a (Star a) else Alt a Eps, s') = Some (r, rest) ->
       exists q L', c :: s' = q ++ rest /\ piece_text (t ++ q) L' /\ same r L').
    { intros c s' C E. assert (s' = rest) by congruence. assert (Er : (if c =? 42 then Star a else if c =? 43 then Seq a (Star a) else Alt a Eps) = r) by congruence.
      subst s' r. clear E H. unfold is_quant in C. exists [c]. destruct (N.eqb_spec c 42) as [E42|C1]; [rewrite E42 in *|].
      - eexists. split; [auto|]. split; [apply pt_star; exact T|apply same_star; auto].
      - destruct (N.eqb_spec c 43) as [E43|C2]; [rewrite E43 in *|].
        + eexists. split; [auto|]. split; [apply pt_plus; exact T|apply same_plus; auto].
        + cbn [orb] in C. apply N.eqb_eq in C. rewrite C in *. eexists. split; [auto|]. split; [apply pt_option; exact T|apply same_option; auto]. }
    destruct s as [|c s'].
    - assert (a = r) by congruence. subst r. assert (rest = []) by congruence. subst rest. exists [], L. rewrite (app_nil_r t). split; [auto|]. split; [apply pt_once; exact T|exact S].
    - destruct (is_quant c) eqn:C.
      + destruct s' as [|d s2]; [apply (Q c []); auto|]. destruct (is_quant d); [discriminate|]. apply (Q c (d :: s2)); auto.
      + assert (a = r) by congruence. subst r. assert (rest = c :: s') by congruence. subst rest. exists [], L. rewrite (app_nil_r t). split; [auto|]. split; [apply pt_once; exact T|exact S].
  Qed.

  Lemma parse_sound : forall n,
    (forall s rs rest, p_alt n s = Some (rs, rest) -> exists t Ls, s = t ++ rest /\ alternatives t Ls /\ Forall2 same rs Ls)
    /\ (forall s r rest, p_seq n s = Some (r, rest) -> exists t L, s = t ++ rest /\ branch_text t L /\ same r L)
    /\ (forall s r rest, p_atom n s = Some (r, rest) -> exists t L, s = t ++ rest /\ atom_text t L /\ same r L).
  Proof.
    induction n as [|n (IA & IS & IT)]; [split; [|split]; intros; discriminate|]. split; [|split].
    - intros s rs rest H. rewrite p_alt_eq in H. destruct (p_seq n s) as [[r r1]|] eqn:P; [|discriminate]. destruct (IS _ _ _ P) as (t & L & -> & T & S).
      assert (One : forall r2, Some ([r], r1) = Some (rs, r2) -> exists t' Ls, t ++ r1 = t' ++ r2 /\ alternatives t' Ls /\ Forall2 same rs Ls).
      { intros r2 E. injection E as <- <-. exists t, [L]. split; auto. split; [constructor; auto|auto]. }
      destruct r1 as [|c r1]; [apply One; auto|]. destruct (N.eqb_spec c 124) as [->|]; [|apply One; auto].
      destruct (p_alt n r1) as [[rs' r2]|] eqn:P2; [|discriminate]. injection H as <- <-. destruct (IA _ _ _ P2) as (t' & Ls & -> & T' & S').
      exists (t ++ 124 :: t'), (L :: Ls). split; [rewrite <- app_assoc; auto|]. split; [constructor; auto|auto].
    - intros s r rest H. cbn [p_seq] in H. destruct s as [|c s]; [injection H as <- <-; exists [], (fun s => s = []); split; auto; split; [constructor|intros x; apply lang_eps]|].
      destruct ((c =? 124) || (c =? 41)); [injection H as <- <-; exists [], (fun s => s = []); split; auto; split; [constructor|intros x; apply lang_eps]|].
      destruct (p_atom n (c :: s)) as [[a r1]|] eqn:P; [|discriminate]. destruct (IT _ _ _ P) as (t & L & E & T & S).
      destruct (p_post a r1) as [[a' r2]|] eqn:P2; [|discriminate]. destruct (post_sound _ _ _ _ _ _ P2 T S) as (q & L' & -> & T2 & S2).
      destruct (p_seq n r2) as [[r' r3]|] eqn:P3; [|discriminate]. injection H as <- <-. destruct (IS _ _ _ P3) as (t3 & L3 & -> & T3 & S3).
      exists ((t ++ q) ++ t3), (fun s => exists u v, s = u ++ v /\ L' u /\ L3 v). split; [rewrite E, <- !app_assoc; auto|]. split; [apply bt_next; auto|apply same_seq; auto].
    - intros s r rest H. rewrite p_atom_eq in H. destruct s as [|c s]; [discriminate|]. destruct (N.eqb_spec c 40) as [->|C40].
      { assert (H' : match p_alt n s with Some (rs, x :: rest) => if x =? 41 then Some (alts rs, rest) else None | _ => None end = Some (r, rest)).
        { destruct s as [|d s]; auto. destruct (d =? 63); [discriminate|auto]. }
        clear H. destruct (p_alt n s) as [[rs [|x r1]]|] eqn:P; try discriminate. destruct (N.eqb_spec x 41) as [->|]; [|discriminate]. injection H' as <- <-.
        destruct (IA _ _ _ P) as (t & Ls & -> & T & S). exists (40 :: t ++ [41]), (fun s => Exists (fun L => L s) Ls). split; [cbn [app]; rewrite <- app_assoc; auto|].
        split; [apply at_group; auto|apply same_alts; auto]. }
      destruct (N.eqb_spec c 91) as [->|C91].
      { assert (Plain : (forall s', s <> 94 :: s') -> match p_class n true s with Some (cc, rest) => Some (Cls cc, rest) | None => None end = Some (r, rest) ->
           exists t L, 91 :: s = t ++ rest /\ atom_text t L /\ same r L).
        { intros Q H'. destruct (p_class n true s) as [[cc r1]|] eqn:P; [|discriminate]. injection H' as <- <-. destruct (set_sound _ _ _ _ _ P) as (t & Pt & -> & T & S & Nn).
          exists (91 :: t ++ [93]), (fun s => exists x, s = [x] /\ Pt x). split; [cbn [app]; rewrite <- app_assoc; auto|]. split; [|apply same_cls; auto].
          apply at_set; auto. intros t' ->. exact (Q _ eq_refl). }
        destruct s as [|d s]; [apply Plain; auto; discriminate|]. destruct (N.eqb_spec d 94) as [->|D]; [|apply Plain; auto; congruence].
        destruct (p_class n true s) as [[cc r1]|] eqn:P; [|discriminate]. injection H as <- <-. destruct (set_sound _ _ _ _ _ P) as (t & Pt & -> & T & S & Nn).
        exists (91 :: 94 :: t ++ [93]), (fun s => exists x, s = [x] /\ ~ Pt x). split; [cbn [app]; rewrite <- app_assoc; auto|]. split; [apply at_not; auto|apply same_not; auto]. }
      destruct (N.eqb_spec c 46) as [->|C46]. { injection H as <- <-. exists [46]. eexists. split; [auto|]. split; [apply at_any|apply same_any]. }
      destruct (N.eqb_spec c 92) as [->|C92].
      { destruct s as [|d s]; [discriminate|]. destruct (N.eqb_spec d 119) as [->|D].
        - injection H as <- <-. exists [92; 119]. eexists. split; [auto|]. split; [apply at_word|]. apply same_cls. apply same_word.
        - destruct (is_alnum_ascii d) eqn:A; [discriminate|]. injection H as <- <-. exists [92; d]. eexists. split; [auto|]. split; [apply at_escape; apply alnum_false; auto|apply same_char]. }
      destruct (is_special c) eqn:Sp; [discriminate|]. injection H as <- <-. exists [c]. eexists. split; [auto|]. split; [apply at_char; apply special_false; auto|apply same_char].
  Qed.

  (** ** All texts of patterns are read *)
  Scheme atom_text_ind4 := Minimality for Spec_Regex.atom_text Sort Prop
  with piece_text_ind4 := Minimality for Spec_Regex.piece_text Sort Prop
  with branch_text_ind4 := Minimality for Spec_Regex.branch_text Sort Prop
  with alternatives_ind4 := Minimality for Spec_Regex.alternatives Sort Prop.
  Combined Scheme expression_ind from atom_text_ind4, piece_text_ind4, branch_text_ind4, alternatives_ind4.

  Definition starts (c : N) : Prop := is_quant c = false /\ c <> 124 /\ c <> 41.
  Lemma plain_starts : forall c, ~ special c -> starts c.
  Proof.
    intros c H. unfold starts, is_quant. repeat split; try (intros ->; apply H; unfold special; cbn; tauto).
    rewrite !orb_false_iff, !N.eqb_neq. repeat split; intros ->; apply H; unfold special; cbn; tauto.
  Qed.
  Lemma atom_first : forall t L, atom_text t L -> exists c t', t = c :: t' /\ starts c.
  Proof.
    intros t L H. destruct H; try (eexists; eexists; split; [reflexivity|]; split; [reflexivity|]; split; discriminate).
    exists c, []. split; auto. apply plain_starts. auto.
  Qed.
  Lemma piece_first : forall t L, piece_text t L -> exists c t', t = c :: t' /\ starts c.
  Proof. intros t L H. destruct H; destruct (atom_first _ _ H) as (c & t' & -> & S); exists c; eexists; split; auto; reflexivity. Qed.
  Lemma branch_first : forall t L, branch_text t L -> t = [] \/ exists c t', t = c :: t' /\ starts c.
  Proof. intros t L H. destruct H; [auto|]. right. destruct (piece_first _ _ H) as (c & x & -> & S). exists c, (x ++ t'). auto. Qed.
  Lemma alternatives_first : forall t Ls x, alternatives t Ls -> exists c t', t ++ 41 :: x = c :: t' /\ c <> 63.
  Proof.
    assert (B : forall t L x, branch_text t L -> forall y, y <> 63 -> exists c t', t ++ y :: x = c :: t' /\ c <> 63).
    { intros t L x H y Y. destruct (branch_first _ _ H) as [->|(c & t' & -> & S)]; [exists y, x; auto|]. exists c, (t' ++ y :: x). split; auto. intros ->. destruct S. discriminate. }
    intros t Ls x H. destruct H; [apply (B t L); auto; discriminate|]. rewrite <- app_assoc. apply (B t L); auto. discriminate.
  Qed.

  Definition no_quant (s : pystr) : Prop := forall c t, s = c :: t -> is_quant c = false.
  Definition branch_ends (s : pystr) : Prop := s = [] \/ exists c t, s = c :: t /\ (c = 124 \/ c = 41).

  Theorem parse_complete :
    (forall t L, atom_text t L -> forall n rest, (3 * List.length t + 1 <= n)%nat -> exists r, p_atom n (t ++ rest) = Some (r, rest) /\ same r L)
    /\ (forall t L, piece_text t L -> forall n rest, (3 * List.length t + 1 <= n)%nat -> no_quant rest ->
          exists a s r, p_atom n (t ++ rest) = Some (a, s) /\ p_post a s = Some (r, rest) /\ same r L)
    /\ (forall t L, branch_text t L -> forall n rest, (3 * List.length t + 2 <= n)%nat -> branch_ends rest -> exists r, p_seq n (t ++ rest) = Some (r, rest) /\ same r L)
    /\ (forall t Ls, alternatives t Ls -> forall n rest, (3 * List.length t + 3 <= n)%nat -> (rest = [] \/ exists x, rest = 41 :: x) ->
          exists rs, p_alt n (t ++ rest) = Some (rs, rest) /\ Forall2 same rs Ls).
  Proof.
    apply expression_ind.
    - intros c C n rest L. destruct n as [|n]; [lia|]. rewrite p_atom_eq. cbn [app]. pose proof (proj2 (special_false c) C) as Sp. rewrite Sp.
      assert (K : forall x, special x -> c =? x = false) by (intros x X; apply N.eqb_neq; intros ->; auto).
      rewrite (K 40), (K 91), (K 46), (K 92) by (unfold special; cbn; tauto). eexists. split; [reflexivity|apply same_char].
    - intros c C n rest L. destruct n as [|n]; [lia|]. rewrite p_atom_eq. cbn [app]. change (92 =? 40) with false. change (92 =? 91) with false. change (92 =? 46) with false. change (92 =? 92) with true. cbv iota.
      replace (c =? 119) with false; [|symmetry; apply N.eqb_neq; intros ->; apply C; left; unfold lower; lia]. rewrite (proj2 (alnum_false c) C). eexists. split; [reflexivity|apply same_char].
    - intros n rest L. destruct n as [|n]; [lia|]. eexists. split; [reflexivity|apply same_any].
    - intros n rest L. destruct n as [|n]; [lia|]. eexists. split; [reflexivity|]. apply same_cls. apply same_word.
    - intros t P T Nn N94 n rest L. destruct n as [|n]; [lia|]. cbn [List.length] in L. rewrite app_length in L. cbn [List.length] in L.
      destruct (set_complete t P T n true rest ltac:(lia) ltac:(auto)) as (cc & E & S). rewrite p_atom_eq. cbn [app]. change (91 =? 40) with false. change (91 =? 91) with true. cbv iota.
      rewrite <- app_assoc. cbn [app]. rewrite E. destruct t as [|d t]; [congruence|]. cbn [app]. replace (d =? 94) with false; [|symmetry; apply N.eqb_neq; intros ->; exact (N94 t eq_refl)].
      eexists. split; [reflexivity|]. apply same_cls. auto.
    - intros t P T Nn n rest L. destruct n as [|n]; [lia|]. cbn [List.length] in L. rewrite app_length in L. cbn [List.length] in L.
      destruct (set_complete t P T n true rest ltac:(lia) ltac:(auto)) as (cc & E & S). rewrite p_atom_eq. cbn [app]. change (91 =? 40) with false. change (91 =? 91) with true. change (94 =? 94) with true. cbv iota.
      rewrite <- app_assoc. cbn [app]. rewrite E. eexists. split; [reflexivity|]. apply same_not. auto.
    - intros t Ls T IH n rest L. destruct n as [|n]; [lia|]. cbn [List.length] in L. rewrite app_length in L. cbn [List.length] in L.
      destruct (IH n (41 :: rest) ltac:(lia) ltac:(eauto)) as (rs & E & S). rewrite p_atom_eq. cbn [app]. change (40 =? 40) with true. cbv iota. rewrite <- app_assoc. cbn [app]. rewrite E.
      destruct (alternatives_first t Ls rest T) as (c & t' & -> & C). replace (c =? 63) with false by (symmetry; apply N.eqb_neq; auto). change (41 =? 41) with true.
      eexists. split; [reflexivity|]. apply same_alts. auto.
    - intros t L T IH n rest Ln Q. destruct (IH n rest Ln) as (r & E & S). exists r, rest, r. split; auto. split; auto. unfold p_post. destruct rest as [|c x]; auto. rewrite (Q c x eq_refl). auto.
    - intros t L T IH n rest Ln Q. rewrite app_length in Ln. cbn in Ln. destruct (IH n (42 :: rest) ltac:(lia)) as (r & E & S). exists r, (42 :: rest), (Star r). rewrite <- app_assoc. split; [exact E|].
      split; [|apply same_star; auto]. cbn. destruct rest as [|c x]; auto. rewrite (Q c x eq_refl). auto.
    - intros t L T IH n rest Ln Q. rewrite app_length in Ln. cbn in Ln. destruct (IH n (43 :: rest) ltac:(lia)) as (r & E & S). exists r, (43 :: rest), (Seq r (Star r)). rewrite <- app_assoc. split; [exact E|].
      split; [|apply same_plus; auto]. cbn. destruct rest as [|c x]; auto. rewrite (Q c x eq_refl). auto.
    - intros t L T IH n rest Ln Q. rewrite app_length in Ln. cbn in Ln. destruct (IH n (63 :: rest) ltac:(lia)) as (r & E & S). exists r, (63 :: rest), (Alt r Eps). rewrite <- app_assoc. split; [exact E|].
      split; [|apply same_option; auto]. cbn. destruct rest as [|c x]; auto. rewrite (Q c x eq_refl). auto.
    - intros n rest Ln Q. destruct n as [|n]; [lia|]. exists Eps. split; [|intros s; apply lang_eps]. cbn [app]. destruct Q as [->|(c & x & -> & [-> | ->])]; reflexivity.
    - intros t L t' L' T IH T' IH' n rest Ln Q. rewrite app_length in Ln. destruct (piece_first _ _ T) as (c & x & Et & (C1 & C2 & C3)). pose proof (f_equal (@List.length N) Et) as Lt. cbn [List.length] in Lt.
      destruct n as [|n]; [lia|]. destruct (IH' n rest ltac:(lia) Q) as (r' & E' & S').
      assert (NQ : no_quant (t' ++ rest)).
      { intros d y D. destruct (branch_first _ _ T') as [->|(e & z & -> & (Z & _))]; cbn [app] in D; [|congruence].
        destruct Q as [->|(e & z & -> & [-> | ->])]; [discriminate|injection D as <- _; reflexivity|injection D as <- _; reflexivity]. }
      destruct (IH n (t' ++ rest) ltac:(lia) NQ) as (a & s & r & E1 & E2 & S). rewrite <- app_assoc. exists (Seq r r'). split; [|apply same_seq; auto].
      cbn [p_seq]. rewrite E1, E2, E'. rewrite Et. cbn [app]. replace (c =? 124) with false by (symmetry; apply N.eqb_neq; auto). replace (c =? 41) with false by (symmetry; apply N.eqb_neq; auto). auto.
    - intros t L T IH n rest Ln Q. destruct n as [|n]; [lia|].
      assert (BE : branch_ends rest) by (destruct Q as [->|(x & ->)]; [left; auto|right; eauto]).
      destruct (IH n rest ltac:(lia) BE) as (r & E & S). exists [r]. split; [|auto]. rewrite p_alt_eq, E. destruct Q as [->|(x & ->)]; reflexivity.
    - intros t L t' Ls T IH T' IH' n rest Ln Q. rewrite app_length in Ln. cbn [List.length] in Ln. destruct n as [|n]; [lia|].
      assert (BE : branch_ends (124 :: t' ++ rest)) by (right; eauto).
      destruct (IH n _ ltac:(lia) BE) as (r & E & S). destruct (IH' n rest ltac:(lia) Q) as (rs & E' & S'). rewrite <- app_assoc. cbn [app]. exists (r :: rs). split; [|auto].
      rewrite p_alt_eq, E. change (124 =? 124) with true. cbv iota. rewrite E'. auto.
  Qed.

  (** ** Compiling *)
  Theorem compile_reads : forall p bs, re_compile p = Ok bs -> exists Ls, alternatives p Ls /\ Forall2 same bs Ls.
  Proof.
    intros p bs H. unfold re_compile in H. destruct (p_alt (3 * S (List.length p)) p) as [[rs [|c rest]]|] eqn:P; try discriminate. injection H as <-.
    destruct (proj1 (parse_sound _) _ _ _ P) as (t & Ls & E & T & S). rewrite app_nil_r in E. subst t. eauto.
  Qed.
  Theorem reads_compile : forall p Ls, alternatives p Ls -> exists bs, re_compile p = Ok bs /\ Forall2 same bs Ls.
  Proof.
    intros p Ls H. destruct (proj2 (proj2 (proj2 parse_complete)) p Ls H (3 * S (List.length p))%nat [] ltac:(lia) ltac:(auto)) as (rs & E & S).
    rewrite app_nil_r in E. exists rs. split; auto. unfold re_compile. rewrite E. auto.
  Qed.

  Lemma branches_accept : forall bs Ls s, Forall2 same bs Ls -> (re_matches uw bs s = true <-> accepts Ls s).
  Proof.
    intros bs Ls s H. induction H as [|r L bs Ls R F IH]; [cbn; split; [discriminate|tauto]|].
    destruct F as [|r2 L2 bs Ls R2 F].
    - unfold re_matches. cbn [branches_match accepts]. rewrite dollar_correct. unfold or_newline, ch_nl. rewrite (R s). split; (intros [A|(t & E & A)]; [auto|right; exists t; split; auto; apply R; auto]).
    - change (re_matches uw (r :: r2 :: bs) s) with (prefix uw r s || re_matches uw (r2 :: bs) s).
      change (accepts (L :: L2 :: Ls) s) with ((exists a b, s = a ++ b /\ L a) \/ accepts (L2 :: Ls) s). rewrite orb_true_iff, prefix_correct, IH.
      split; (intros [(a & b & E & A)|A]; [left; exists a, b; split; auto; apply R; auto|auto]).
  Qed.
  Theorem compile_accepts : forall p bs s, re_compile p = Ok bs -> (pattern_accepts uw p s <-> re_matches uw bs s = true).
  Proof.
    intros p bs s H. split.
    - intros (Ls & P & A). destruct (reads_compile p Ls P) as (bs' & E & S). assert (bs' = bs) by congruence. subst. apply (branches_accept _ _ s S). auto.
    - intros A. destruct (compile_reads p bs H) as (Ls & P & S). exists Ls. split; auto. apply (branches_accept _ _ s S). auto.
  Qed.
End Read.
