(** * What json.loads reads is JSON text, and all of it *)

From Coq Require Import List NArith ZArith Bool String Lia.
From Verif Require Import PyBase Json Spec_Json.
Import ListNotations.
Open Scope string_scope.
Open Scope list_scope.
Local Open Scope N_scope.

Ltac bools := repeat match goal with
  | H : (_ && _) = true |- _ => apply andb_true_iff in H; destruct H
  | H : (_ || _) = true |- _ => apply orb_true_iff in H
  | H : (_ || _) = false |- _ => apply orb_false_iff in H; destruct H
  | H : (_ <=? _) = true |- _ => apply N.leb_le in H
  | H : (_ <=? _) = false |- _ => apply N.leb_gt in H
  | H : (_ <? _) = true |- _ => apply N.ltb_lt in H
  | H : (_ <? _) = false |- _ => apply N.ltb_ge in H
  | H : (_ =? _) = true |- _ => apply N.eqb_eq in H
  | H : (_ =? _) = false |- _ => apply N.eqb_neq in H
  end.

(** ** White space *)
Lemma space_spec : forall c, json_space c = true <-> (c = 32 \/ c = 9 \/ c = 10 \/ c = 13).
Proof. intros c. unfold json_space. rewrite !orb_true_iff, !N.eqb_eq. tauto. Qed.

Lemma skip_split : forall s, exists w, white w /\ s = w ++ skip_space s /\ (skip_space s = [] \/ exists c t, skip_space s = c :: t /\ json_space c = false).
Proof.
  induction s as [|c s IH]; cbn [skip_space].
  - exists []. split; [constructor|auto].
  - destruct (json_space c) eqn:C.
    + destruct IH as (w & W & E & H). exists (c :: w). split; [constructor; [apply space_spec; auto|auto]|]. split; [cbn [app]; congruence|auto].
    + exists []. split; [constructor|]. split; [auto|]. right. eauto.
Qed.

Lemma skip_white : forall w s, white w -> skip_space (w ++ s) = skip_space s.
Proof.
  induction 1 as [|c w C W IH]; cbn [app skip_space]; auto. apply space_spec in C. rewrite C. auto.
Qed.
Lemma skip_none : forall c s, json_space c = false -> skip_space (c :: s) = c :: s.
Proof. intros c s H. cbn [skip_space]. rewrite H. auto. Qed.

Lemma eat_spec : forall c s t, eat c s = Some t <-> s = c :: t.
Proof.
  intros c [|x s] t; cbn [eat]; [split; discriminate|]. destruct (x =? c) eqn:X; bools.
  - subst. split; [intros H; injection H as ->; auto|intros H; injection H as ->; auto].
  - split; [discriminate|]. intros H. injection H as H _. congruence.
Qed.
Lemma eat_same : forall c t, eat c (c :: t) = Some t.
Proof. intros. apply eat_spec. auto. Qed.

(** ** Strings *)
Lemma hex_val_spec : forall c v, hex_val c = Some v <-> hex_digit c v.
Proof.
  intros c v. unfold hex_val, hex_digit. split.
  - destruct ((48 <=? c) && (c <=? 57)) eqn:A; [intros H; injection H as <-; bools; left; lia|].
    destruct ((97 <=? c) && (c <=? 102)) eqn:B; [intros H; injection H as <-; bools; right; left; lia|].
    destruct ((65 <=? c) && (c <=? 70)) eqn:C; [intros H; injection H as <-; bools; right; right; lia|discriminate].
  - intros [[H ->]|[[H ->]|[H ->]]].
    + replace ((48 <=? c) && (c <=? 57)) with true; auto. symmetry. apply andb_true_iff. rewrite !N.leb_le. lia.
    + replace ((48 <=? c) && (c <=? 57)) with false; [|symmetry; apply andb_false_iff; rewrite !N.leb_gt; lia].
      replace ((97 <=? c) && (c <=? 102)) with true; [f_equal; lia|]. symmetry. apply andb_true_iff. rewrite !N.leb_le. lia.
    + replace ((48 <=? c) && (c <=? 57)) with false; [|symmetry; apply andb_false_iff; rewrite !N.leb_gt; lia].
      replace ((97 <=? c) && (c <=? 102)) with false; [|symmetry; apply andb_false_iff; rewrite !N.leb_gt; lia].
      replace ((65 <=? c) && (c <=? 70)) with true; [f_equal; lia|]. symmetry. apply andb_true_iff. rewrite !N.leb_le. lia.
Qed.

Lemma hex4_spec : forall a b c d x, hex4 a b c d = Some x <-> code_unit [a; b; c; d] x.
Proof.
  intros a b c d x. unfold hex4, code_unit. split.
  - destruct (hex_val a) as [a'|] eqn:A; [|discriminate]. destruct (hex_val b) as [b'|] eqn:B; [|discriminate].
    destruct (hex_val c) as [c'|] eqn:C; [|discriminate]. destruct (hex_val d) as [d'|] eqn:D; [|discriminate].
    intros H. assert (x = a' * 4096 + b' * 256 + c' * 16 + d') by congruence.
    apply hex_val_spec in A, B, C, D. exists a, b, c, d, a', b', c', d'. repeat (split; [auto|]). lia.
  - intros (a0 & b0 & c0 & d0 & a' & b' & c' & d' & E & A & B & C & D & ->). injection E as <- <- <- <-.
    apply hex_val_spec in A, B, C, D. rewrite A, B, C, D. f_equal. lia.
Qed.
Lemma unit_four : forall u x, code_unit u x -> exists a b c d, u = [a; b; c; d] /\ hex4 a b c d = Some x.
Proof.
  intros u x H. pose proof H as (a & b & c & d & _ & _ & _ & _ & E & _). subst u. exists a, b, c, d. split; auto. apply hex4_spec. auto.
Qed.

Lemma unescape_spec : forall e c, unescape e = Some c <-> escape e c.
Proof.
  intros e c. unfold unescape, escape. split.
  - repeat match goal with |- (if ?x =? ?y then _ else _) = _ -> _ => destruct (x =? y) eqn:?; [bools; subst; intros H; injection H as <-; cbn [In]; tauto|] end. discriminate.
  - cbn [In]. intros H. repeat (destruct H as [H|H]; [injection H as <- <-; reflexivity|]). destruct H.
Qed.

Lemma is_high_spec : forall x, is_high x = true <-> high x.
Proof. intros x. unfold is_high, high. rewrite andb_true_iff, !N.leb_le. tauto. Qed.
Lemma is_low_spec : forall x, is_low x = true <-> low x.
Proof. intros x. unfold is_low, low. rewrite andb_true_iff, !N.leb_le. tauto. Qed.

Lemma scan_complete : forall t s, string_body t s -> forall r, scan_str (t ++ 34 :: r) = Ok (s, r).
Proof.
  induction 1 as [|c t s H1 H2 H3 Hb IH|e c t s He Hb IH|u x t s Hu Hn Hb IH|u x v y t s Hu Hx Hv Hy Hb IH]; intros r.
  - reflexivity.
  - cbn [app scan_str]. replace (c =? 34) with false by (symmetry; apply N.eqb_neq; auto). replace (c <? 32) with false by (symmetry; apply N.ltb_ge; lia).
    replace (c =? 92) with false by (symmetry; apply N.eqb_neq; auto). rewrite IH. auto.
  - cbn [app scan_str]. replace (92 =? 34) with false by reflexivity. replace (92 <? 32) with false by reflexivity. replace (92 =? 92) with true by reflexivity.
    destruct (e =? 117) eqn:E. { bools. subst. exfalso. unfold escape in He. cbn [In] in He. repeat (destruct He as [He|He]; [discriminate|]). destruct He. }
    apply unescape_spec in He. rewrite He, IH. auto.
  - destruct (unit_four _ _ Hu) as (a & b & cc & d & -> & Hx). cbn [app scan_str].
    replace (92 =? 34) with false by reflexivity. replace (92 <? 32) with false by reflexivity. replace (92 =? 92) with true by reflexivity. replace (117 =? 117) with true by reflexivity.
    rewrite Hx. destruct (is_high x) eqn:Hh; [|rewrite IH; auto]. apply is_high_spec in Hh.
    assert (R : rcons x (scan_str (t ++ 34 :: r)) = Ok (x :: s, r)) by (rewrite IH; auto).
    destruct (t ++ 34 :: r) as [|b0 [|u0 [|b1 [|b2 [|b3 [|b4 t3]]]]]] eqn:T; auto.
    destruct ((b0 =? 92) && (u0 =? 117)) eqn:B; auto. bools. subst b0 u0.
    inversion Hb; subst; cbn [app] in T; try discriminate T.
    + injection T as T1 T2. congruence.
    + injection T as T1 T2. subst e. exfalso. unfold escape in H. cbn [In] in H. repeat (destruct H as [H|H]; [discriminate|]). destruct H.
    + destruct (unit_four _ _ H) as (a1 & a2 & a3 & a4 & -> & Hy). cbn [app] in T. injection T as <- <- <- <- <-. rewrite Hy.
      destruct (is_low x0) eqn:L; auto. exfalso. apply Hn. split; auto. apply is_low_spec in L. exists [a1; a2; a3; a4], x0, t0.
      split; auto.
    + destruct (unit_four _ _ H) as (a1 & a2 & a3 & a4 & -> & Hy). cbn [app] in T. injection T as <- <- <- <- <-. rewrite Hy.
      replace (is_low x0) with false; auto. symmetry. unfold is_low. apply andb_false_iff. rewrite !N.leb_gt. unfold high in H0. lia.
  - destruct (unit_four _ _ Hu) as (a & b & cc & d & -> & Hx4). destruct (unit_four _ _ Hv) as (a1 & b1 & c1 & d1 & -> & Hy4). cbn [app scan_str].
    replace (92 =? 34) with false by reflexivity. replace (92 <? 32) with false by reflexivity. replace (92 =? 92) with true by reflexivity. replace (117 =? 117) with true by reflexivity.
    rewrite Hx4. apply is_high_spec in Hx. rewrite Hx. cbn [andb]. rewrite Hy4. apply is_low_spec in Hy. rewrite Hy, IH. auto.
Qed.

Lemma rcons_ok : forall {A B} (c : A) (m : res (list A * B)) s r, rcons c m = Ok (s, r) -> exists s', m = Ok (s', r) /\ s = c :: s'.
Proof. intros A B c [[s' t]|e] s r H; cbn [rcons] in H; [injection H as <- <-; eauto|discriminate]. Qed.

Lemma scan_sound : forall n u s r, (List.length u <= n)%nat -> scan_str u = Ok (s, r) -> exists t, u = t ++ 34 :: r /\ string_body t s.
Proof.
  induction n as [|n IH]; intros u s r L H; destruct u as [|c u]; try discriminate; cbn [List.length] in L; [lia|].
  cbn [scan_str] in H. destruct (c =? 34) eqn:C1.
  { bools. injection H as <- <-. subst c. exists []. split; [auto|constructor]. }
  destruct (c <? 32) eqn:C2; [discriminate|]. destruct (c =? 92) eqn:C3.
  2:{ apply rcons_ok in H. destruct H as (s' & H & ->). destruct (IH u s' r ltac:(lia) H) as (t & -> & T). bools. exists (c :: t). split; [auto|]. constructor; auto. }
  bools. subst c. destruct u as [|e u]; [discriminate|]. cbn [List.length] in L. destruct (e =? 117) eqn:E.
  2:{ destruct (unescape e) as [x|] eqn:U; [|discriminate]. apply rcons_ok in H. destruct H as (s' & H & ->).
      destruct (IH u s' r ltac:(lia) H) as (t & -> & T). exists (92 :: e :: t). split; [auto|]. constructor; auto. apply unescape_spec. auto. }
  bools. subst e. destruct u as [|a1 [|a2 [|a3 [|a4 u]]]]; try discriminate. cbn [List.length] in L.
  destruct (hex4 a1 a2 a3 a4) as [x|] eqn:X; [|discriminate]. apply hex4_spec in X.
  assert (Alone : forall t, u = t ++ 34 :: r -> forall s', string_body t s' ->
     (high x -> forall v y t', t = [92; 117] ++ v ++ t' -> code_unit v y -> ~ low y) ->
     exists t, 92 :: 117 :: a1 :: a2 :: a3 :: a4 :: u = t ++ 34 :: r /\ string_body t (x :: s')).
  { intros t -> s' B Q. exists ([92; 117] ++ [a1; a2; a3; a4] ++ t). split; [auto|]. apply sb_unit; auto.
    intros [Hh (v & y & t' & E & V & Lo)]. exact (Q Hh v y t' E V Lo). }
  destruct (is_high x) eqn:Hh.
  2:{ apply rcons_ok in H. destruct H as (s' & H & ->). destruct (IH u s' r ltac:(lia) H) as (t & Eu & T). apply (Alone t Eu s' T).
      intros F. apply is_high_spec in F. congruence. }
  assert (K : rcons x (scan_str u) = Ok (s, r) ->
    (forall v y t', u = [92; 117] ++ v ++ t' -> code_unit v y -> ~ low y) ->
    exists t, 92 :: 117 :: a1 :: a2 :: a3 :: a4 :: u = t ++ 34 :: r /\ string_body t s).
  { intros H' Q. apply rcons_ok in H'. destruct H' as (s' & H' & ->). destruct (IH u s' r ltac:(lia) H') as (t & Eu & T). apply (Alone t Eu s' T).
    intros _ v y t' E V. apply (Q v y (t' ++ 34 :: r)); auto. rewrite Eu, E, <- !app_assoc. auto. }
  assert (NoRoom : (List.length u < 6)%nat -> forall v y t', u = [92; 117] ++ v ++ t' -> code_unit v y -> ~ low y).
  { intros Lu v y t' -> V _. destruct (unit_four _ _ V) as (? & ? & ? & ? & -> & _). cbn [app List.length] in Lu. lia. }
  destruct u as [|b [|u' [|b1 [|b2 [|b3 [|b4 t3]]]]]]; try (apply K; [exact H|apply NoRoom; cbn [List.length]; lia]).
  destruct ((b =? 92) && (u' =? 117)) eqn:BU.
  - bools. subst b u'. destruct (hex4 b1 b2 b3 b4) as [y|] eqn:Y; [|discriminate]. destruct (is_low y) eqn:Ly.
    + apply rcons_ok in H. destruct H as (s' & H & ->). cbn [List.length] in L. destruct (IH t3 s' r ltac:(lia) H) as (t & -> & T). apply hex4_spec in Y. apply is_low_spec in Ly. apply is_high_spec in Hh.
      exists ([92; 117] ++ [a1; a2; a3; a4] ++ [92; 117] ++ [b1; b2; b3; b4] ++ t). split; [auto|]. apply sb_pair; auto.
    + apply K; [exact H|]. intros v y' t' E V Lo. destruct (unit_four _ _ V) as (v1 & v2 & v3 & v4 & -> & Hv). cbn [app] in E. injection E as <- <- <- <- <-.
      assert (y' = y) by congruence. subst. apply is_low_spec in Lo. congruence.
  - apply K; [exact H|]. intros v y' t' E V Lo. cbn [app] in E. assert (b = 92 /\ u' = 117) as [-> ->] by (split; congruence). discriminate.
Qed.

(** ** Numbers *)
Lemma digit_spec : forall c, json_digit c = true <-> digit c.
Proof. intros c. unfold json_digit, digit. rewrite andb_true_iff, !N.leb_le. tauto. Qed.

(** what may follow a value *)
Definition ends (r : pystr) : Prop := r = [] \/ exists c t, r = c :: t /\ (json_space c = true \/ c = 44 \/ c = 93 \/ c = 125).
Lemma ends_not : forall r c t, ends r -> r = c :: t -> json_digit c = false /\ c <> 46 /\ c <> 101 /\ c <> 69.
Proof.
  intros r c t [->|(c' & t' & -> & H)] E; [discriminate|]. injection E as -> ->. rewrite space_spec in H.
  repeat (destruct H as [H|H]); subst c; repeat split; try reflexivity; discriminate.
Qed.

Lemma digits_spec : forall s d r, digits s = (d, r) -> s = d ++ r /\ Forall digit d /\ (r = [] \/ exists c t, r = c :: t /\ json_digit c = false).
Proof.
  induction s as [|c s IH]; intros d r H; cbn [digits] in H; [injection H as <- <-; auto|].
  destruct (json_digit c) eqn:C.
  - destruct (digits s) as [d' r'] eqn:D. injection H as <- <-. destruct (IH _ _ eq_refl) as (-> & F & Q). split; auto. split; auto. constructor; auto. apply digit_spec; auto.
  - injection H as <- <-. split; auto. split; auto. right. eauto.
Qed.
Lemma digits_all : forall d r, Forall digit d -> (r = [] \/ exists c t, r = c :: t /\ json_digit c = false) -> digits (d ++ r) = (d, r).
Proof.
  induction d as [|c d IH]; intros r F Q; cbn [app].
  - destruct Q as [->|(c & t & -> & C)]; cbn [digits]; auto. rewrite C. auto.
  - inversion F; subst. cbn [digits]. apply digit_spec in H1. rewrite H1, IH; auto.
Qed.

Lemma frac_sound : forall s f r, num_frac s = (f, r) -> s = f ++ r /\ fraction f.
Proof.
  intros s f r H. unfold num_frac in H. destruct (eat 46 s) as [t|] eqn:E; [|injection H as <- <-; split; [auto|left; auto]].
  apply eat_spec in E. subst s. destruct (digits t) as [d r'] eqn:D. destruct (digits_spec _ _ _ D) as (-> & F & _).
  destruct d as [|x d]; injection H as <- <-; [split; [auto|left; auto]|]. split; [auto|]. right. exists (x :: d). split; auto. split; [discriminate|auto].
Qed.
Lemma exp_sound : forall s f r, num_exp s = (f, r) -> s = f ++ r /\ exponent f.
Proof.
  intros s f r H. unfold num_exp in H. destruct s as [|e t]; [injection H as <- <-; split; [auto|left; auto]|].
  destruct ((e =? 101) || (e =? 69)) eqn:E; [|injection H as <- <-; split; [auto|left; auto]].
  assert (He : e = 101 \/ e = 69) by (bools; destruct E as [E|E]; bools; auto).
  match type of H with (let '(_, _) := ?m in _) = _ => destruct m as [sign t1] eqn:M end.
  assert (T : t = sign ++ t1 /\ (sign = [] \/ sign = [43] \/ sign = [45])).
  { destruct t as [|c t']; [injection M as <- <-; auto|]. destruct ((c =? 43) || (c =? 45)) eqn:C; injection M as <- <-; [|auto].
    split; auto. right. bools. destruct C as [C|C]; bools; subst; auto. }
  destruct T as [-> Hs]. destruct (digits t1) as [d r'] eqn:D. destruct (digits_spec _ _ _ D) as (-> & F & _).
  destruct d as [|x d]; injection H as <- <-; [split; [auto|left; auto]|]. split; [cbn [app]; rewrite <- app_assoc; auto|].
  right. exists e, sign, (x :: d). split; auto. split; auto. split; auto. split; [discriminate|auto].
Qed.

Lemma num_sound : forall s n r, scan_num s = Some (n, r) -> s = n ++ r /\ number n.
Proof.
  intros s n r H. unfold scan_num in H.
  match type of H with (let '(_, _) := ?m in _) = _ => destruct m as [sign t] eqn:M end.
  assert (T : s = sign ++ t /\ (sign = [] \/ sign = [45])).
  { destruct (eat 45 s) as [t'|] eqn:E; injection M as <- <-; [apply eat_spec in E; subst; auto|auto]. }
  destruct T as [-> Hs]. destruct t as [|c t1]; [discriminate|]. destruct (json_digit c) eqn:C; [|discriminate].
  match type of H with (let '(_, _) := ?m in _) = _ => destruct m as [d r0] eqn:D end.
  destruct (num_frac r0) as [f r1] eqn:Fr. destruct (num_exp r1) as [e r2] eqn:Ex. assert (n = sign ++ c :: d ++ f ++ e) by congruence. assert (r = r2) by congruence. subst n r. clear H.
  apply frac_sound in Fr. apply exp_sound in Ex. destruct Fr as [-> Fr], Ex as [-> Ex].
  assert (I : t1 = d ++ f ++ e ++ r2 /\ integer_part (c :: d)).
  { destruct (c =? 48) eqn:Z.
    - bools. injection D as <- <-. subst c. split; [auto|left; auto].
    - destruct (digits_spec _ _ _ D) as (-> & F & _). split; [auto|]. right. exists c, d. split; auto. apply digit_spec in C. bools. unfold digit in C. split; [lia|auto]. }
  destruct I as [-> I]. split; [rewrite <- !app_assoc; cbn [app]; rewrite <- !app_assoc; auto|].
  exists sign, (c :: d), f, e. auto.
Qed.

Lemma exp_complete : forall e r, exponent e -> ends r -> num_exp (e ++ r) = (e, r).
Proof.
  intros e r [->|(x & sign & t & -> & X & S & [T F])] R.
  - cbn [app]. destruct r as [|c r']; [reflexivity|]. destruct (ends_not _ c r' R eq_refl) as (A & B & C & D). cbn [num_exp].
    replace ((c =? 101) || (c =? 69)) with false; auto. symmetry. apply orb_false_iff. split; apply N.eqb_neq; auto.
  - assert (Q : digits (t ++ r) = (t, r)).
    { apply digits_all; auto. destruct r as [|c r']; auto. right. exists c, r'. split; auto. apply (ends_not _ c r' R eq_refl). }
    cbn [app num_exp]. replace ((x =? 101) || (x =? 69)) with true by (destruct X; subst; reflexivity).
    destruct t as [|y t]; [congruence|].
    destruct S as [-> | [-> | ->]]; cbn [app]; [|cbn [app] in Q; change (43 =? 43) with true; cbn [orb]; rewrite Q; auto|cbn [app] in Q; change (45 =? 43) with false; change (45 =? 45) with true; cbn [orb]; rewrite Q; auto].
    assert (Y : digit y) by (inversion F; auto). unfold digit in Y.
    replace ((y =? 43) || (y =? 45)) with false by (symmetry; apply orb_false_iff; split; apply N.eqb_neq; lia). cbn [app] in Q. rewrite Q. auto.
Qed.
Lemma exp_starts : forall e r, exponent e -> ends r -> (e ++ r = [] \/ exists c t, e ++ r = c :: t /\ json_digit c = false /\ c <> 46).
Proof.
  intros e r [->|(x & sign & t & -> & X & S & [T F])] R; cbn [app].
  - destruct r as [|c r']; auto. right. destruct (ends_not _ c r' R eq_refl) as (A & B & _). eauto.
  - right. exists x, ((sign ++ t) ++ r). split; auto. destruct X; subst; split; try reflexivity; discriminate.
Qed.
Lemma frac_complete : forall f s, fraction f -> (s = [] \/ exists c t, s = c :: t /\ json_digit c = false /\ c <> 46) -> num_frac (f ++ s) = (f, s).
Proof.
  intros f s [->|(t & -> & [T F])] S; unfold num_frac; cbn [app].
  - replace (eat 46 s) with (@None pystr); auto. destruct S as [->|(c & t & -> & _ & C)]; auto. cbn [eat]. replace (c =? 46) with false; auto. symmetry. apply N.eqb_neq. auto.
  - rewrite eat_same. rewrite digits_all; auto; [|destruct S as [->|(c & t' & -> & C & _)]; eauto]. destruct t; [congruence|auto].
Qed.
Lemma num_complete : forall n r, number n -> ends r -> scan_num (n ++ r) = Some (n, r).
Proof.
  intros n r (sign & i & f & e & -> & S & I & F & E) R. unfold scan_num.
  assert (HE := exp_starts e r E R).
  assert (HF : f ++ e ++ r = [] \/ exists c t, f ++ e ++ r = c :: t /\ json_digit c = false).
  { destruct F as [->|(t & -> & _)]; cbn [app]; [destruct HE as [->|(c & t & -> & C & _)]; eauto|]. right. eauto. }
  assert (Hi : exists c d, i = c :: d /\ json_digit c = true /\ c <> 45 /\ (if c =? 48 then ([], d ++ f ++ e ++ r) else digits (d ++ f ++ e ++ r)) = (d, f ++ e ++ r)).
  { destruct I as [->|(c & d & -> & C & D)].
    - exists 48, []. split; auto. split; [reflexivity|]. split; [discriminate|reflexivity].
    - exists c, d. split; auto. split; [apply digit_spec; unfold digit; lia|]. split; [lia|].
      replace (c =? 48) with false by (symmetry; apply N.eqb_neq; lia). apply digits_all; auto. }
  destruct Hi as (c & d & -> & C & C45 & D).
  rewrite <- !app_assoc. cbn [app]. destruct S as [-> | ->]; cbn [app].
  - replace (eat 45 (c :: d ++ f ++ e ++ r)) with (@None pystr); [|cbn [eat]; replace (c =? 45) with false; auto; symmetry; apply N.eqb_neq; auto].
    cbv beta iota. rewrite C, D. rewrite frac_complete by auto. rewrite exp_complete by auto. auto.
  - rewrite eat_same. rewrite C, D. rewrite frac_complete by auto. rewrite exp_complete by auto. auto.
Qed.

(** ** Words *)
Lemma after_spec : forall w s r, after w s = Some r <-> s = w ++ r.
Proof.
  induction w as [|x w IH]; intros s r; cbn [after app].
  - split; [intros H; injection H as ->; auto|intros ->; auto].
  - destruct s as [|y s]; [split; discriminate|]. destruct (x =? y) eqn:X; bools.
    + subst. rewrite IH. split; [intros ->; auto|intros H; injection H as ->; auto].
    + split; [discriminate|]. intros H. injection H as H _. congruence.
Qed.
Lemma scan_word_sound : forall l s v r, scan_word l s = Some (v, r) -> exists w, In (w, v) l /\ s = w ++ r.
Proof.
  induction l as [|[w v'] l IH]; intros s v r H; cbn [scan_word] in H; [discriminate|].
  destruct (after w s) as [r'|] eqn:A.
  - injection H as <- <-. apply after_spec in A. exists w. split; [left; auto|auto].
  - destruct (IH _ _ _ H) as (w' & I & E). exists w'. split; [right; auto|auto].
Qed.
Lemma word_text : forall w v, In (w, v) words -> value_text w v.
Proof.
  intros w v H. unfold words in H. cbn [In] in H. repeat (destruct H as [H|H]; [injection H as <- <-|]); [constructor|constructor|constructor| | | |destruct H];
    apply vt_special; cbn [In]; auto.
Qed.

(** ** Values *)
Scheme value_text_ind4 := Minimality for value_text Sort Prop
with elements_text_ind4 := Minimality for elements_text Sort Prop
with members_text_ind4 := Minimality for members_text Sort Prop
with member_text_ind4 := Minimality for member_text Sort Prop.
Combined Scheme text_ind from value_text_ind4, elements_text_ind4, members_text_ind4, member_text_ind4.

Lemma white_app : forall a b, white a -> white b -> white (a ++ b).
Proof. intros. apply Forall_app; auto. Qed.
Lemma elements_white : forall w t l, white w -> elements_text t l -> elements_text (w ++ t) l.
Proof.
  intros w t l W H. inversion H; subst; rewrite !app_assoc.
  - rewrite <- (app_assoc _ t0). apply et_last; auto. apply white_app; auto.
  - rewrite <- !app_assoc. rewrite (app_assoc w w0). apply et_more; auto. apply white_app; auto.
Qed.
Lemma member_white : forall w t kv, white w -> member_text t kv -> member_text (w ++ t) kv.
Proof. intros w t kv W H. inversion H; subst. rewrite app_assoc. apply mt; auto. apply white_app; auto. Qed.
Lemma members_white : forall w t l, white w -> members_text t l -> members_text (w ++ t) l.
Proof.
  intros w t l W H. inversion H; subst.
  - apply mt_last. apply member_white; auto.
  - rewrite app_assoc. apply mt_more; auto. apply member_white; auto.
Qed.

Section Sound.
  Context (value : pystr -> res (json * pystr)).
  Context (Hv : forall s v r, value s = Ok (v, r) -> exists t, s = t ++ r /\ value_text t v).

  Lemma elements_sound : forall g s l r, elements value g s = Ok (l, r) -> exists t, s = t ++ 93 :: r /\ elements_text t l.
  Proof.
    induction g as [|g IH]; intros s l r H; cbn [elements] in H; [discriminate|].
    destruct (value s) as [[v r1]|e] eqn:V; cbn [rbind fst snd] in H; [|discriminate].
    destruct (Hv _ _ _ V) as (t & -> & T). destruct (skip_split r1) as (w' & W' & E' & _). remember (skip_space r1) as r2. subst r1.
    destruct (eat 93 r2) as [t4|] eqn:A.
    - injection H as <- <-. apply eat_spec in A. rewrite A in *. exists ([] ++ t ++ w'). split; [cbn [app]; rewrite <- app_assoc; auto|]. apply et_last; auto. constructor.
    - destruct (eat 44 r2) as [t4|] eqn:B; [|discriminate]. apply eat_spec in B. rewrite B in *. apply rcons_ok in H. destruct H as (l' & H & ->).
      destruct (skip_split t4) as (w2 & W2 & E2 & _). destruct (IH _ _ _ H) as (t' & E & T'). rewrite E in E2. rewrite E2.
      exists ([] ++ t ++ w' ++ 44 :: (w2 ++ t')). split; [cbn [app]; repeat (rewrite <- !app_assoc; cbn [app]); auto|]. apply et_more; auto; [constructor|apply elements_white; auto].
  Qed.

  Lemma members_sound : forall g d s v r, members value g d s = Ok (v, r) ->
    exists t l, s = t ++ 125 :: r /\ members_text t l /\ v = JObj (fold_left (fun d kv => dset (fst kv) (snd kv) d) l d).
  Proof.
    induction g as [|g IH]; intros d s v r H; cbn [members] in H; [discriminate|].
    destruct (eat 34 s) as [t0|] eqn:Q; [|discriminate]. apply eat_spec in Q. subst s.
    destruct (scan_str t0) as [[k t1]|e] eqn:Sc; cbn [rbind fst snd] in H; [|discriminate]. destruct (scan_sound _ _ _ _ (le_n _) Sc) as (kt & -> & K).
    destruct (skip_split t1) as (w1 & W1 & E1 & _). remember (skip_space t1) as u1. subst t1.
    destruct (eat 58 u1) as [t2|] eqn:C; [|discriminate]. apply eat_spec in C. rewrite C in *.
    destruct (skip_split t2) as (w2 & W2 & E2 & _). remember (skip_space t2) as u2. subst t2.
    destruct (value u2) as [[x r1]|e] eqn:V; cbn [rbind fst snd] in H; [|discriminate].
    destruct (Hv _ _ _ V) as (t & -> & T). destruct (skip_split r1) as (w3 & W3 & E3 & _). remember (skip_space r1) as r2. subst r1.
    assert (M : member_text ([] ++ 34 :: kt ++ 34 :: w1 ++ 58 :: w2 ++ t ++ w3) (k, x)) by (apply mt; auto; constructor).
    destruct (eat 125 r2) as [t4|] eqn:A.
    - injection H as <- <-. apply eat_spec in A. rewrite A in *. eexists. exists [(k, x)]. split; [|split; [apply mt_last; exact M|auto]].
      cbn [app]. repeat (rewrite <- !app_assoc; cbn [app]). auto.
    - destruct (eat 44 r2) as [t4|] eqn:B; [|discriminate]. apply eat_spec in B. rewrite B in *.
      destruct (skip_split t4) as (w4 & W4 & E4 & _). destruct (IH _ _ _ _ H) as (t' & l & E & T' & ->). rewrite E in E4. rewrite E4.
      eexists. exists ((k, x) :: l). split; [|split; [apply mt_more; [exact M|apply (members_white w4 t' l); auto]|auto]].
      cbn [app]. repeat (rewrite <- !app_assoc; cbn [app]). auto.
  Qed.
End Sound.

Lemma value_sound : forall f s v r, scan_value f s = Ok (v, r) -> exists t, s = t ++ r /\ value_text t v.
Proof.
  induction f as [|f IH]; intros s v r H; cbn [scan_value] in H; [discriminate|]. destruct s as [|c t]; [discriminate|].
  destruct (c =? 34) eqn:C1.
  { bools. subst c. destruct (scan_str t) as [[k t1]|e] eqn:Sc; cbn [rbind fst snd] in H; [|discriminate]. injection H as <- <-.
    destruct (scan_sound _ _ _ _ (le_n _) Sc) as (kt & -> & K). exists (34 :: kt ++ [34]). split; [cbn [app]; rewrite <- app_assoc; auto|]. constructor; auto. }
  destruct (skip_split t) as (w & W & E & _). remember (skip_space t) as u. destruct (c =? 123) eqn:C2.
  { bools. subst c. destruct (eat 125 u) as [r'|] eqn:A.
    - injection H as <- <-. apply eat_spec in A. rewrite E, A. exists (123 :: w ++ [125]). split; [cbn [app]; rewrite <- app_assoc; auto|constructor; auto].
    - apply (members_sound _ IH) in H. destruct H as (t' & l & E' & T & ->). rewrite E, E'. exists (123 :: (w ++ t') ++ [125]). split; [cbn [app]; rewrite <- !app_assoc; auto|].
      apply vt_object. apply members_white; auto. }
  destruct (c =? 91) eqn:C3.
  { bools. subst c. destruct (eat 93 u) as [r'|] eqn:A.
    - injection H as <- <-. apply eat_spec in A. rewrite E, A. exists (91 :: w ++ [93]). split; [cbn [app]; rewrite <- app_assoc; auto|constructor; auto].
    - match type of H with rbind ?m _ = _ => destruct m as [[l r']|e] eqn:M end; cbn [rbind fst snd] in H; [|discriminate]. injection H as <- <-.
      apply (elements_sound _ IH) in M. destruct M as (t' & E' & T). rewrite E, E'. exists (91 :: (w ++ t') ++ [93]). split; [cbn [app]; rewrite <- !app_assoc; auto|].
      apply vt_array. apply elements_white; auto. }
  destruct (scan_num (c :: t)) as [[n r']|] eqn:Nu.
  - injection H as <- <-. apply num_sound in Nu. destruct Nu as [E' Nu]. exists n. split; auto. apply vt_number. auto.
  - destruct (scan_word words (c :: t)) as [[v' r']|] eqn:Wo; [|discriminate]. injection H as <- <-. apply scan_word_sound in Wo. destruct Wo as (x & I & E'). exists x. split; auto. apply word_text. auto.
Qed.

Definition opens (c : N) : Prop := json_space c = false /\ c <> 93 /\ c <> 125 /\ c <> 44 /\ c <> 65279.
Lemma number_first : forall n, number n -> exists c t, n = c :: t /\ (c = 45 \/ digit c).
Proof.
  intros n (sign & i & f & e & -> & S & I & _). destruct S as [-> | ->]; [|eexists; eexists; split; [cbn [app]; reflexivity|auto]].
  destruct I as [->|(d & t & -> & D & _)]; eexists; eexists; (split; [cbn [app]; reflexivity|]); right; unfold digit; lia.
Qed.
Lemma not_space : forall c, c <> 32 -> c <> 9 -> c <> 10 -> c <> 13 -> json_space c = false.
Proof. intros c A B C D. destruct (json_space c) eqn:E; auto. apply space_spec in E. lia. Qed.
Lemma value_first : forall t v, value_text t v -> exists c t', t = c :: t' /\ opens c.
Proof.
  intros t v H. inversion H; subst; try (eexists; eexists; split; [reflexivity|]; split; [reflexivity|]; repeat split; discriminate).
  - cbn [In] in H0. repeat (destruct H0 as [<-|H0]; [eexists; eexists; split; [reflexivity|]; split; [reflexivity|]; repeat split; discriminate|]). destruct H0.
  - destruct (number_first _ H0) as (c & t' & -> & C). exists c, t'. split; auto. unfold opens, digit in *. split; [apply not_space; lia|]. repeat split; lia.
Qed.

Lemma ends_white : forall w c r, white w -> (c = 44 \/ c = 93 \/ c = 125) -> ends (w ++ c :: r).
Proof.
  intros w c r W C. right. destruct W as [|x w X W]; cbn [app]; eexists; eexists; (split; [reflexivity|]); [tauto|]. left. apply space_spec. auto.
Qed.
Lemma ends_all : forall w, white w -> ends w.
Proof. intros w [|x w' X W]; [left; auto|]. right. exists x, w'. split; auto. left. apply space_spec. auto. Qed.
Lemma skip_value : forall w t v r, white w -> value_text t v -> skip_space (w ++ t ++ r) = t ++ r.
Proof. intros w t v r W V. rewrite skip_white by auto. destruct (value_first _ _ V) as (c & t' & -> & O). cbn [app]. apply skip_none. apply O. Qed.

Theorem text_read :
  (forall t v, value_text t v -> forall f r, (List.length t < f)%nat -> ends r -> scan_value f (t ++ r) = Ok (v, r))
  /\ (forall t l, elements_text t l -> forall f g r, (List.length t < f)%nat -> (List.length t < g)%nat ->
        elements (scan_value f) g (skip_space (t ++ 93 :: r)) = Ok (l, r))
  /\ (forall t l, members_text t l -> forall f g d r, (List.length t < f)%nat -> (List.length t < g)%nat ->
        members (scan_value f) g d (skip_space (t ++ 125 :: r)) = Ok (JObj (fold_left (fun d kv => dset (fst kv) (snd kv) d) l d), r))
  /\ (forall t kv, member_text t kv -> forall f g d r, (List.length t < f)%nat ->
        members (scan_value f) (S g) d (skip_space (t ++ 125 :: r)) = Ok (JObj (dset (fst kv) (snd kv) d), r)
        /\ members (scan_value f) (S g) d (skip_space (t ++ 44 :: r)) = members (scan_value f) g (dset (fst kv) (snd kv) d) (skip_space r)).
Proof.
  apply text_ind.
  - intros f r L _. destruct f; [lia|]. reflexivity.
  - intros f r L _. destruct f; [lia|]. reflexivity.
  - intros f r L _. destruct f; [lia|]. reflexivity.
  - intros w I f r L _. destruct f; [lia|]. cbn [In] in I. repeat (destruct I as [<-|I]; [reflexivity|]). destruct I.
  - intros n Nu f r L R. destruct f; [lia|]. pose proof (num_complete n r Nu R) as H. destruct (number_first n Nu) as (c & t & -> & C). unfold digit in C.
    cbn [app] in *. cbn [scan_value]. rewrite H.
    replace (c =? 34) with false by (symmetry; apply N.eqb_neq; lia). replace (c =? 123) with false by (symmetry; apply N.eqb_neq; lia). replace (c =? 91) with false by (symmetry; apply N.eqb_neq; lia). auto.
  - intros t s B f r L _. destruct f; [lia|]. cbn [app scan_value]. change (34 =? 34) with true. cbv iota. rewrite <- app_assoc. cbn [app]. rewrite (scan_complete t s B). auto.
  - intros w W f r L _. destruct f; [lia|]. cbn [app scan_value]. change (91 =? 34) with false. change (91 =? 123) with false. change (91 =? 91) with true. cbv iota.
    rewrite <- app_assoc. rewrite skip_white by auto. cbn [app]. rewrite skip_none by reflexivity. rewrite eat_same. auto.
  - intros t l T IH f r L _. destruct f; [lia|]. cbn [List.length] in L. rewrite app_length in L. cbn [List.length] in L.
    cbn [app scan_value]. change (91 =? 34) with false. change (91 =? 123) with false. change (91 =? 91) with true. cbv iota.
    rewrite <- app_assoc. cbn [app]. replace (eat 93 (skip_space (t ++ 93 :: r))) with (@None pystr).
    + rewrite IH; [auto|lia|rewrite app_length; lia].
    + inversion T; subst; rewrite <- ?app_assoc; rewrite (skip_value _ _ _ _ H H0); destruct (value_first _ _ H0) as (c & t9 & -> & O); cbn [app eat];
        (replace (c =? 93) with false; [auto|symmetry; apply N.eqb_neq; apply O]).
  - intros w W f r L _. destruct f; [lia|]. cbn [app scan_value]. change (123 =? 34) with false. change (123 =? 123) with true. cbv iota.
    rewrite <- app_assoc. rewrite skip_white by auto. cbn [app]. rewrite skip_none by reflexivity. rewrite eat_same. auto.
  - intros t l T IH f r L _. destruct f; [lia|]. cbn [List.length] in L. rewrite app_length in L. cbn [List.length] in L.
    cbn [app scan_value]. change (123 =? 34) with false. change (123 =? 123) with true. cbv iota.
    rewrite <- app_assoc. cbn [app]. replace (eat 125 (skip_space (t ++ 125 :: r))) with (@None pystr).
    + rewrite IH; [auto|lia|rewrite app_length; lia].
    + assert (Q : forall m kv x, member_text m kv -> None = eat 125 (skip_space (m ++ x))).
      { intros m kv x M. inversion M; subst. rewrite <- app_assoc. rewrite skip_white by auto. cbn [app]. rewrite skip_none by reflexivity. auto. }
      inversion T; subst; [eauto|]. rewrite <- app_assoc. eauto.
  - intros w t v w' W T IH W' f g r Lf Lg. rewrite !app_length in *. rewrite <- !app_assoc. rewrite (skip_value w t v _ W T).
    destruct g; [lia|]. cbn [elements]. rewrite IH; [|lia|apply ends_white; auto]. cbn [rbind fst snd]. rewrite skip_white by auto. rewrite skip_none by reflexivity. rewrite eat_same. auto.
  - intros w t v w' t' l W T IH W' E IHE f g r Lf Lg. rewrite !app_length in *. cbn [List.length] in *. rewrite <- !app_assoc. rewrite (skip_value w t v _ W T).
    destruct g; [lia|]. cbn [elements]. rewrite IH; [|lia|apply ends_white; auto]. cbn [rbind fst snd]. rewrite skip_white by auto. cbn [app]. rewrite skip_none by reflexivity. rewrite eat_same.
    cbn [eat]. change (44 =? 93) with false. cbv iota. rewrite IHE by lia. auto.
  - intros m kv M IH f g d r Lf Lg. destruct g; [lia|]. rewrite (proj1 (IH f g d r Lf)). auto.
  - intros m kv t l M IH T IHT f g d r Lf Lg. rewrite app_length in *. cbn [List.length] in *. destruct g; [lia|]. rewrite <- app_assoc. cbn [app].
    rewrite (proj2 (IH f g d _ ltac:(lia))). rewrite IHT by lia. auto.
  - intros w kt k w1 w2 t v w3 W K W1 W2 T IH W3 f g d r L. repeat (rewrite !app_length in L; cbn [List.length] in L). cbn [fst snd].
    assert (H : forall c, c = 44 \/ c = 125 -> scan_str ((kt ++ 34 :: w1 ++ 58 :: w2 ++ t ++ w3) ++ c :: r) = Ok (k, w1 ++ 58 :: w2 ++ t ++ w3 ++ c :: r)
       /\ scan_value f (t ++ w3 ++ c :: r) = Ok (v, w3 ++ c :: r)).
    { intros c C. split; [|apply IH; [lia|apply ends_white; tauto]]. repeat (rewrite <- !app_assoc; cbn [app]). apply (scan_complete kt k K). }
    split; (rewrite <- app_assoc; rewrite skip_white by auto; cbn [app]; rewrite skip_none by reflexivity; cbn [members]; rewrite eat_same).
    + destruct (H 125 ltac:(auto)) as [-> V]. cbn [rbind fst snd]. rewrite skip_white by auto. rewrite skip_none by reflexivity. rewrite eat_same. rewrite (skip_value w2 t v _ W2 T), V.
      cbn [rbind fst snd]. rewrite skip_white by auto. rewrite skip_none by reflexivity. rewrite eat_same. auto.
    + destruct (H 44 ltac:(auto)) as [-> V]. cbn [rbind fst snd]. rewrite skip_white by auto. rewrite skip_none by reflexivity. rewrite eat_same. rewrite (skip_value w2 t v _ W2 T), V.
      cbn [rbind fst snd]. rewrite skip_white by auto. rewrite skip_none by reflexivity. rewrite eat_same. cbn [eat]. change (44 =? 125) with false. auto.
Qed.

Theorem loads_reads : forall s v, loads s = Ok v <-> json_text s v.
Proof.
  intros s v. unfold loads. split.
  - destruct (eat 65279 s) as [x|] eqn:B; [discriminate|]. destruct (skip_split s) as (w & W & E & _). remember (skip_space s) as u.
    destruct (scan_value (S (List.length u)) u) as [[v' r]|e] eqn:V; cbn [rbind fst snd]; [|discriminate]. destruct (skip_space r) eqn:R; [|discriminate]. intros H. injection H as ->.
    apply value_sound in V. destruct V as (t & -> & T). destruct (skip_split r) as (w' & W' & E' & _). rewrite R, app_nil_r in E'. subst r. exists w, t, w'. auto.
  - intros (w & t & w' & -> & W & T & W'). replace (eat 65279 (w ++ t ++ w')) with (@None pystr).
    + rewrite (skip_value w t v _ W T). rewrite (proj1 text_read t v T); [|rewrite app_length; lia|apply ends_all; auto]. cbn [rbind fst snd].
      replace (skip_space w') with (@nil N); auto. rewrite <- (app_nil_r w'). rewrite skip_white by auto. auto.
    + destruct W as [|x w X W]; cbn [app].
      * destruct (value_first _ _ T) as (c & t' & -> & O). cbn [app eat]. replace (c =? 65279) with false; auto. symmetry. apply N.eqb_neq. apply O.
      * cbn [eat]. replace (x =? 65279) with false; auto. symmetry. apply N.eqb_neq. lia.
Qed.

(** ** Errors *)
Lemma scan_str_error : forall n u e, (List.length u <= n)%nat -> scan_str u = Exn e -> e = ValueError.
Proof.
  assert (RC : forall (c : N) (m : res (pystr * pystr)) e, rcons c m = Exn e -> m = Exn e) by (intros c [[? ?]|e0] e1 H; cbn [rcons] in H; congruence).
  induction n as [|n IH]; intros u e L H; destruct u as [|c u]; cbn [List.length] in L; [cbn [scan_str] in H; congruence|lia|cbn [scan_str] in H; congruence|].
  cbn [scan_str] in H. destruct (c =? 34); [discriminate|]. destruct (c <? 32); [congruence|]. destruct (c =? 92); [|apply RC in H; apply (IH u); auto; lia].
  destruct u as [|x u]; [congruence|]. cbn [List.length] in L. destruct (x =? 117).
  - destruct u as [|a1 [|a2 [|a3 [|a4 u]]]]; try congruence. cbn [List.length] in L. destruct (hex4 a1 a2 a3 a4) as [h|]; [|congruence].
    assert (K : forall h, rcons h (scan_str u) = Exn e -> e = ValueError) by (intros h' H'; apply RC in H'; apply (IH u); auto; lia).
    destruct (is_high h); [|exact (K _ H)]. destruct u as [|b [|u' [|b1 [|b2 [|b3 [|b4 t3]]]]]]; try exact (K _ H).
    destruct ((b =? 92) && (u' =? 117)); [|exact (K _ H)]. destruct (hex4 b1 b2 b3 b4) as [y|]; [|congruence]. destruct (is_low y); [|exact (K _ H)].
    cbn [List.length] in L. apply RC in H. apply (IH t3); auto; lia.
  - destruct (unescape x); [|congruence]. apply RC in H. apply (IH u); auto; lia.
Qed.

Lemma skip_length : forall s, (List.length (skip_space s) <= List.length s)%nat.
Proof. induction s as [|c s IH]; cbn [skip_space]; auto. destruct (json_space c); cbn [List.length]; lia. Qed.
Lemma value_shorter : forall f s v r, scan_value f s = Ok (v, r) -> (List.length r < List.length s)%nat.
Proof. intros f s v r H. apply value_sound in H. destruct H as (t & -> & T). destruct (value_first _ _ T) as (c & t' & -> & _). cbn [app List.length]. rewrite app_length. lia. Qed.

Lemma loops_error : forall f, (forall s e, (List.length s < f)%nat -> scan_value f s = Exn e -> e = ValueError) ->
  forall g s, (List.length s < g)%nat -> (List.length s < f)%nat ->
  (forall e, elements (scan_value f) g s = Exn e -> e = ValueError) /\ (forall d e, members (scan_value f) g d s = Exn e -> e = ValueError).
Proof.
  intros f Hf. induction g as [|g IH]; intros s Lg Lf; [lia|]. split.
  - intros e H. cbn [elements] in H. destruct (scan_value f s) as [[v r]|e'] eqn:V; cbn [rbind fst snd] in H.
    2:{ injection H as <-. exact (Hf _ _ Lf V). }
    pose proof (value_shorter _ _ _ _ V) as L. pose proof (skip_length r) as L1. destruct (eat 93 (skip_space r)); [discriminate|]. destruct (eat 44 (skip_space r)) as [t|] eqn:E; [|congruence].
    apply eat_spec in E. rewrite E in L1. cbn [List.length] in L1. pose proof (skip_length t). destruct (elements (scan_value f) g (skip_space t)) as [[? ?]|e'] eqn:El; cbn [rcons] in H; [discriminate|]. injection H as <-.
    exact (proj1 (IH (skip_space t) ltac:(lia) ltac:(lia)) _ El).
  - intros d e H. cbn [members] in H. destruct (eat 34 s) as [t|] eqn:Q; [|congruence]. apply eat_spec in Q. subst s. cbn [List.length] in *.
    destruct (scan_str t) as [[k t1]|e'] eqn:Sc; cbn [rbind fst snd] in H.
    2:{ injection H as <-. exact (scan_str_error _ _ _ (le_n _) Sc). }
    destruct (scan_sound _ _ _ _ (le_n _) Sc) as (kt & -> & _). rewrite app_length in *. cbn [List.length] in *. pose proof (skip_length t1).
    destruct (eat 58 (skip_space t1)) as [t2|] eqn:C; [|congruence]. apply eat_spec in C. rewrite C in *. cbn [List.length] in *. pose proof (skip_length t2).
    destruct (scan_value f (skip_space t2)) as [[v r]|e'] eqn:V; cbn [rbind fst snd] in H.
    2:{ injection H as <-. apply (Hf _ _ ltac:(idtac) V) || (refine (Hf _ _ _ V); lia). }
    pose proof (value_shorter _ _ _ _ V). pose proof (skip_length r) as L1. destruct (eat 125 (skip_space r)); [discriminate|]. destruct (eat 44 (skip_space r)) as [t4|] eqn:E; [|congruence].
    apply eat_spec in E. rewrite E in L1. cbn [List.length] in L1. pose proof (skip_length t4).
    exact (proj2 (IH (skip_space t4) ltac:(lia) ltac:(lia)) _ _ H).
Qed.
Lemma value_error : forall f s e, (List.length s < f)%nat -> scan_value f s = Exn e -> e = ValueError.
Proof.
  induction f as [|f IH]; intros s e L H; [lia|]. cbn [scan_value] in H. destruct s as [|c t]; [congruence|]. cbn [List.length] in L. pose proof (skip_length t).
  destruct (c =? 34).
  { destruct (scan_str t) as [[? ?]|e'] eqn:Sc; cbn [rbind] in H; [discriminate|]. injection H as <-. exact (scan_str_error _ _ _ (le_n _) Sc). }
  destruct (c =? 123).
  { destruct (eat 125 (skip_space t)); [discriminate|]. refine (proj2 (loops_error f IH (S (List.length t)) _ _ _) _ _ H); lia. }
  destruct (c =? 91).
  { destruct (eat 93 (skip_space t)); [discriminate|]. match type of H with rbind ?m _ = _ => destruct m as [[? ?]|e'] eqn:M end; cbn [rbind] in H; [discriminate|]. injection H as <-.
    refine (proj1 (loops_error f IH (S (List.length t)) _ _ _) _ M); lia. }
  destruct (scan_num (c :: t)) as [[? ?]|]; [discriminate|]. destruct (scan_word words (c :: t)); congruence.
Qed.
Theorem loads_error : forall s e, loads s = Exn e -> e = ValueError.
Proof.
  intros s e H. unfold loads in H. destruct (eat 65279 s); [congruence|].
  destruct (scan_value (S (List.length (skip_space s))) (skip_space s)) as [[v r]|e'] eqn:V; cbn [rbind fst snd] in H.
  - destruct (skip_space r); congruence.
  - injection H as <-. refine (value_error _ _ _ _ V). lia.
Qed.
