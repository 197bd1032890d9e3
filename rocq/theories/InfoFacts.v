(** * Facts about the info file *)

From Coq Require Import List NArith ZArith Bool String Lia.
From Verif Require Import PyBase PyFacts Utf8 Spec_Values ValueFacts Json JsonFacts JsonEnd Cache Spec_FileSets CacheSetFacts
  Install Spec_Install InstallFacts InstallEnd InfoFile Spec_Info.
Import ListNotations.
Open Scope string_scope.
Open Scope list_scope.
Local Open Scope N_scope.

(** ** Ordinary text *)
Lemma is_high_spec : forall x, is_high x = true <-> 55296 <= x <= 56319.
Proof. intros x. unfold is_high. rewrite andb_true_iff, !N.leb_le. tauto. Qed.
Lemma is_low_spec : forall x, is_low x = true <-> 56320 <= x <= 57343.
Proof. intros x. unfold is_low. rewrite andb_true_iff, !N.leb_le. tauto. Qed.

Lemma ordinary_writable : forall s, ordinary s -> writable s.
Proof.
  intros s [C P]. split; [apply Forall_forall; exact C|]. clear C. induction s as [|x s IH]; [exact I|]. destruct s as [|y s]; [exact I|].
  split.
  - rewrite is_high_spec, is_low_spec. apply (P [] x y s eq_refl).
  - apply IH. intros a u v b E. apply (P (x :: a) u v b). rewrite E. reflexivity.
Qed.

Definition no_surrogate (c : N) : Prop := c < 55296 \/ 57343 < c < 1114112.

Lemma ordinary_plain : forall s, Forall no_surrogate s -> ordinary s.
Proof.
  intros s F. rewrite Forall_forall in F. split; [intros c I; destruct (F c I); lia|].
  intros a x y b -> [H _]. specialize (F x ltac:(apply in_or_app; right; left; reflexivity)). unfold no_surrogate in F. lia.
Qed.

Lemma writable_app_l : forall a b, Forall no_surrogate a -> writable b -> writable (a ++ b).
Proof.
  intros a b F [B1 B2]. split; [apply Forall_app; split; [|exact B1]; eapply Forall_impl; [|exact F]; unfold no_surrogate; intros; lia|].
  induction F as [|x a Hx F IH]; [exact B2|]. cbn [app]. remember (a ++ b) as t eqn:Et. destruct t as [|y t]; [exact I|]. split; [|exact IH].
  rewrite is_high_spec. unfold no_surrogate in Hx. lia.
Qed.

Lemma writable_app_r : forall a b, writable a -> Forall no_surrogate b -> writable (a ++ b).
Proof.
  intros a b [A1 A2] F. pose proof (ordinary_writable _ (ordinary_plain _ F)) as [B1 B2]. split; [apply Forall_app; split; assumption|].
  induction a as [|x a IH]; [exact B2|]. inversion A1; subst. cbn [app]. destruct a as [|y a].
  - cbn [app]. destruct b as [|y b]; [exact I|]. split; [|exact B2]. inversion F as [|? ? Hy _]; subst. rewrite is_low_spec. unfold no_surrogate in Hy. lia.
  - destruct A2 as [A2 A3]. split; [exact A2 | apply IH; assumption].
Qed.

(** ** UTF-8 *)
Lemma div_is : forall a b q r, r < b -> a = b * q + r -> a / b = q.
Proof. intros. symmetry. eapply N.div_unique; eauto. Qed.
Lemma mod_is : forall a b q r, r < b -> a = b * q + r -> a mod b = r.
Proof. intros. symmetry. eapply N.mod_unique; eauto. Qed.

Lemma cont_spec : forall b, cont b = true <-> 128 <= b < 192.
Proof. intros b. unfold cont. rewrite andb_true_iff, N.leb_le, N.ltb_lt. tauto. Qed.

Lemma option_map_inv : forall {A B} (f : A -> B) o y, option_map f o = Some y -> exists x, o = Some x /\ y = f x.
Proof. intros A B f [x|] y E; [|discriminate]. injection E as <-. eauto. Qed.

Lemma encode_two : forall b0 b1, 194 <= b0 < 224 -> 128 <= b1 < 192 ->
  utf8_encode1 ((b0 - 192) * 64 + (b1 - 128)) = [b0; b1] /\ scalar ((b0 - 192) * 64 + (b1 - 128)) = true.
Proof.
  intros b0 b1 H0 H1. set (v := (b0 - 192) * 64 + (b1 - 128)). assert (V : v = 64 * (b0 - 192) + (b1 - 128)) by (subst v; lia).
  split; [|apply scalar_spec; lia]. unfold utf8_encode1. replace (v <? 128) with false by (symmetry; apply N.ltb_ge; lia).
  replace (v <? 2048) with true by (symmetry; apply N.ltb_lt; lia). rewrite (div_is v 64 (b0 - 192) (b1 - 128) ltac:(lia) V), (mod_is v 64 (b0 - 192) (b1 - 128) ltac:(lia) V). repeat f_equal; lia.
Qed.
Lemma encode_three : forall b0 b1 b2 v, 224 <= b0 < 240 -> 128 <= b1 < 192 -> 128 <= b2 < 192 -> v = (b0 - 224) * 4096 + (b1 - 128) * 64 + (b2 - 128) ->
  2048 <= v -> utf8_encode1 v = [b0; b1; b2].
Proof.
  intros b0 b1 b2 v H0 H1 H2 V L. unfold utf8_encode1. replace (v <? 128) with false by (symmetry; apply N.ltb_ge; lia).
  replace (v <? 2048) with false by (symmetry; apply N.ltb_ge; lia). replace (v <? 65536) with true by (symmetry; apply N.ltb_lt; lia).
  rewrite (div_is v 4096 (b0 - 224) ((b1 - 128) * 64 + (b2 - 128))) by lia.
  rewrite (div_is v 64 ((b0 - 224) * 64 + (b1 - 128)) (b2 - 128)) by lia. rewrite (mod_is v 64 ((b0 - 224) * 64 + (b1 - 128)) (b2 - 128)) by lia.
  rewrite (mod_is _ 64 (b0 - 224) (b1 - 128)) by lia. repeat f_equal; lia.
Qed.
Lemma encode_four : forall b0 b1 b2 b3 v, 240 <= b0 < 245 -> 128 <= b1 < 192 -> 128 <= b2 < 192 -> 128 <= b3 < 192 ->
  v = (b0 - 240) * 262144 + (b1 - 128) * 4096 + (b2 - 128) * 64 + (b3 - 128) -> 65536 <= v -> utf8_encode1 v = [b0; b1; b2; b3].
Proof.
  intros b0 b1 b2 b3 v H0 H1 H2 H3 V L. unfold utf8_encode1. replace (v <? 128) with false by (symmetry; apply N.ltb_ge; lia).
  replace (v <? 2048) with false by (symmetry; apply N.ltb_ge; lia). replace (v <? 65536) with false by (symmetry; apply N.ltb_ge; lia).
  rewrite (div_is v 262144 (b0 - 240) ((b1 - 128) * 4096 + (b2 - 128) * 64 + (b3 - 128))) by lia.
  rewrite (div_is v 4096 ((b0 - 240) * 64 + (b1 - 128)) ((b2 - 128) * 64 + (b3 - 128))) by lia.
  rewrite (mod_is _ 64 (b0 - 240) (b1 - 128)) by lia.
  rewrite (div_is v 64 ((b0 - 240) * 4096 + (b1 - 128) * 64 + (b2 - 128)) (b3 - 128)) by lia.
  rewrite (mod_is _ 64 ((b0 - 240) * 64 + (b1 - 128)) (b2 - 128)) by lia.
  rewrite (mod_is v 64 ((b0 - 240) * 4096 + (b1 - 128) * 64 + (b2 - 128)) (b3 - 128)) by lia. repeat f_equal; lia.
Qed.

(** decoding inverts encoding only *)
Lemma decode_encode : forall n b s, (List.length b <= n)%nat -> utf8_decode b = Some s -> unicode s /\ utf8_encode s = Ok b.
Proof.
  induction n as [|n IH]; intros b s L D.
  - destruct b; [|cbn in L; lia]. injection D as <-. split; [constructor | reflexivity].
  - destruct b as [|b0 b]; [injection D as <-; split; [constructor | reflexivity]|]. cbn [List.length] in L.
    assert (K : forall c w r t, scalar c = true -> utf8_encode1 c = w -> (List.length r <= n)%nat -> utf8_decode r = Some t ->
      unicode (c :: t) /\ utf8_encode (c :: t) = Ok (w ++ r)).
    { intros c w r t Sc W Lr Dr. destruct (IH _ _ Lr Dr) as [U E]. split; [constructor; [apply scalar_spec, Sc | exact U]|].
      cbn [utf8_encode]. rewrite Sc, E, W. reflexivity. }
    cbn [utf8_decode] in D. destruct (N.ltb_spec b0 128) as [H|H].
    { apply option_map_inv in D as (t & D & ->). apply (K b0 [b0] b t); auto; [apply scalar_spec; lia | | lia].
      unfold utf8_encode1. replace (b0 <? 128) with true by (symmetry; apply N.ltb_lt; lia). reflexivity. }
    destruct (N.ltb_spec b0 194) as [H2|H2]; [discriminate|].
    destruct (N.ltb_spec b0 224) as [H3|H3].
    { destruct b as [|b1 r]; [discriminate|]. destruct (cont b1) eqn:C1; [|discriminate]. apply cont_spec in C1. apply option_map_inv in D as (t & D & ->).
      destruct (encode_two b0 b1 ltac:(lia) C1) as [E1 E2]. apply (K _ [b0; b1] r t); auto. cbn [List.length] in L. lia. }
    destruct (N.ltb_spec b0 240) as [H4|H4].
    { destruct b as [|b1 [|b2 r]]; try discriminate. cbv zeta in D.
      destruct (cont b1) eqn:C1; [|discriminate]. destruct (cont b2) eqn:C2; [|discriminate]. apply cont_spec in C1, C2. cbn [andb] in D.
      destruct (N.leb_spec 2048 ((b0 - 224) * 4096 + (b1 - 128) * 64 + (b2 - 128))) as [M|M]; [|discriminate]. cbn [andb] in D.
      destruct (scalar _) eqn:Sc; [|discriminate]. apply option_map_inv in D as (t & D & ->).
      apply (K _ [b0; b1; b2] r t); auto; [apply encode_three; auto; lia | cbn [List.length] in L; lia]. }
    destruct (N.ltb_spec b0 245) as [H5|H5]; [|discriminate].
    destruct b as [|b1 [|b2 [|b3 r]]]; try discriminate. cbv zeta in D.
    destruct (cont b1) eqn:C1; [|discriminate]. destruct (cont b2) eqn:C2; [|discriminate]. destruct (cont b3) eqn:C3; [|discriminate]. apply cont_spec in C1, C2, C3. cbn [andb] in D.
    destruct (N.leb_spec 65536 ((b0 - 240) * 262144 + (b1 - 128) * 4096 + (b2 - 128) * 64 + (b3 - 128))) as [M|M]; [|discriminate]. cbn [andb] in D.
    destruct (scalar _) eqn:Sc; [|discriminate]. apply option_map_inv in D as (t & D & ->).
    apply (K _ [b0; b1; b2; b3] r t); auto; [apply encode_four; auto; lia | cbn [List.length] in L; lia].
Qed.

Lemma utf8_iff : forall b s, decode_bytes EncUtf8 b = Ok s <-> utf8_encode s = Ok b.
Proof.
  intros b s. unfold decode_bytes. split.
  - destruct (utf8_decode b) as [t|] eqn:D; [|discriminate]. intros E. injection E as <-. apply (proj2 (decode_encode _ _ _ (le_n _) D)).
  - intros E. assert (U : unicode s).
    { revert b E. induction s as [|c s IH]; intros b E; [constructor|]. cbn [utf8_encode] in E. destruct (scalar c) eqn:Sc; [|discriminate].
      destruct (utf8_encode s) as [b'|] eqn:E'; [|discriminate]. constructor; [apply scalar_spec, Sc | eapply IH; reflexivity]. }
    destruct (encode_unicode s U) as (b' & E' & D). rewrite E in E'. injection E' as <-. rewrite D. reflexivity.
Qed.

(** ** Dates *)
Definition lt_list (a b : list N) : Prop := str_leb b a = false.

Lemma leb_before : forall a b, stamp_leb b a = false <-> before a b.
Proof.
  intros [y m d h mi s] [y' m' d' h' mi' s']. unfold stamp_leb, stamp_list, before. cbn [t_year t_month t_day t_hour t_minute t_second str_leb].
  repeat match goal with |- (if N.ltb ?x ?y then true else if N.eqb ?x ?y then _ else false) = false <-> _ =>
    destruct (N.ltb_spec x y); [split; [discriminate | intros; lia] | destruct (N.eqb_spec x y); [subst | split; [intros _; lia | reflexivity]]] end.
  split; [discriminate | intros; lia].
Qed.

(** ** Numbers in digits *)
Definition digit_step (v c : N) : N := v * 10 + (c - 48).
Fixpoint tens (k : nat) : N := match k with O => 1 | S k' => 10 * tens k' end.

Lemma fold_digits : forall s v, fold_left digit_step s v = v * tens (List.length s) + fold_left digit_step s 0.
Proof.
  induction s as [|c s IH]; intros v; cbn [fold_left List.length tens]; [lia|]. rewrite (IH (digit_step v c)), (IH (digit_step 0 c)). unfold digit_step. lia.
Qed.
Lemma digits_bound : forall s, Forall (fun c => 48 <= c <= 57) s -> fold_left digit_step s 0 < tens (List.length s).
Proof.
  induction 1 as [|c s H F IH]; cbn [fold_left List.length tens]; [lia|]. rewrite fold_digits. unfold digit_step at 1. nia.
Qed.

Lemma decimal_leb : forall k n s n' s' u u', decimal k n s -> decimal k n' s' ->
  str_leb (s ++ u) (s' ++ u') = if n <? n' then true else if n =? n' then str_leb u u' else false.
Proof.
  change (forall k n s n' s' u u',
    List.length s = k /\ Forall (fun c => 48 <= c <= 57) s /\ fold_left digit_step s 0 = n ->
    List.length s' = k /\ Forall (fun c => 48 <= c <= 57) s' /\ fold_left digit_step s' 0 = n' ->
    str_leb (s ++ u) (s' ++ u') = if n <? n' then true else if n =? n' then str_leb u u' else false).
  induction k as [|k IH]; intros n s n' s' u u' (L & F & V) (L' & F' & V').
  - destruct s; [|discriminate]. destruct s'; [|discriminate]. cbn in V, V'. subst n n'. reflexivity.
  - destruct s as [|c s]; [discriminate|]. destruct s' as [|c' s']; [discriminate|]. injection L as L. injection L' as L'.
    inversion F as [|? ? Fc Fs]; inversion F' as [|? ? Fc' Fs']; subst. cbn [app str_leb].
    cbn [fold_left]. rewrite (fold_digits s), (fold_digits s'). rewrite L'.
    pose proof (digits_bound s Fs) as B. pose proof (digits_bound s' Fs') as B'. rewrite L' in B'.
    specialize (IH _ s _ s' u u' (conj eq_refl (conj Fs eq_refl)) (conj L' (conj Fs' eq_refl))). rewrite IH. assert (DS : forall c, digit_step 0 c = 0 * 10 + (c - 48)) by reflexivity. rewrite !DS.
    revert B B'. generalize (fold_left digit_step s 0) (fold_left digit_step s' 0) (tens (List.length s)). intros x y t B B'.
    destruct (N.ltb_spec c c') as [C|C].
    + replace ((0 * 10 + (c - 48)) * t + x <? (0 * 10 + (c' - 48)) * t + y) with true; [reflexivity|]. symmetry. apply N.ltb_lt. nia.
    + destruct (N.eqb_spec c c') as [<-|C'].
      * destruct (N.ltb_spec ((0 * 10 + (c - 48)) * t + x) ((0 * 10 + (c - 48)) * t + y)), (N.ltb_spec x y); try reflexivity; try (exfalso; lia).
        destruct (N.eqb_spec ((0 * 10 + (c - 48)) * t + x) ((0 * 10 + (c - 48)) * t + y)), (N.eqb_spec x y); try reflexivity; exfalso; lia.
      * assert (G : (0 * 10 + (c' - 48)) * t + y < (0 * 10 + (c - 48)) * t + x) by nia.
        rewrite (proj2 (N.ltb_ge _ _) (N.lt_le_incl _ _ G)), (proj2 (N.eqb_neq _ _) (not_eq_sym (N.lt_neq _ _ G))). reflexivity.
Qed.

Lemma same_char : forall (c : N) u u', str_leb ([c] ++ u) ([c] ++ u') = str_leb u u'.
Proof. intros c u u'. cbn [app str_leb]. rewrite N.ltb_irrefl, N.eqb_refl. reflexivity. Qed.

Lemma shows_leb : forall a b sa sb, shows_date a sa -> shows_date b sb -> str_leb sa sb = stamp_leb a b.
Proof.
  intros a b sa sb (y & m & d & h & mi & se & Y & M & D & H & I & S & ->) (y' & m' & d' & h' & mi' & se' & Y' & M' & D' & H' & I' & S' & ->).
  change (py "-") with [45]. change (py " ") with [32]. change (py ":") with [58].
  rewrite (decimal_leb _ _ _ _ _ _ _ Y Y'), same_char, (decimal_leb _ _ _ _ _ _ _ M M'), same_char, (decimal_leb _ _ _ _ _ _ _ D D'), same_char,
    (decimal_leb _ _ _ _ _ _ _ H H'), same_char, (decimal_leb _ _ _ _ _ _ _ I I'), same_char.
  rewrite <- (app_nil_r se), <- (app_nil_r se'), (decimal_leb _ _ _ _ _ _ _ S S'). reflexivity.
Qed.

Lemma low_digits : forall n, n = 10 * (n / 10) + n mod 10 /\ n mod 10 < 10.
Proof. intros n. split; [apply N.div_mod; discriminate | apply N.mod_lt; discriminate]. Qed.

Lemma two_decimal : forall n, n < 100 -> decimal 2 n (two n).
Proof.
  intros n H. destruct (low_digits n) as [D M]. assert (Q : n / 10 < 10) by (apply N.div_lt_upper_bound; [discriminate | lia]).
  unfold two. rewrite (N.mod_small (n / 10) 10) by exact Q. revert D M Q. generalize (n / 10) (n mod 10). intros q r D M Q.
  split; [reflexivity|]. split; [constructor; [lia|]; constructor; [lia | constructor]|]. cbn [fold_left]. lia.
Qed.
Lemma four_decimal : forall n, n < 10000 -> decimal 4 n (four n).
Proof.
  intros n H. assert (Q : n / 100 < 100) by (apply N.div_lt_upper_bound; [discriminate | lia]). destruct (two_decimal _ Q) as (L & F & V).
  destruct (low_digits n) as [D1 M1]. destruct (low_digits (n / 10)) as [D2 M2]. rewrite N.div_div in D2 by discriminate. change (10 * 10) with 100 in D2.
  unfold four. split; [reflexivity|].
  revert D1 M1 D2 M2 F V. generalize (two (n / 100)). unfold two. generalize (n / 10 mod 10) (n mod 10). generalize (n / 100) (n / 10). intros a q b c t D1 M1 D2 M2 F V. split.
  - apply Forall_app. split; [exact F|]. constructor; [lia|]. constructor; [lia | constructor].
  - rewrite fold_left_app, V. cbn [fold_left]. lia.
Qed.

Lemma iso_shows : forall t, calendar t -> shows_date t (isoformat t).
Proof.
  intros [y m d h mi s] (Y & (n & M & D) & H & I & S). cbn [t_year t_month t_day t_hour t_minute t_second] in *.
  assert (m < 100 /\ n < 100) as [Hm Hn] by (destruct M as [? ? Q|? ? Q| |]; [cbn in Q; intuition lia | cbn in Q; intuition lia | lia | lia]).
  exists (four y), (two m), (two d), (two h), (two mi), (two s). cbn [t_year t_month t_day t_hour t_minute t_second].
  repeat split; try (apply four_decimal; lia); try (apply two_decimal; lia).
Qed.

Lemma iso_plain : forall t, Forall no_surrogate (isoformat t).
Proof.
  assert (D : forall n, no_surrogate (48 + n mod 10)) by (intros n; destruct (low_digits n) as [_ M]; unfold no_surrogate; generalize dependent (n mod 10); intros; lia).
  assert (T : forall n, Forall no_surrogate (two n)) by (intros n; unfold two; constructor; [apply D|]; constructor; [apply D | constructor]).
  assert (C : forall c, c < 128 -> Forall no_surrogate [c]) by (intros c H; constructor; [unfold no_surrogate; lia | constructor]).
  intros t. unfold isoformat, four. repeat (apply Forall_app; split); try apply T; apply C; reflexivity.
Qed.

Lemma divide_mod : forall a b, a <> 0 -> (b mod a =? 0) = true <-> N.divide a b.
Proof. intros a b H. rewrite N.eqb_eq. apply N.mod_divide. exact H. Qed.

Lemma leap_spec : forall y, leap y = true <-> leap_year y.
Proof.
  intros y. unfold leap, leap_year. rewrite andb_true_iff, orb_true_iff, negb_true_iff.
  rewrite (divide_mod 4 y) by discriminate. rewrite (divide_mod 400 y) by discriminate. rewrite <- not_true_iff_false, (divide_mod 100 y) by discriminate.
  split; [tauto|]. intros [H | H]; [tauto|]. split; [|tauto]. apply (N.divide_trans 4 400 y); [exists 100; reflexivity | exact H].
Qed.

Lemma real_spec : forall t, real_date t = true <-> calendar t.
Proof.
  intros [y m d h mi s]. unfold real_date, calendar. cbn [t_year t_month t_day t_hour t_minute t_second].
  rewrite !andb_true_iff, !N.leb_le.
  assert (ML : forall n, 1 <= m <= 12 -> (month_length y m n <-> n = days_in_month y m)).
  { intros n Hm. unfold days_in_month. split.
    - intros M. destruct M as [y m Q | y m Q | y Q | y Q].
      + cbn in Q. intuition (subst; reflexivity).
      + cbn in Q. intuition (subst; reflexivity).
      + cbn. apply leap_spec in Q. rewrite Q. reflexivity.
      + cbn. destruct (leap y) eqn:E; [apply leap_spec in E; contradiction | reflexivity].
    - intros ->. destruct (N.eqb_spec m 2) as [->|N2].
      + destruct (leap y) eqn:E; [apply ml_29, leap_spec, E | apply ml_28; rewrite <- leap_spec; congruence].
      + destruct (existsb (N.eqb m) [4; 6; 9; 11]) eqn:E.
        * apply ml_30. apply existsb_exists in E as (x & I & E). apply N.eqb_eq in E. subst. exact I.
        * apply ml_31. cbn [existsb] in E. rewrite !orb_false_iff in E. destruct E as (E4 & E6 & E9 & E11 & _). apply N.eqb_neq in E4, E6, E9, E11. cbn. lia. }
  assert (MB : forall n, month_length y m n -> 1 <= m <= 12) by (intros n M; destruct M as [? ? Q|? ? Q| |]; cbn in *; intuition lia).
  split.
  - intros H. repeat split; try lia. exists (days_in_month y m). split; [apply ML; lia | lia].
  - intros (Y & (n & M & D) & H & I & S). pose proof (MB _ M) as B. apply (ML n B) in M. subst n. lia.
Qed.

(** ** The latest date *)
Lemma max_cases : forall a b, (stamp_max a b = a /\ stamp_leb b a = true) \/ (stamp_max a b = b /\ stamp_leb b a = false).
Proof. intros a b. unfold stamp_max. destruct (stamp_leb b a); auto. Qed.
Lemma leb_true : forall a b, stamp_leb a b = true <-> ~ before b a.
Proof. intros a b. rewrite <- leb_before. destruct (stamp_leb a b); split; congruence. Qed.
Lemma stamp_trans : forall a b c, stamp_leb a b = true -> stamp_leb b c = true -> stamp_leb a c = true.
Proof. intros a b c. unfold stamp_leb. apply str_leb_trans. Qed.
Lemma stamp_total : forall a b, stamp_leb a b = false -> stamp_leb b a = true.
Proof. intros a b H. unfold stamp_leb in *. destruct (str_leb_total (stamp_list a) (stamp_list b)); congruence. Qed.

Lemma latest_spec : forall ms dates top, top <> [] -> latest_date ms dates top (latest dates top ms).
Proof.
  intros ms dates top NT.
  set (step := fun dt m => if is_extractable (m_name m) NXDL_file_endings (allowed_parents top) then stamp_max (dates (m_name m)) dt else dt).
  assert (K : forall l dt, let r := fold_left step l dt in
    (r = dt \/ exists m, In m l /\ definition_file top (m_name m) /\ r = dates (m_name m))
    /\ stamp_leb dt r = true /\ forall m, In m l -> definition_file top (m_name m) -> stamp_leb (dates (m_name m)) r = true).
  { induction l as [|m l IH]; intros dt; cbn [fold_left].
    - split; [auto|]. split; [apply str_leb_refl | intros m []].
    - specialize (IH (step dt m)). cbv zeta in *. revert IH. generalize (fold_left step l (step dt m)). intros r (I1 & I2 & I3). unfold step in I1, I2.
      destruct (is_extractable (m_name m) NXDL_file_endings (allowed_parents top)) eqn:X.
      + pose proof (proj1 (extractable_spec _ _ NT) X) as D. destruct (max_cases (dates (m_name m)) dt) as [[E L] | [E L]]; rewrite E in I1, I2.
        * split; [|split].
          -- right. destruct I1 as [-> | (m' & I & D' & ->)]; [exists m | exists m']; cbn [In]; auto.
          -- eapply stamp_trans; eauto.
          -- intros m' [<- | I] D'; auto.
        * apply stamp_total in L. split; [|split]; [|exact I2|].
          -- destruct I1 as [-> | (m' & I & D' & ->)]; [auto | right; exists m'; cbn [In]; auto].
          -- intros m' [<- | I] D'; auto. eapply stamp_trans; eauto.
      + split; [|split]; [|exact I2|].
        * destruct I1 as [-> | (m' & I & D' & ->)]; [auto | right; exists m'; cbn [In]; auto].
        * intros m' [<- | I] D'; auto. apply extractable_spec in D'; congruence. }
  specialize (K ms first_stamp). cbv zeta in K. fold (latest dates top ms) in K. change (fold_left step ms first_stamp) with (latest dates top ms) in K.
  destruct K as (K1 & K2 & K3). split; [exact K1|]. split; [apply leb_true, K2|]. intros m I D. apply leb_true. auto.
Qed.

(** ** The text of the info file *)
Lemma plain_literal : forall s, forallb (fun c => c <? 128) s = true -> Forall no_surrogate s.
Proof. intros s H. apply Forall_forall. intros c I. rewrite forallb_forall in H. apply H in I. apply N.ltb_lt in I. unfold no_surrogate. lia. Qed.

Lemma unicode_writable : forall s, unicode s -> writable s.
Proof. intros s U. apply ordinary_writable, ordinary_plain. exact U. Qed.

Lemma url_writable : forall name, writable name -> writable (zip_url name).
Proof.
  intros name W. unfold zip_url, URL_BASE. apply writable_app_l; [apply plain_literal; reflexivity|]. apply writable_app_l; [apply plain_literal; reflexivity|].
  apply writable_app_r; [exact W | apply plain_literal; reflexivity].
Qed.

Lemma info_writable : forall name sha dt now, writable name -> writable sha -> writable now ->
  Forall (fun kv => writable (fst kv) /\ writable (snd kv)) (info_dict name sha dt now).
Proof.
  assert (L : forall s, forallb (fun c => c <? 128) s = true -> writable s) by (intros s H; apply ordinary_writable, ordinary_plain, plain_literal, H).
  intros name sha dt now A B C. unfold info_dict.
  repeat (apply Forall_cons; [cbn [fst snd]; split|]); try apply Forall_nil; try assumption; try (apply L; reflexivity).
  - apply url_writable, A.
  - apply ordinary_writable, ordinary_plain, iso_plain.
Qed.

Lemma read_written : forall name sha dt now, writable name -> writable sha -> writable now ->
  read_json (dumps (info_dict name sha dt now)) = Ok (mkI (Some name) (Some sha) (Some (zip_url name)) (Some (isoformat dt))).
Proof.
  intros name sha dt now A B C. pose proof (info_writable name sha dt now A B C) as F. unfold read_json.
  change (info_dict name sha dt now) with ((py "ref", name) :: tl (info_dict name sha dt now)) in *. rewrite (loads_written _ _ F). reflexivity.
Qed.

Lemma read_half : forall name sha dt now c, writable name -> writable sha -> writable now -> beginning c (dumps (info_dict name sha dt now)) ->
  c <> dumps (info_dict name sha dt now) -> read_json c = Exn ValueError.
Proof.
  intros name sha dt now c A B C (rest & E) N. pose proof (info_writable name sha dt now A B C) as F. unfold read_json.
  change (info_dict name sha dt now) with ((py "ref", name) :: tl (info_dict name sha dt now)) in *.
  rewrite (loads_open (py "ref", name) (tl (info_dict name sha dt now)) c rest); [reflexivity | | | exact E].
  - eapply Forall_impl; [|exact F]. intros kv [[X _] [Y _]]. auto.
  - intros ->. rewrite app_nil_r in E. congruence.
Qed.

Definition top_name (ms : list member) : pystr := match ms with [] => [] | m :: _ => hd [] (split ch_slash (m_name m)) end.

Lemma info_text_spec : forall dates comment now ms name text, info_text dates comment now ms name = Ok text <->
  exists sha, calendar (latest dates (top_name ms) ms) /\ utf8_encode sha = Ok comment
    /\ text = dumps (info_dict name sha (latest dates (top_name ms) ms) now).
Proof.
  intros dates comment now ms name text. unfold info_text. fold (top_name ms). cbv zeta.
  destruct (real_date (latest dates (top_name ms) ms)) eqn:R.
  - apply real_spec in R. split.
    + destruct (decode_bytes EncUtf8 comment) as [sha|] eqn:D; [|discriminate]. cbn [rbind]. intros E. injection E as <-. exists sha. apply utf8_iff in D. auto.
    + intros (sha & _ & U & ->). apply utf8_iff in U. rewrite U. reflexivity.
  - split; [discriminate|]. intros (sha & C & _). apply real_spec in C. congruence.
Qed.

Lemma encoded_writable : forall s b, utf8_encode s = Ok b -> writable s.
Proof.
  intros s b E. apply utf8_iff in E. unfold decode_bytes in E. destruct (utf8_decode b) as [t|] eqn:D; [|discriminate]. injection E as <-.
  apply unicode_writable. apply (proj1 (decode_encode _ _ _ (le_n _) D)).
Qed.
