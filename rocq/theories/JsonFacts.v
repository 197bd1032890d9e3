(** * Facts about JSON text *)

From Coq Require Import List NArith ZArith Bool String Lia.
From Verif Require Import PyBase PyFacts Json.
Import ListNotations.
Open Scope string_scope.
Open Scope list_scope.
Local Open Scope N_scope.

(** ** Characters *)
Lemma hex_cases : forall n, n < 16 -> (n < 10 /\ hex n = 48 + n) \/ (10 <= n /\ hex n = 87 + n).
Proof. intros n H. unfold hex. destruct (N.ltb_spec n 10); [left | right]; lia. Qed.

Lemma hex_val_hex : forall n, n < 16 -> hex_val (hex n) = Some n.
Proof.
  intros n H. unfold hex_val. destruct (hex_cases n H) as [[L ->] | [L ->]].
  - replace (48 <=? 48 + n) with true by (symmetry; apply N.leb_le; lia).
    replace (48 + n <=? 57) with true by (symmetry; apply N.leb_le; lia). cbn [andb]. f_equal. lia.
  - replace (48 <=? 87 + n) with true by (symmetry; apply N.leb_le; lia).
    replace (87 + n <=? 57) with false by (symmetry; apply N.leb_gt; lia). cbn [andb].
    replace (97 <=? 87 + n) with true by (symmetry; apply N.leb_le; lia).
    replace (87 + n <=? 102) with true by (symmetry; apply N.leb_le; lia). cbn [andb]. f_equal. lia.
Qed.

Lemma hex4_escape : forall n, n < 65536 -> hex4 (hex (n / 4096)) (hex (n / 256 mod 16)) (hex (n / 16 mod 16)) (hex (n mod 16)) = Some n.
Proof.
  intros n H. unfold hex4. rewrite !hex_val_hex.
  2-4: apply N.mod_lt; discriminate.
  2: apply N.div_lt_upper_bound; [discriminate | lia].
  f_equal.
  pose proof (N.div_mod n 16 ltac:(discriminate)) as A. pose proof (N.div_mod (n / 16) 16 ltac:(discriminate)) as B.
  pose proof (N.div_mod (n / 256) 16 ltac:(discriminate)) as C.
  rewrite N.div_div in B by discriminate. rewrite N.div_div in C by discriminate.
  change (16 * 16) with 256 in B. change (256 * 16) with 4096 in C. lia.
Qed.

(** ** Escaped text: a sequence of plain characters, short escapes and escapes of four digits *)
Inductive token : pystr -> N -> Prop :=
| tk_plain : forall c, 32 <= c -> c <> 34 -> c <> 92 -> token [c] c
| tk_short : forall e x, e <> 117 -> unescape e = Some x -> token [92; e] x
| tk_u : forall a b c d x, hex4 a b c d = Some x -> token [92; 117; a; b; c; d] x.

Inductive body : pystr -> Prop :=
| bd_nil : body []
| bd_cons : forall w x b, token w x -> body b -> body (w ++ b).

Lemma body_app : forall a b, body a -> body b -> body (a ++ b).
Proof. intros a b A B. induction A; [exact B|]. rewrite <- app_assoc. econstructor; eauto. Qed.

Lemma scan_plain : forall c t, 32 <= c -> c <> 34 -> c <> 92 -> scan_str (c :: t) = rcons c (scan_str t).
Proof.
  intros c t A B C. cbn [scan_str]. rewrite (proj2 (N.eqb_neq c 34) B), (proj2 (N.ltb_ge c 32) A), (proj2 (N.eqb_neq c 92) C). reflexivity.
Qed.
Lemma scan_short : forall e x t, e <> 117 -> unescape e = Some x -> scan_str (92 :: e :: t) = rcons x (scan_str t).
Proof. intros e x t A B. cbn [scan_str]. cbn. rewrite (proj2 (N.eqb_neq e 117) A), B. reflexivity. Qed.
Lemma scan_u : forall a b c d x t, hex4 a b c d = Some x -> is_high x = false -> scan_str (92 :: 117 :: a :: b :: c :: d :: t) = rcons x (scan_str t).
Proof. intros a b c d x t A B. cbn [scan_str]. cbn. rewrite A, B. reflexivity. Qed.
Lemma scan_u_alone : forall a b c d x t, hex4 a b c d = Some x ->
  (forall a' b' c' d' t', t <> 92 :: 117 :: a' :: b' :: c' :: d' :: t') ->
  scan_str (92 :: 117 :: a :: b :: c :: d :: t) = rcons x (scan_str t).
Proof.
  intros a b c d x t A B. cbn [scan_str]. cbn. rewrite A. destruct (is_high x); [|reflexivity].
  destruct t as [|y1 [|y2 [|y3 [|y4 [|y5 [|y6 t']]]]]]; try reflexivity.
  destruct (N.eqb_spec y1 92); [|reflexivity]. destruct (N.eqb_spec y2 117); [|reflexivity]. subst. destruct (B y3 y4 y5 y6 t' eq_refl).
Qed.
Lemma scan_u_next : forall a b c d x a' b' c' d' y t, hex4 a b c d = Some x -> hex4 a' b' c' d' = Some y -> is_high x = true ->
  scan_str (92 :: 117 :: a :: b :: c :: d :: 92 :: 117 :: a' :: b' :: c' :: d' :: t)
  = if is_low y then rcons (join_surrogates x y) (scan_str t) else rcons x (scan_str (92 :: 117 :: a' :: b' :: c' :: d' :: t)).
Proof. intros a b c d x a' b' c' d' y t A B H. cbn [scan_str]. cbn. rewrite A, H. cbn. rewrite B. reflexivity. Qed.

Lemma rcons_exn : forall {A B} (c : A) (r : res (list A * B)) e, r = Exn e -> rcons c r = Exn e.
Proof. intros A B c r e ->. reflexivity. Qed.

(** a prefix of [w ++ b] is a proper prefix of [w], or [w] and a prefix of [b] *)
Lemma prefix_app : forall (p w b rest : pystr), w ++ b = p ++ rest ->
  (exists l, l <> [] /\ w = p ++ l) \/ (exists p', p = w ++ p' /\ b = p' ++ rest).
Proof.
  induction p as [|x p IH]; intros w b rest E.
  - destruct w as [|y w]; [right; exists []; auto | left; exists (y :: w); split; [discriminate | reflexivity]].
  - destruct w as [|y w].
    + right. exists (x :: p). auto.
    + cbn in E. injection E as <- E. destruct (IH _ _ _ E) as [(l & N & ->) | (p' & -> & ->)]; [left; exists l; auto | right; exists p'; auto].
Qed.

(** the beginning of an escaped text is not accepted *)
Lemma scan_open : forall n p b rest, (List.length p <= n)%nat -> body b -> b = p ++ rest -> scan_str p = Exn ValueError.
Proof.
  induction n as [|n IH]; intros p b rest L B E.
  - destruct p; [reflexivity | cbn in L; lia].
  - destruct B as [|w x b T B].
    { destruct p; [reflexivity | discriminate]. }
    destruct (prefix_app _ _ _ _ E) as [(l & Nl & W) | (p' & -> & Eb)].
    + (* inside the first token *)
      destruct T as [c A1 A2 A3 | e x A1 A2 | a0 b0 c0 d0 x A1].
      * destruct p as [|y [|y2 p]]; cbn [app] in W; [reflexivity| |discriminate W]. injection W as _ W. congruence.
      * destruct p as [|y [|y2 [|y3 p]]]; cbn [app] in W; [reflexivity| | |discriminate W].
        -- injection W as <- _. reflexivity.
        -- injection W as _ _ W. congruence.
      * destruct p as [|y [|y2 [|y3 [|y4 [|y5 [|y6 [|y7 p]]]]]]]; cbn [app] in W; [reflexivity| | | | | | |discriminate W].
        1: injection W as <- _; reflexivity.
        1: injection W as <- <- _; reflexivity.
        1: injection W as <- <- _; reflexivity.
        1: injection W as <- <- _; reflexivity.
        1: injection W as <- <- _; reflexivity.
        injection W as _ _ _ _ _ _ W. congruence.
    + assert (I : scan_str p' = Exn ValueError).
      { apply (IH p' b rest); auto. rewrite app_length in L. destruct T; cbn [List.length] in L; lia. }
      destruct T as [c A1 A2 A3 | e x A1 A2 | a0 b0 c0 d0 x A1]; cbn [app] in *.
      * rewrite scan_plain by assumption. apply rcons_exn, I.
      * rewrite (scan_short _ _ _ A1 A2). apply rcons_exn, I.
      * destruct (is_high x) eqn:Hx; [|rewrite (scan_u _ _ _ _ _ _ A1 Hx); apply rcons_exn, I].
        destruct B as [|w2 x2 b2 T2 B2].
        { destruct p'; [|discriminate Eb]. rewrite (scan_u_alone _ _ _ _ _ _ A1) by discriminate. reflexivity. }
        destruct (prefix_app _ _ _ _ Eb) as [(l2 & Nl2 & W2) | (p2 & -> & Eb2)].
        -- rewrite (scan_u_alone _ _ _ _ _ _ A1); [apply rcons_exn, I|]. intros a1 b1 c1 d1 t1 ->.
           destruct T2; cbn in W2; [discriminate | discriminate | injection W2 as _ _ _ _ W2; destruct t1; [destruct l2; [contradiction | discriminate] | discriminate]].
        -- destruct T2 as [c2 B1 B2' B3 | e2 x2 B1 B2' | a2 b2' c2 d2 x2 B1]; cbn [app] in *.
           ++ rewrite (scan_u_alone _ _ _ _ _ _ A1); [apply rcons_exn, I|]. intros ? ? ? ? ? Q. injection Q as -> _. contradiction.
           ++ rewrite (scan_u_alone _ _ _ _ _ _ A1); [apply rcons_exn, I|]. intros ? ? ? ? ? Q. injection Q as -> _. contradiction.
           ++ rewrite (scan_u_next _ _ _ _ _ _ _ _ _ _ _ A1 B1 Hx). destruct (is_low x2); [|apply rcons_exn, I].
              apply rcons_exn. apply (IH p2 b2 rest); auto. cbn [List.length] in L. lia.
Qed.

(** an escaped text is read up to its closing quote *)
Lemma scan_closed : forall n b rest, (List.length b <= n)%nat -> body b -> exists s, scan_str (b ++ 34 :: rest) = Ok (s, rest).
Proof.
  induction n as [|n IH]; intros b rest L B.
  - destruct b; [exists []; reflexivity | cbn in L; lia].
  - destruct B as [|w x b T B]; [exists []; reflexivity|].
    assert (Lb : (List.length b <= n)%nat) by (rewrite app_length in L; destruct T; cbn [List.length] in L; lia).
    destruct (IH b rest Lb B) as (s & I).
    destruct T as [c A1 A2 A3 | e x A1 A2 | a0 b0 c0 d0 x A1]; cbn [app] in *.
    + rewrite scan_plain by assumption. rewrite I. eexists; reflexivity.
    + rewrite (scan_short _ _ _ A1 A2), I. eexists; reflexivity.
    + destruct (is_high x) eqn:Hx; [|rewrite (scan_u _ _ _ _ _ _ A1 Hx), I; eexists; reflexivity].
      destruct B as [|w2 x2 b2 T2 B2].
      { rewrite (scan_u_alone _ _ _ _ _ _ A1) by discriminate. eexists; reflexivity. }
      destruct T2 as [c2 B1 B2' B3 | e2 x2 B1 B2' | a2 b2' c2 d2 x2 B1]; cbn [app] in *.
      * rewrite (scan_u_alone _ _ _ _ _ _ A1); [rewrite I; eexists; reflexivity|]. intros ? ? ? ? ? Q. injection Q as -> _. contradiction.
      * rewrite (scan_u_alone _ _ _ _ _ _ A1); [rewrite I; eexists; reflexivity|]. intros ? ? ? ? ? Q. injection Q as -> _. contradiction.
      * rewrite (scan_u_next _ _ _ _ _ _ _ _ _ _ _ A1 B1 Hx). destruct (is_low x2).
        -- destruct (IH b2 rest) as (s2 & I2); auto. { cbn [List.length] in L, Lb. lia. } rewrite I2. eexists; reflexivity.
        -- rewrite I. eexists; reflexivity.
Qed.

(** ** What is written *)
Lemma json_char_body : forall c, c < 1114112 -> body (json_char c).
Proof.
  assert (S : forall e x, e <> 117 -> unescape e = Some x -> body [92; e]).
  { intros e x A B. change [92; e] with ([92; e] ++ []). econstructor; [eapply tk_short; eauto | constructor]. }
  assert (U : forall n, n < 65536 -> body (u_escape n)).
  { intros n H. unfold u_escape. rewrite <- (app_nil_r [_; _; _; _; _; _]). econstructor; [apply tk_u, hex4_escape, H | constructor]. }
  intros c H. unfold json_char.
  destruct (N.eqb_spec c 34); [eapply S; [discriminate | reflexivity]|].
  destruct (N.eqb_spec c 92); [eapply S; [discriminate | reflexivity]|].
  destruct (N.eqb_spec c 10); [eapply S; [discriminate | reflexivity]|].
  destruct (N.eqb_spec c 13); [eapply S; [discriminate | reflexivity]|].
  destruct (N.eqb_spec c 9); [eapply S; [discriminate | reflexivity]|].
  destruct (N.eqb_spec c 12); [eapply S; [discriminate | reflexivity]|].
  destruct (N.eqb_spec c 8); [eapply S; [discriminate | reflexivity]|].
  destruct ((32 <=? c) && (c <=? 126)) eqn:P.
  { apply andb_true_iff in P as [P1 P2]. apply N.leb_le in P1. rewrite <- (app_nil_r [c]). econstructor; [apply tk_plain; auto | constructor]. }
  destruct (N.ltb_spec c 65536); [apply U; assumption|].
  apply body_app; apply U.
  - assert ((c - 65536) / 1024 mod 1024 < 1024) by (apply N.mod_lt; discriminate). lia.
  - assert ((c - 65536) mod 1024 < 1024) by (apply N.mod_lt; discriminate). lia.
Qed.

Lemma json_chars_body : forall s, Forall (fun c => c < 1114112) s -> body (flat_map json_char s).
Proof. induction 1 as [|c s H F IH]; [constructor|]. cbn [flat_map]. apply body_app; [apply json_char_body, H | exact IH]. Qed.

(** ** Reading back what is written *)
Lemma u_escape_cons : forall n t, u_escape n ++ t = 92 :: 117 :: hex (n / 4096) :: hex (n / 256 mod 16) :: hex (n / 16 mod 16) :: hex (n mod 16) :: t.
Proof. reflexivity. Qed.

Lemma u_escape_inv : forall n t a b c d t', n < 65536 -> u_escape n ++ t = 92 :: 117 :: a :: b :: c :: d :: t' -> hex4 a b c d = Some n.
Proof.
  intros n t a b c d t' H E. rewrite u_escape_cons in E. pose proof (hex4_escape n H) as X. revert E X.
  generalize (hex (n / 4096)) (hex (n / 256 mod 16)) (hex (n / 16 mod 16)) (hex (n mod 16)). intros h1 h2 h3 h4 E X.
  injection E as <- <- <- <- _. exact X.
Qed.

(** the first characters of what is written for a text, if it looks like a low surrogate *)
Lemma written_low : forall s rest a b c d t y, Forall (fun c => c < 1114112) s -> flat_map json_char s ++ 34 :: rest = 92 :: 117 :: a :: b :: c :: d :: t ->
  hex4 a b c d = Some y -> is_low y = true -> exists s', s = y :: s'.
Proof.
  intros s rest a b c d t y F E H L. destruct F as [|k s Fk F]; [discriminate|]. exists s. f_equal. cbn [flat_map] in E. rewrite <- app_assoc in E. unfold json_char in E.
  destruct (N.eqb_spec k 34); [discriminate|]. destruct (N.eqb_spec k 92); [discriminate|].
  destruct (N.eqb_spec k 10); [discriminate|]. destruct (N.eqb_spec k 13); [discriminate|].
  destruct (N.eqb_spec k 9); [discriminate|]. destruct (N.eqb_spec k 12); [discriminate|].
  destruct (N.eqb_spec k 8); [discriminate|].
  destruct ((32 <=? k) && (k <=? 126)) eqn:P. { cbn [app] in E. injection E as -> _. congruence. }
  destruct (N.ltb_spec k 65536) as [K | K].
  - apply u_escape_inv in E; [congruence | exact K].
  - rewrite <- app_assoc in E. assert (M : (k - 65536) / 1024 mod 1024 < 1024) by (apply N.mod_lt; discriminate).
    apply u_escape_inv in E; [|lia]. rewrite E in H. assert (H' : 55296 + (k - 65536) / 1024 mod 1024 = y) by congruence. subst y. unfold is_low in L. apply andb_true_iff in L as [L1 _]. apply N.leb_le in L1. lia.
Qed.

(** no high surrogate is followed by a low one *)
Fixpoint unpaired (s : pystr) : Prop :=
  match s with
  | x :: (y :: _) as t => ~ (is_high x = true /\ is_low y = true) /\ unpaired t
  | _ => True
  end.

Lemma app1 : forall (a : N) t, [a] ++ t = a :: t.
Proof. reflexivity. Qed.
Lemma app2 : forall (a b : N) t, [a; b] ++ t = a :: b :: t.
Proof. reflexivity. Qed.

Lemma scan_written : forall s rest, Forall (fun c => c < 1114112) s -> unpaired s -> scan_str (flat_map json_char s ++ 34 :: rest) = Ok (s, rest).
Proof.
  induction s as [|k s IH]; intros rest F P; [reflexivity|].
  inversion F as [|? ? Fk Fs]; subst. assert (Ps : unpaired s) by (destruct s; [exact I | apply P]).
  specialize (IH rest Fs Ps). change (flat_map json_char (k :: s)) with (json_char k ++ flat_map json_char s). rewrite <- app_assoc. unfold json_char at 1.
  destruct (N.eqb_spec k 34); [subst k; rewrite app2, (scan_short 34 34 _ ltac:(discriminate) eq_refl), IH; reflexivity|].
  destruct (N.eqb_spec k 92); [subst k; rewrite app2, (scan_short 92 92 _ ltac:(discriminate) eq_refl), IH; reflexivity|].
  destruct (N.eqb_spec k 10); [subst k; rewrite app2, (scan_short 110 10 _ ltac:(discriminate) eq_refl), IH; reflexivity|].
  destruct (N.eqb_spec k 13); [subst k; rewrite app2, (scan_short 114 13 _ ltac:(discriminate) eq_refl), IH; reflexivity|].
  destruct (N.eqb_spec k 9); [subst k; rewrite app2, (scan_short 116 9 _ ltac:(discriminate) eq_refl), IH; reflexivity|].
  destruct (N.eqb_spec k 12); [subst k; rewrite app2, (scan_short 102 12 _ ltac:(discriminate) eq_refl), IH; reflexivity|].
  destruct (N.eqb_spec k 8); [subst k; rewrite app2, (scan_short 98 8 _ ltac:(discriminate) eq_refl), IH; reflexivity|].
  destruct ((32 <=? k) && (k <=? 126)) eqn:Pr.
  { apply andb_true_iff in Pr as [P1 P2]. apply N.leb_le in P1. rewrite app1, scan_plain by assumption. rewrite IH. reflexivity. }
  destruct (N.ltb_spec k 65536) as [K | K].
  - rewrite u_escape_cons. pose proof (hex4_escape k K) as Hx. destruct (is_high k) eqn:Hk; [|rewrite (scan_u _ _ _ _ _ _ Hx Hk), IH; reflexivity].
    remember (flat_map json_char s ++ 34 :: rest) as t eqn:Et.
    assert (D : (exists a b c d t', t = 92 :: 117 :: a :: b :: c :: d :: t') \/ (forall a b c d t', t <> 92 :: 117 :: a :: b :: c :: d :: t')).
    { destruct t as [|y1 [|y2 [|y3 [|y4 [|y5 [|y6 t']]]]]]; try (right; intros; discriminate).
      destruct (N.eq_dec y1 92) as [->|]; [|right; intros; congruence]. destruct (N.eq_dec y2 117) as [->|]; [|right; intros; congruence].
      left. repeat eexists. }
    destruct D as [(a & b & c & d & t' & ->) | D]; [|rewrite (scan_u_alone _ _ _ _ _ _ Hx D), IH; reflexivity].
    destruct (hex4 a b c d) as [y|] eqn:Hy.
    + rewrite (scan_u_next _ _ _ _ _ _ _ _ _ _ _ Hx Hy Hk). destruct (is_low y) eqn:Ly; [|rewrite IH; reflexivity].
      destruct (written_low s rest _ _ _ _ _ _ Fs (eq_sym Et) Hy Ly) as (s' & ->). destruct P as [P _]. destruct P. auto.
    + exfalso. clear - IH Hy. cbn [scan_str] in IH. cbn in IH. rewrite Hy in IH. discriminate.
  - rewrite <- app_assoc, !u_escape_cons.
    assert (M1 : (k - 65536) / 1024 mod 1024 = (k - 65536) / 1024) by (apply N.mod_small, N.div_lt_upper_bound; [discriminate | lia]).
    assert (M1' : (k - 65536) / 1024 < 1024) by (apply N.div_lt_upper_bound; [discriminate | lia]).
    assert (M2 : (k - 65536) mod 1024 < 1024) by (apply N.mod_lt; discriminate).
    rewrite M1.
    assert (Q : k = 65536 + (k - 65536) / 1024 * 1024 + (k - 65536) mod 1024) by (pose proof (N.div_mod (k - 65536) 1024 ltac:(discriminate)); lia).
    revert Q M1' M2. generalize ((k - 65536) / 1024) ((k - 65536) mod 1024). intros q r Q M1' M2.
    assert (Hx : is_high (55296 + q) = true) by (unfold is_high; apply andb_true_iff; split; apply N.leb_le; lia).
    assert (Hy : is_low (56320 + r) = true) by (unfold is_low; apply andb_true_iff; split; apply N.leb_le; lia).
    rewrite (scan_u_next _ _ _ _ _ _ _ _ _ _ _ (hex4_escape (55296 + q) ltac:(lia)) (hex4_escape (56320 + r) ltac:(lia)) Hx), Hy, IH.
    cbn [rcons]. do 3 f_equal. unfold join_surrogates. lia.
Qed.
