(** * Proofs about name checks *)

From Coq Require Import List NArith ZArith Bool String Lia Permutation.
From Coq Require Import DecimalNat DecimalString.
From Verif Require Import PyBase PyFacts Regex RegexFacts Utf8 H5 Findings Nxdl Core Catalog ItemName AttributeCheck
  GroupChecks AppDef DefaultPlot Validate Trace CheckFacts Spec_Names RegexRead.
Import ListNotations.

(** ** Number text is injective *)
Lemma py_inj : forall a b, py a = py b -> a = b.
Proof.
  induction a as [|x a IH]; destruct b as [|y b]; simpl; intros H; try discriminate; auto.
  inversion H. f_equal; auto.
  rewrite <- (Ascii.ascii_N_embedding x), <- (Ascii.ascii_N_embedding y). congruence.
Qed.

Lemma to_uint_nonnil : forall n, Nat.to_uint n <> Decimal.Nil.
Proof.
  intros n H. assert (n = 0%nat). { rewrite <- (Unsigned.of_to n), H. reflexivity. }
  subst. discriminate.
Qed.

Lemma str_nat_inj : forall a b, str_nat a = str_nat b -> a = b.
Proof.
  intros a b H. unfold str_nat in H. apply py_inj in H.
  apply (f_equal NilZero.uint_of_string) in H.
  rewrite !NilZero.usu in H by apply to_uint_nonnil.
  inversion H. apply DecimalNat.Unsigned.to_uint_inj. auto.
Qed.

(** ** A cache key stands for one pattern *)
Lemma cache_key_fun : forall c k p q, cache_key c k p -> cache_key c k q -> p = q.
Proof.
  intros c k p q H1 H2. destruct H1 as [|p|l n p Hl Hn]; inversion H2; subst; auto;
    repeat match goal with
    | H : py _ ++ _ = py _ ++ _ |- _ => first [apply app_inv_head in H | discriminate H]
    | H : py _ ++ _ = _ |- _ => discriminate H
    | H : str_nat _ = str_nat _ |- _ => apply str_nat_inj in H; subst
    end; auto; congruence.
Qed.

Lemma cached_ok : forall c k p s s' r, cache_ok c s -> cache_key c k p ->
  cached_regexp k p s = (s', Ok r) -> re_compile p = Ok r /\ cache_ok c s'.
Proof.
  intros c k p s s' r HC Hk H.
  assert (HC' : cache_ok c s'). { destruct (logs_cached c (fun _ => True) k p Hk s) as [log [_ [_ [R _]]]]. rewrite H in R. auto. }
  split; auto. unfold cached_regexp in H. destruct (dget k (st_cache s)) as [r0|] eqn:E.
  - inversion H; subst. destruct (HC _ _ E) as [p' [Hp' Hr]]. rewrite (cache_key_fun _ _ _ _ Hk Hp'). auto.
  - destruct (re_compile p); inversion H; subst; auto.
Qed.

(** ** The pure meaning of first_match *)
Fixpoint re_accepts (uw : N -> bool) (branches : list re) (s : pystr) : Prop :=
  match branches with
  | [] => False
  | [r] => or_newline (lang uw r) s
  | r :: rest => (exists a b, s = a ++ b /\ lang uw r a) \/ re_accepts uw rest s
  end.
Lemma accepts_correct : forall uw bs s, re_matches uw bs s = true <-> re_accepts uw bs s.
Proof.
  induction bs as [|r bs IH]; intros s; simpl.
  - split; [discriminate | tauto].
  - destruct bs as [|r2 bs].
    + apply dollar_correct.
    + change (re_matches uw (r :: r2 :: bs) s) with (prefix uw r s || re_matches uw (r2 :: bs) s).
      rewrite orb_true_iff, prefix_correct, IH. reflexivity.
Qed.

Lemma compile_fun : forall uw p bs s, re_compile p = Ok bs -> (pattern_accepts uw p s <-> re_matches uw bs s = true).
Proof. exact compile_accepts. Qed.

Definition keys_legit (c : ctx) (pats : dict pystr) : Prop := Forall (fun kp => cache_key c (fst kp) (snd kp)) pats.

Lemma first_match_ok : forall c n pats s s' m, cache_ok c s -> keys_legit c pats ->
  first_match c (OVal (VStr n)) pats s = (s', Ok m) ->
  cache_ok c s' /\
  match m with
  | Some (k, p) => exists l1 l2, pats = l1 ++ (k, p) :: l2 /\ pattern_accepts (e_uw (c_env c)) p n
      /\ forall k' p', In (k', p') l1 -> ~ pattern_accepts (e_uw (c_env c)) p' n
  | None => forall k' p', In (k', p') pats -> ~ pattern_accepts (e_uw (c_env c)) p' n
  end.
Proof.
  induction pats as [|[k p] pats IH]; cbn [first_match]; intros s s' m HC HL H.
  - inv_ok. split; [auto | simpl; tauto].
  - inversion HL; subst. inv_ok. simpl in *.
    match goal with H1 : cached_regexp _ _ _ = (_, Ok ?r) |- _ => destruct (cached_ok _ _ _ _ _ _ HC H2 H1) as [Hr HC1]; rename r into bs end.
    inversion H1; subst. simpl in H4. inversion H4; subst. clear H4 H1.
    pose proof (compile_fun (e_uw (c_env c)) _ _ n Hr) as Hp.
    destruct (re_matches (e_uw (c_env c)) bs n) eqn:Em.
    + inv_ok. split; auto. exists [], pats. split; auto. split; [apply Hp; auto | simpl; tauto].
    + assert (Hnp : ~ pattern_accepts (e_uw (c_env c)) p n). { rewrite Hp. discriminate. }
      apply IH in H; auto. destruct H as [HC2 Hm]. split; auto. destruct m as [[k' p']|].
      * destruct Hm as [l1 [l2 [-> [Ha Hb]]]]. exists ((k, p) :: l1), l2. split; auto. split; auto.
        intros k'' p'' [Heq|Hin]; [inversion Heq; subst; auto | eauto].
      * intros k'' p'' [Heq|Hin]; [inversion Heq; subst; auto | eauto].
Qed.

(** ** The strict pattern *)
Definition strict_re : re :=
  Seq (Cls (CCor (CCrange 97 122) (CCor (CClit 95) CCnone)))
      (Seq (Star (Cls (CCor (CCrange 97 122) (CCor (CCrange 48 57) (CCor (CClit 95) CCnone))))) Eps).

Lemma strict_compiled : re_compile STRICT_PATTERN = Ok [strict_re].
Proof. vm_compute. reflexivity. Qed.

Lemma seq_cls_star : forall uw c1 c2 s,
  lang uw (Seq (Cls c1) (Seq (Star (Cls c2)) Eps)) s <->
  exists x t, s = x :: t /\ cmatch uw c1 x = true /\ Forall (fun y => cmatch uw c2 y = true) t.
Proof.
  intros. rewrite lang_seq. split.
  - intros [u [v [-> [H1 H2]]]]. apply lang_cls in H1 as [x [-> Hx]].
    apply lang_seq in H2 as [a [b [-> [H2 H3]]]]. apply lang_eps in H3. subst.
    apply star_cls in H2. exists x, (a ++ []). simpl. rewrite app_nil_r. auto.
  - intros [x [t [-> [H1 H2]]]]. exists [x], t. split; auto. split; [constructor; auto|].
    apply lang_seq. exists t, []. rewrite app_nil_r. split; auto. split; [apply star_cls; auto | constructor].
Qed.

Ltac cc := unfold lower, upper, digit, underscore in *; cbn [cmatch] in *; unfold is_word, ascii_word, ascii_lower, ascii_upper, ascii_digit in *;
  rewrite ?orb_false_r in *; repeat (rewrite orb_true_iff in * || rewrite andb_true_iff in * || rewrite N.leb_le in * || rewrite N.eqb_eq in * ).

Lemma strict_lang : forall uw s, lang uw strict_re s <-> strict_name s.
Proof.
  intros. unfold strict_re. rewrite seq_cls_star. unfold strict_name.
  split; intros [x [t [-> [H1 H2]]]]; exists x, t; (split; [auto|]); split.
  - cc. tauto.
  - eapply Forall_impl; [|exact H2]. intros y Hy. cc. tauto.
  - cc. tauto.
  - eapply Forall_impl; [|exact H2]. intros y Hy. cc. tauto.
Qed.

Lemma or_newline_iff : forall (P Q : pystr -> Prop) s, (forall t, P t <-> Q t) -> (or_newline P s <-> or_newline Q s).
Proof.
  intros P Q s H. unfold or_newline. rewrite H. split; (intros [H1|[t [H1 H2]]]; [auto | right; exists t]); rewrite ?H in *; auto.

Qed.

Lemma strict_accepts : forall uw s, pattern_accepts uw STRICT_PATTERN s <-> or_newline strict_name s.
Proof.
  intros. rewrite (compile_fun uw _ _ s strict_compiled), accepts_correct. simpl.
  apply or_newline_iff. apply strict_lang.
Qed.

(** ** The patterns tried for item names *)
Definition item_patterns (c : ctx) : list pystr :=
  match dget (py "validItemName") (c_patterns c) with Some l => l | None => [] end.

Definition add_relaxed (d : dict pystr) (p : pystr) : dict pystr := dset (py "relaxed pattern: " ++ p) p d.

Lemma fold_patterns_In : forall l d k p,
  In (k, p) (fold_left add_relaxed l d) ->
  In (k, p) d \/ (k = py "relaxed pattern: " ++ p /\ In p l).
Proof.
  induction l as [|q l IH]; cbn [fold_left]; intros d k p H; auto.
  apply IH in H as [H|[H1 H2]].
  - apply (In_aset str_eqb str_eqb_eq) in H as [[-> ->]|H]; auto. right. split; auto. left. auto.
  - right. split; auto. right. auto.
Qed.

Lemma In_dset_keep : forall V k (v : V) d k' v', k <> k' -> In (k', v') d -> In (k', v') (dset k v d).
Proof.
  unfold dset. induction d as [|[k0 v0] d IH]; simpl; intros k' v' Hne H; auto.
  destruct H as [H|H].
  - inversion H; subst. destruct (str_eqb k k') eqn:E; [apply str_eqb_eq in E; congruence | left; auto].
  - destruct (str_eqb k k0); right; auto.
Qed.
Lemma In_dset_same : forall V k (v : V) d, In (k, v) (dset k v d).
Proof.
  intros. apply dget_In. apply dget_dset_same.
Qed.

Lemma fold_patterns_complete : forall l d p, In p l \/ In (py "relaxed pattern: " ++ p, p) d ->
  In (py "relaxed pattern: " ++ p, p) (fold_left add_relaxed l d).
Proof.
  induction l as [|q l IH]; cbn [fold_left]; intros d p H; [destruct H as [[]|H]; auto|].
  apply IH. destruct (str_eqb_spec p q) as [->|Hne].
  - right. apply In_dset_same.
  - destruct H as [[->|H]|H]; [congruence | auto |]. right. apply In_dset_keep; auto.
    intros Heq. apply app_inv_head in Heq. congruence.
Qed.

Lemma fold_patterns_head : forall l k p d, (forall q, k <> py "relaxed pattern: " ++ q) ->
  exists d', fold_left add_relaxed l ((k, p) :: d) = (k, p) :: d'.
Proof.
  induction l as [|q l IH]; cbn [fold_left]; intros k p d H; [eauto|].
  unfold add_relaxed at 2, dset. cbn [aset]. destruct (str_eqb (py "relaxed pattern: " ++ q) k) eqn:E.
  - apply str_eqb_eq in E. symmetry in E. destruct (H _ E).
  - apply IH. auto.
Qed.

Lemma dset_keep : forall V k (v : V) d, dget k d = Some v -> dset k v d = d.
Proof.
  unfold dget, dset. induction d as [|[k0 v0] d IH]; cbn [aget aset]; intros H; [discriminate|].
  destruct (str_eqb k k0) eqn:E.
  - apply str_eqb_eq in E. congruence.
  - f_equal. auto.
Qed.
Lemma dset_append : forall V k (v : V) d, dget k d = None -> dset k v d = d ++ [(k, v)].
Proof.
  unfold dget, dset. induction d as [|[k0 v0] d IH]; cbn [aget aset]; intros H; [reflexivity|].
  destruct (str_eqb k k0) eqn:E; [discriminate|]. simpl. f_equal. auto.
Qed.

(** the relaxed patterns are tried in the order of the list *)
Lemma fold_patterns_order : forall (l : list pystr) (d : dict pystr), (forall (q v : pystr), In (py "relaxed pattern: " ++ q, v) d -> v = q) ->
  exists d', fold_left add_relaxed l d = d ++ d' /\ forall l1 k p l2, d' = l1 ++ (k, p) :: l2 ->
    exists a b, l = a ++ p :: b /\ forall q, In q a -> In (py "relaxed pattern: " ++ q, q) (d ++ l1).
Proof.
  induction l as [|q l IH]; cbn [fold_left]; intros d HD.
  - exists []. rewrite app_nil_r. split; auto. intros l1 k p l2 E. destruct l1; discriminate.
  - change (add_relaxed d q) with (dset (py "relaxed pattern: " ++ q) q d). destruct (dget (py "relaxed pattern: " ++ q) d) as [v|] eqn:E.
    + assert (v = q). { apply HD. apply dget_In. auto. } subst v. rewrite (dset_keep pystr _ _ _ E).
      destruct (IH d HD) as [d' [E1 E2]]. exists d'. split; auto. intros l1 k p l2 F. destruct (E2 _ _ _ _ F) as [a [b [G1 G2]]].
      exists (q :: a), b. split; [simpl; congruence|]. intros r [<-|Hr]; auto. apply in_or_app. left. apply dget_In. auto.
    + rewrite (dset_append pystr _ _ _ E). destruct (IH (d ++ [(py "relaxed pattern: " ++ q, q)])) as [d' [E1 E2]].
      { intros r v Hr. apply in_app_or in Hr as [Hr|[Hr|[]]]; auto. injection Hr as X Y. congruence. }
      exists ((py "relaxed pattern: " ++ q, q) :: d'). split; [refine (eq_trans E1 _); rewrite <- app_assoc; reflexivity|].
      intros l1 k p l2 F. destruct l1 as [|x l1]; simpl in F; injection F as F1 F2.
      * exists [], l. split; [simpl; congruence|]. intros r [].
      * destruct (E2 _ _ _ _ F2) as [a [b [G1 G2]]]. exists (q :: a), b. split; [simpl; congruence|].
        subst x. intros r [<-|Hr].
        -- apply in_or_app. right. left. reflexivity.
        -- apply G2 in Hr. rewrite <- app_assoc in Hr. exact Hr.
Qed.

Definition STRICT_KEY : pystr := py "strict pattern: " ++ STRICT_PATTERN.

Lemma valid_patterns_shape : forall c, exists d,
  getValidItemNamePatterns c = (STRICT_KEY, STRICT_PATTERN) :: d
  /\ forall k p, In (k, p) d -> k = py "relaxed pattern: " ++ p /\ In p (item_patterns c).
Proof.
  intros. unfold getValidItemNamePatterns, item_patterns.
  destruct (dget (py "validItemName") (c_patterns c)) as [l|].
  - destruct (fold_patterns_head l STRICT_KEY STRICT_PATTERN []) as [d Hd]. { intros q H. discriminate. }
    exists d. split; [exact Hd|]. intros k p Hin.
    assert (H : In (k, p) (fold_left add_relaxed l [(STRICT_KEY, STRICT_PATTERN)])).
    { refine (eq_ind_r (fun z => In (k, p) z) _ Hd). right. auto. }
    pose proof (fold_patterns_In _ _ _ _ H) as [[Heq|[]]|H2]; auto.
    exfalso. inversion Heq; subst k p.
    (* the strict key occurs once *)
    assert (HN : NoDup (map fst (fold_left add_relaxed l [(STRICT_KEY, STRICT_PATTERN)]))).
    { clear. assert (G : forall l d, NoDup (map fst d) -> NoDup (map fst (fold_left add_relaxed l d))).
      { induction l0 as [|q l0 IH]; cbn [fold_left]; auto. intros. apply IH. apply dset_NoDup. auto. }
      apply G. simpl. constructor; [tauto|constructor]. }
    assert (HN' : NoDup (map fst ((STRICT_KEY, STRICT_PATTERN) :: d))) by (refine (eq_ind _ (fun z => NoDup (map fst z)) HN _ Hd)).
    simpl in HN'. inversion HN' as [|? ? Hno _]; subst. apply Hno. apply in_map_iff. exists (STRICT_KEY, STRICT_PATTERN). auto.
  - exists []. split; [reflexivity|]. simpl. tauto.
Qed.

Lemma valid_patterns_complete : forall c p, In p (item_patterns c) ->
  In (py "relaxed pattern: " ++ p, p) (getValidItemNamePatterns c).
Proof.
  intros c p H. unfold getValidItemNamePatterns, item_patterns in *.
  destruct (dget (py "validItemName") (c_patterns c)); [|destruct H]. apply fold_patterns_complete. auto.
Qed.

Lemma valid_patterns_order : forall c d, getValidItemNamePatterns c = (STRICT_KEY, STRICT_PATTERN) :: d ->
  forall l1 k p l2, d = l1 ++ (k, p) :: l2 ->
  exists a b, item_patterns c = a ++ p :: b /\ forall q, In q a -> In (py "relaxed pattern: " ++ q, q) l1.
Proof.
  intros c d Hd l1 k p l2 E. unfold getValidItemNamePatterns, item_patterns in *.
  destruct (dget (py "validItemName") (c_patterns c)) as [l|].
  - destruct (fold_patterns_order l [(STRICT_KEY, STRICT_PATTERN)]) as [d' [F1 F2]].
    { intros q v [X|[]]. discriminate X. }
    assert (d' = d).
    { assert (X : (STRICT_KEY, STRICT_PATTERN) :: d = [(STRICT_KEY, STRICT_PATTERN)] ++ d') by (refine (eq_trans (eq_sym Hd) F1)).
      injection X as X. auto. }
    subst d'. destruct (F2 _ _ _ _ E) as [a [b [G1 G2]]]. exists a, b. split; auto. intros q Hq. destruct (G2 q Hq) as [X|X]; auto.
    discriminate X.
  - assert (X : d = []) by (injection Hd as X; auto). subst d. destruct l1; discriminate.
Qed.

(** verdict on a name, as a match key *)
Definition key_verdict (c : ctx) (n : pystr) (k : option pystr) : Prop :=
  (or_newline strict_name n /\ k = Some STRICT_KEY)
  \/ (~ or_newline strict_name n /\ exists p, k = Some (py "relaxed pattern: " ++ p) /\ first_accepting (e_uw (c_env c)) (item_patterns c) n p)
  \/ (~ or_newline strict_name n /\ ~ relaxed_name (e_uw (c_env c)) (item_patterns c) n /\ k = None).

Lemma first_relaxed : forall uw l n p, first_accepting uw l n p -> relaxed_name uw l n.
Proof. intros uw l n p [a [b [-> [H _]]]]. exists p. split; auto. apply in_or_app. right. left. auto. Qed.

Lemma verdict_comment : forall c n k otherwise, key_verdict c n k ->
  name_comment (e_uw (c_env c)) (item_patterns c) otherwise n (match k with Some k => k | None => otherwise end).
Proof.
  intros c n k o [[Hs ->]|[[Hs [p [-> Hp]]]|[Hs [Hr ->]]]].
  - apply nc_strict. auto.
  - apply nc_relaxed; auto.
  - apply nc_neither; auto.
Qed.

Lemma match_key_ok : forall c n s s' k, cache_ok c s -> match_key_text c n s = (s', Ok k) ->
  cache_ok c s' /\ key_verdict c n k.
Proof.
  intros c n s s' k HC H. unfold match_key_text, validItemName_match_key in H. inv_ok.
  destruct (first_match_ok _ _ _ _ _ _ HC (valid_patterns_keys c) H0) as [HC1 Hm]. split; auto.
  destruct (valid_patterns_shape c) as [d [Hd Hin]].
  assert (Hs : pattern_accepts (e_uw (c_env c)) STRICT_PATTERN n <-> or_newline strict_name n) by apply strict_accepts.
  destruct x as [[k p]|]; simpl.
  - destruct Hm as [l1 [l2 [El [Ha Hb]]]]. rewrite Hd in El. destruct l1 as [|[k1 p1] l1]; simpl in El; inversion El; subst.
    + left. split; auto. apply Hs. auto.
    + right. left. split.
      * rewrite <- Hs. apply (Hb STRICT_KEY). left. auto.
      * destruct (Hin k p) as [-> Hp]. { apply in_or_app. right. left. auto. }
        exists p. split; auto. destruct (valid_patterns_order c _ Hd _ _ _ _ eq_refl) as [a [b [G1 G2]]]. exists a, b. split; auto. split; auto.
        apply Forall_forall. intros q Hq. apply (Hb (py "relaxed pattern: " ++ q)). right. auto.
  - right. right. split; [|split; auto].
    + rewrite <- Hs. apply (Hm STRICT_KEY). rewrite Hd. left. auto.
    + intros [p [Hp Ha]]. apply (Hm _ _ (valid_patterns_complete c p Hp) Ha).
Qed.
