(** * The cache of compiled patterns is transparent *)

From Coq Require Import List NArith ZArith Bool String Lia.
From Verif Require Import PyBase PyFacts Regex Utf8 H5 Findings Nxdl Core Catalog ItemName AttributeCheck
  GroupChecks AppDef DefaultPlot Validate Trace CheckFacts CatalogFacts NameFacts Spec_Cache.
Import ListNotations.

(** the loop without a cache *)
Fixpoint plain_match (c : ctx) (o : hobj) (pats : dict pystr) : res (option (pystr * pystr)) :=
  match pats with
  | [] => Ok None
  | (k, p) :: rest =>
      dor r <- re_compile p ;
      dor s <- decode_obj (c_env c) o ;
      dor m <- match_value (c_env c) r s ;
      if m then Ok (Some (k, p)) else plain_match c o rest
  end.

Lemma first_match_plain : forall c o pats s, cache_ok c s -> keys_legit c pats ->
  snd (first_match c o pats s) = plain_match c o pats.
Proof.
  induction pats as [|[k p] pats IH]; intros s HC HL; cbn [first_match plain_match]; auto.
  inversion HL; subst. simpl in H1.
  assert (HC1 : cache_ok c (fst (cached_regexp k p s))).
  { destruct (logs_cached c (fun _ => True) k p H1 s) as [log [_ [_ [R _]]]]. auto. }
  assert (HR : snd (cached_regexp k p s) = re_compile p).
  { unfold cached_regexp. destruct (dget k (st_cache s)) as [r|] eqn:E; simpl.
    - destruct (HC _ _ E) as [q [Hq Hr]]. rewrite (cache_key_fun _ _ _ _ H1 Hq). auto.
    - destruct (re_compile p); reflexivity. }
  unfold bind at 1. destruct (cached_regexp k p s) as [s1 r1]. simpl in HC1, HR. subst r1.
  destruct (re_compile p) as [r|e]; cbn [rbind]; auto.
  unfold bind, lift. destruct (decode_obj (c_env c) o) as [o'|e]; cbn [rbind]; auto.
  destruct (match_value (c_env c) r o') as [[]|e]; cbn [rbind]; auto.
Qed.

Lemma logs_cache : forall c P A (m : M A) s, logs c P m -> cache_ok c s -> cache_ok c (fst (m s)).
Proof. intros c P A m s H HC. destruct (H s) as [log [_ [_ [R _]]]]. auto. Qed.

Lemma history_ok : forall c s, history c s -> cache_ok c s.
Proof.
  induction 1.
  - intros k r H. discriminate.
  - destruct (build_address_catalog c (fresh_state cl)) as [s r] eqn:E.
    destruct (build_spec _ _ _ _ E) as [_ [[_ [_ [H _]]] _]]. intros k r' Hk. simpl in Hk. rewrite H in Hk. discriminate.
  - eapply (logs_cache c (fun _ => True)); auto. apply logs_match_key.
  - eapply logs_cache; auto. apply check_item_logs.
  - eapply logs_cache; auto. apply check_group_logs.
  - eapply logs_cache; auto. apply check_definition_logs.
  - eapply logs_cache; auto. apply default_plot_verify_logs.
Qed.

Lemma name_answer : forall c s o, history c s ->
  snd (validItemName_match_key c o s) = rmap (option_map fst) (plain_match c o (getValidItemNamePatterns c)).
Proof.
  intros c s o H. apply history_ok in H.
  pose proof (first_match_plain c o (getValidItemNamePatterns c) s H (valid_patterns_keys c)) as E.
  unfold validItemName_match_key, bind. destruct (first_match c o _ s) as [s1 [m|e]]; simpl in E; rewrite <- E; reflexivity.
Qed.

Lemma name_answer_history : forall c s cl o, history c s ->
  snd (validItemName_match_key c o s) = snd (validItemName_match_key c o (fresh_state cl)).
Proof. intros. rewrite !name_answer; auto. apply hi_start. Qed.

Lemma class_answer_history : forall c s cl o, history c s ->
  snd (class_match c o s) = snd (class_match c o (fresh_state cl)).
Proof.
  intros c s cl o H. unfold class_match, bind, lift, dgetitem.
  destruct (dget (py "validNXClassName") (c_patterns c)) as [l|] eqn:E; auto.
  assert (HL : keys_legit c (enum_patterns 0 l)). { eapply enum_patterns_keys; eauto. }
  rewrite !first_match_plain; auto; apply history_ok; auto. apply hi_start.
Qed.


Lemma first_match_keep : forall c o pats s, st_items (fst (first_match c o pats s)) = st_items s /\ st_find (fst (first_match c o pats s)) = st_find s.
Proof.
  induction pats as [|[k p] pats IH]; intros s; cbn [first_match]; auto.
  assert (HK : st_items (fst (cached_regexp k p s)) = st_items s /\ st_find (fst (cached_regexp k p s)) = st_find s).
  { unfold cached_regexp. destruct (dget k (st_cache s)); auto. destruct (re_compile p); auto. }
  unfold bind, lift. destruct (cached_regexp k p s) as [s1 [r|e]]; simpl in HK; auto.
  destruct (decode_obj (c_env c) o) as [o'|e]; auto.
  destruct (match_value (c_env c) r o') as [[]|e]; auto. destruct (IH s1) as [A B]. cbv beta iota. split; [rewrite A | rewrite B]; apply HK.
Qed.

Section Same.
  Variable i : nat.
  Lemma skipn_self : forall A (l : list A), skipn (List.length l) l = [].
  Proof. induction l; simpl; auto. Qed.
  Lemma skipn_app_self : forall A (l x : list A), skipn (List.length l) (l ++ x) = x.
  Proof. induction l; simpl; auto. Qed.

  Lemma outcome_record : forall k st cm s s', same_here i s s' -> outcome (record_finding i k st cm) s = outcome (record_finding i k st cm) s'.
  Proof.
    intros k st cm s s' [H _]. unfold outcome, record_finding, bind, item. rewrite H.
    destruct (nth_error (st_items s') i); simpl; rewrite ?skipn_app_self, ?skipn_self; auto.
  Qed.
  Lemma outcome_const : forall A (m : M A) s s' r, m s = (s, r) -> m s' = (s', r) -> outcome m s = outcome m s'.
  Proof. intros A m s s' r H1 H2. unfold outcome. rewrite H1, H2, !skipn_self. auto. Qed.

  (** a computation that answers the same and changes neither items nor findings,
      followed by one with equal outcomes *)
  Lemma outcome_bind : forall A B (m : M A) (f : A -> M B) s s',
    snd (m s) = snd (m s') -> st_items (fst (m s)) = st_items s -> st_find (fst (m s)) = st_find s ->
    st_items (fst (m s')) = st_items s' -> st_find (fst (m s')) = st_find s' -> same_here i s s' ->
    (forall a x x', same_here i x x' -> outcome (f a) x = outcome (f a) x') ->
    outcome (bind m f) s = outcome (bind m f) s'.
  Proof.
    intros A B m f s s' H1 H2 H3 H4 H5 HS Hf. unfold outcome, bind.
    destruct (m s) as [x r], (m s') as [x' r']. simpl in *. subst r'. destruct r as [a|e].
    - assert (HX : same_here i x x'). { unfold same_here in *. rewrite H2, H4. auto. }
      specialize (Hf a x x' HX). unfold outcome in Hf. rewrite H3, H5 in Hf. exact Hf.
    - rewrite H3, H5, !skipn_self. auto.
  Qed.

  Lemma outcome_item : forall B (f : vitem -> M B) s s', same_here i s s' ->
    (forall it, nth_error (st_items s) i = Some it -> outcome (f it) s = outcome (f it) s') ->
    outcome (bind (item i) f) s = outcome (bind (item i) f) s'.
  Proof.
    intros B f s s' HS Hf. destruct (nth_error (st_items s) i) as [it|] eqn:E.
    - specialize (Hf it eq_refl). unfold outcome, bind, item in *. rewrite <- (proj1 HS), E. auto.
    - unfold outcome, bind, item. rewrite <- (proj1 HS), E, !skipn_self. auto.
  Qed.
End Same.

Lemma outcome_match_key : forall c i o f s s', history c s -> history c s' -> same_here i s s' ->
  (forall a x x', same_here i x x' -> outcome (f a) x = @outcome unit (f a) x') ->
  outcome (bind (validItemName_match_key c o) f) s = outcome (bind (validItemName_match_key c o) f) s'.
Proof.
  intros c i o f s s' H1 H2 HS Hf.
  assert (K : forall s, st_items (fst (validItemName_match_key c o s)) = st_items s /\ st_find (fst (validItemName_match_key c o s)) = st_find s).
  { intros z. unfold validItemName_match_key, bind. pose proof (first_match_keep c o (getValidItemNamePatterns c) z) as K.
    destruct (first_match c o _ z) as [z' [m|e]]; auto. }
  apply (outcome_bind i); try apply K; auto. rewrite !name_answer; auto.
Qed.

Lemma name_check_history : forall c i s s', history c s -> history c s' -> same_here i s s' ->
  outcome (item_name_verify c i) s = outcome (item_name_verify c i) s'.
Proof.
  intros c i s s' H1 H2 HS. unfold item_name_verify.
  apply (outcome_item i); auto. intros it Hit.
  destruct (it_parent it) as [p|] eqn:Ep; [|apply (outcome_const _ _ _ _ (Ok tt)); auto].
  destruct (name_done it); [apply (outcome_const _ _ _ _ (Ok tt)); auto|].
  assert (MK : forall o f, (forall a x x', same_here i x x' -> outcome (f a) x = @outcome unit (f a) x') ->
    outcome (bind (validItemName_match_key c o) f) s = outcome (bind (validItemName_match_key c o) f) s').
  { intros. apply (outcome_match_key c i); auto. }
  assert (NK : forall n f, (forall a x x', same_here i x x' -> outcome (f a) x = @outcome unit (f a) x') ->
    outcome (bind (match_key_name c n) f) s = outcome (bind (match_key_name c n) f) s').
  { intros n f Hf. unfold match_key_name, match_key_text. destruct n; apply MK; auto. }
  destruct (match it_addr it with Some a => endswith a (py "@NX_class") | None => false end).
  { unfold handle_NX_class. apply (outcome_item i); auto. intros it2 Hit2.
    unfold dgetitem. destruct (dget (py "validNXClassName") (c_patterns c)) as [l|] eqn:El.
    - unfold bind at 1 3, lift.
      change (outcome (bind (first_match c (it_obj it2) (enum_patterns 0 l))
        (fun m => match m with
                  | Some (k, p0) => record_finding i TEST_NAME OK (py "pattern: " ++ p0)
                  | None => match rev l with p0 :: _ => record_finding i TEST_NAME ERROR (py "pattern: " ++ p0) | [] => raise UnboundLocalError end
                  end)) s =
        outcome (bind (first_match c (it_obj it2) (enum_patterns 0 l))
        (fun m => match m with
                  | Some (k, p0) => record_finding i TEST_NAME OK (py "pattern: " ++ p0)
                  | None => match rev l with p0 :: _ => record_finding i TEST_NAME ERROR (py "pattern: " ++ p0) | [] => raise UnboundLocalError end
                  end)) s').
      apply (outcome_bind i); auto; try apply first_match_keep.
      + assert (HL : keys_legit c (enum_patterns 0 l)). { eapply enum_patterns_keys; eauto. }
        rewrite !first_match_plain; auto; apply history_ok; auto.
      + intros [[k p0]|] x x' Hx; [apply outcome_record; auto|].
        destruct (rev l); [apply (outcome_const _ _ _ _ (Exn UnboundLocalError)); auto | apply outcome_record; auto].
    - apply (outcome_const _ _ _ _ (Exn KeyError)); auto. }
  destruct (has_char ch_at (it_cp it)).
  { pose proof (proj2 HS it p Hit Ep) as Hp.
    unfold outcome, bind, item, lift. rewrite <- Hp. destruct (nth_error (st_items s) p) as [pit|]; [|rewrite !skipn_self; auto].
    destruct (isNeXusLinkTarget c pit) as [[]|e]; [| |rewrite !skipn_self; auto].
    - simpl. rewrite !skipn_self. auto.
    - change (outcome (handle_any_attribute c i) s = outcome (handle_any_attribute c i) s').
      unfold handle_any_attribute. apply (outcome_item i); auto. intros it2 Hit2. apply NK.
      intros a x x' Hx. apply outcome_record; auto. }
  destruct (is_named_object c (it_obj it)) as [b|e]; [|apply (outcome_const _ _ _ _ (Exn e)); auto].
  change (outcome (if b then handle_groups_and_fields c i
        else if str_eqb (it_cp it) NON_NEXUS then ret tt else record_finding i TEST_NAME TODO (py "not handled yet")) s =
     outcome (if b then handle_groups_and_fields c i
        else if str_eqb (it_cp it) NON_NEXUS then ret tt else record_finding i TEST_NAME TODO (py "not handled yet")) s').
  destruct b.
  - unfold handle_groups_and_fields. apply (outcome_item i); auto. intros it2 Hit2. apply NK.
    intros a x x' Hx. destruct (contains_sub (it_cp it2) (py "NXcollection")); [apply outcome_record; auto|].
    destruct a; [|apply outcome_record; auto]. destruct (startswith p0 (py "strict")); apply outcome_record; auto.
  - destruct (str_eqb (it_cp it) NON_NEXUS); [apply (outcome_const _ _ _ _ (Ok tt)); auto | apply outcome_record; auto].
Qed.
