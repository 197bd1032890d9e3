(** * Checks of attribute names and of @NX_class values in a completed validation *)

From Coq Require Import List NArith ZArith Bool String Lia Permutation.
From Verif Require Import PyBase PyFacts Regex RegexFacts Utf8 H5 Findings Nxdl Core Catalog ItemName AttributeCheck
  GroupChecks AppDef DefaultPlot Validate Trace CheckFacts CatalogFacts Spec_Names Spec_Run NameFacts RunFacts NameRun.
Import ListNotations.

(** ** first_match on values *)
Lemma first_match_decoded : forall c v n pats s, decode_byte_string (c_env c) v = Ok (VStr n) ->
  first_match c (OVal v) pats s = first_match c (OVal (VStr n)) pats s.
Proof.
  intros c v n pats s Hd. revert s. induction pats as [|[k p] pats IH]; intros s; cbn [first_match]; auto.
  unfold bind at 1. unfold bind at 3. destruct (cached_regexp k p s) as [s1 [r|e]]; auto.
  unfold bind, lift. simpl. rewrite Hd. simpl.
  destruct (re_matches (e_uw (c_env c)) r n); auto.
Qed.

Lemma first_match_text : forall c v pats s s' m, pats <> [] -> first_match c (OVal v) pats s = (s', Ok m) ->
  exists n, decode_byte_string (c_env c) v = Ok (VStr n).
Proof.
  intros c v [|[k p] pats] s s' m Hne H; [congruence|]. cbn [first_match] in H.
  apply bind_ok in H as [r [s1 [_ H]]]. apply bind_ok in H as [o [s2 [H1 H]]]. apply lift_ok in H1 as [-> H1].
  apply bind_ok in H as [b [s3 [H2 _]]]. apply lift_ok in H2 as [-> H2]. simpl in H1.
  destruct (decode_byte_string (c_env c) v) as [d|] eqn:E; [|discriminate]. simpl in H1. inversion H1; subst.
  destruct d; simpl in H2; try discriminate. eauto.
Qed.

Lemma enum_In : forall l i k p, In (k, p) (enum_patterns i l) -> In p l.
Proof.
  induction l as [|q l IH]; cbn [enum_patterns]; intros i k p H; [destruct H|].
  destruct H as [H|H]; [inversion H; subst; left; auto | right; eauto].
Qed.
Lemma enum_complete : forall l i p, In p l -> exists k, In (k, p) (enum_patterns i l).
Proof.
  induction l as [|q l IH]; intros i p H; [destruct H|]. cbn [enum_patterns].
  destruct H as [->|H]; [eexists; left; reflexivity|]. destruct (IH (S i) p H) as [k Hk]. exists k. right. auto.
Qed.


Lemma enum_snd : forall l i, map snd (enum_patterns i l) = l.
Proof. induction l as [|q l IH]; cbn [enum_patterns map snd]; intros i; [|rewrite IH]; reflexivity. Qed.

Lemma handle_NX_class_ok : forall c i s s' u it v, cache_ok c s -> nth_error (st_items s) i = Some it -> it_obj it = OVal v ->
  handle_NX_class c i s = (s', Ok u) ->
  exists l n sm st cm, dget (py "validNXClassName") (c_patterns c) = Some l /\
    decode_byte_string (c_env c) v = Ok (VStr n) /\
    record_finding i TEST_NAME st cm sm = (s', Ok tt) /\ same_but_cache s sm /\
    ((st = OK /\ relaxed_name (e_uw (c_env c)) l n) \/ (st = ERROR /\ ~ relaxed_name (e_uw (c_env c)) l n))
    /\ class_comment (e_uw (c_env c)) l n cm.
Proof.
  intros c i s s' u it v HC Hi Ho H. destruct u. unfold handle_NX_class in H. inv_ok.
  rewrite Hi in H0. inversion H0; subst x. rewrite Ho in *.
  unfold dgetitem in H1. destruct (dget (py "validNXClassName") (c_patterns c)) as [l|] eqn:El; [|discriminate].
  inversion H1; subst x1; clear H1.
  assert (Hne : l <> []).
  { intros ->. cbn [enum_patterns first_match] in H2. inv_ok. simpl in H. inv_ok. }
  assert (Hn : exists n, decode_byte_string (c_env c) v = Ok (VStr n)).
  { eapply first_match_text; [|exact H2]. destruct l; [congruence|discriminate]. }
  destruct Hn as [n Hn]. pose proof (first_match_same _ _ _ _ _ _ H2) as HS.
  rewrite (first_match_decoded _ _ _ _ _ Hn) in H2.
  assert (HL : keys_legit c (enum_patterns 0 l)). { eapply enum_patterns_keys; eauto. }
  destruct (first_match_ok _ _ _ _ _ _ HC HL H2) as [HC1 Hm]. clear H2.
  match type of H with (match ?m with _ => _ end) _ = _ => destruct m as [[k p]|] end.
  - destruct Hm as [a [b [E [Ha Hb]]]].
    assert (FA : first_accepting (e_uw (c_env c)) l n p).
    { exists (map snd a), (map snd b). split; [|split; auto].
      - rewrite <- (enum_snd l 0), E, map_app. reflexivity.
      - apply Forall_forall. intros q Hq. apply in_map_iff in Hq as [[k' q'] [<- Hq]]. eauto. }
    exists l, n. do 3 eexists. split; auto. split; auto. split; [exact H|]. split; auto. split; [left; split; auto; eapply first_relaxed; eauto|].
    apply cc_accepted. auto.
  - destruct (rev l) as [|q r] eqn:Er.
    { apply (f_equal (@rev _)) in Er. rewrite rev_involutive in Er. simpl in Er. congruence. }
    assert (NR : ~ relaxed_name (e_uw (c_env c)) l n).
    { intros [p [Hp Ha]]. destruct (enum_complete l 0 p Hp) as [k Hk]. exact (Hm _ _ Hk Ha). }
    exists l, n. do 3 eexists. split; auto. split; auto. split; [exact H|]. split; auto. split; auto.
    apply (cc_refused _ _ _ (rev r)); auto. apply (f_equal (@rev _)) in Er. rewrite rev_involutive in Er. exact Er.
Qed.

(** ** Attribute items *)
Lemma attribute_origin : forall c cl s1 s2 s3 s4 v' l1 l2 l3 l4, run_ok c cl s1 s2 s3 s4 (v_st v') l1 l2 l3 l4 ->
  forall i it x, nth_error (st_items s1) i = Some it -> it_obj it = OVal x ->
  exists p pit h k, nth_error (st_items s1) p = Some pit /\ it_obj pit = ONode h /\ In (k, x) (attrs_of (c_world c) h)
    /\ it = attr_item p pit x (Some k) /\ it_addr pit = Some (h_name h).
Proof.
  intros c cl s1 s2 s3 s4 v' l1 l2 l3 l4 R i it x Hi Ho.
  pose proof (ro_inv _ _ _ _ _ _ _ _ _ _ _ R) as HI.
  assert (NA : forall p pit h, nth_error (st_items s1) p = Some pit -> it_obj pit = ONode h -> it_addr pit = Some (h_name h)).
  { intros p pit h Hp Hpo. destruct (ci_origin _ _ HI _ _ Hp) as [O1 O2 O3|q qit hp h' name O1 O2 O3 O4 O5 O6|q qit h' k v0 O1 O2 O3 O4 O5].
    - apply node_item_spec in O3 as [N1 [N2 _]]. rewrite N1 in Hpo. inversion Hpo; subst. auto.
    - apply node_item_spec in O6 as [N1 [N2 _]]. rewrite N1 in Hpo. inversion Hpo; subst. auto.
    - subst pit. destruct (attr_item_spec q qit v0 (Some k)) as [A _]. congruence. }
  destruct (ci_origin _ _ HI _ _ Hi) as [O1 O2 O3|q qit hp h' name O1 O2 O3 O4 O5 O6|q qit h' k v0 O1 O2 O3 O4 O5].
  - apply node_item_spec in O3 as [N1 _]. congruence.
  - apply node_item_spec in O6 as [N1 _]. congruence.
  - subst it. destruct (attr_item_spec q qit v0 (Some k)) as [A _]. rewrite A in Ho. inversion Ho; subst.
    exists q, qit, h', k. split; auto. split; auto. split; auto. split; eauto.
Qed.

Lemma handle_any_ok : forall c i s s' u it n, cache_ok c s -> nth_error (st_items s) i = Some it -> it_name it = Some n ->
  handle_any_attribute c i s = (s', Ok u) ->
  exists sm st cm, record_finding i TEST_NAME st cm sm = (s', Ok tt) /\ same_but_cache s sm /\
   ((st = OK /\ (or_newline strict_name n \/ relaxed_name (e_uw (c_env c)) (item_patterns c) n)) \/
    (st = ERROR /\ ~ or_newline strict_name n /\ ~ relaxed_name (e_uw (c_env c)) (item_patterns c) n))
   /\ name_comment (e_uw (c_env c)) (item_patterns c) (py "no matching pattern found") n cm.
Proof.
  intros c i s s' u it n HC Hi Hn H. destruct u. unfold handle_any_attribute in H. inv_ok.
  rewrite Hi in H0. inversion H0; subst x. rewrite Hn in *. cbn [match_key_name] in *.
  match goal with H : match_key_text _ _ _ = _ |- _ => pose proof (match_key_same _ _ _ _ _ H) as HS; apply match_key_ok in H as [HC1 HK]; [|auto] end.
  do 3 eexists. split; [exact H|]. split; auto. split; [|apply (verdict_comment _ _ _ (py "no matching pattern found") HK)].
  destruct HK as [[Hs ->]|[[Hs [p [-> Hp]]]|[Hs [Hr ->]]]]; simpl.
  - left. auto.
  - left. split; auto. right. eapply first_relaxed; eauto.
  - right. auto.
Qed.

Lemma attribute_name_shows : forall u w v fname v', validate u w v fname = (v', Ok tt) ->
  forall i it x, listed v' i it -> it_obj it = OVal x -> it_addr it <> None ->
  exists p pit h k, listed v' p pit /\ it_parent it = Some p /\ it_obj pit = ONode h /\ In (k, x) (attrs_of w h)
    /\ it_name it = Some k /\ it_addr it = Some (h_name h ++ ch_at :: k) /\
    if endswith (h_name h ++ ch_at :: k) (py "@NX_class")
    then exists l n st cm, class_patterns u = Some l /\ decode_byte_string (u_env u) x = Ok (VStr n)
      /\ shows v' i it (mkF (it_addr it) TEST_NAME st cm)
      /\ ((st = OK /\ relaxed_name (e_uw (u_env u)) l n) \/ (st = ERROR /\ ~ relaxed_name (e_uw (u_env u)) l n))
      /\ class_comment (e_uw (u_env u)) l n cm
    else (linked_elsewhere (u_env u) (attrs_of w h) (h_name h) /\ dget TEST_NAME (it_vals it) = None
          /\ (own_address v' i -> findings_for v' (it_addr it) TEST_NAME = []))
      \/ (~ linked_elsewhere (u_env u) (attrs_of w h) (h_name h) /\ exists st cm,
          shows v' i it (mkF (it_addr it) TEST_NAME st cm)
          /\ ((st = OK /\ (or_newline strict_name k \/ relaxed_name (e_uw (u_env u)) (ctx_patterns u) k)) \/
              (st = ERROR /\ ~ or_newline strict_name k /\ ~ relaxed_name (e_uw (u_env u)) (ctx_patterns u) k))
          /\ name_comment (e_uw (u_env u)) (ctx_patterns u) (py "no matching pattern found") k cm).
Proof.
  intros u w v fname v' H i it x L Ho Ha.
  destruct (listed_visit _ _ _ _ _ H _ _ L) as [s1 [s2 [s3 [s4 [l1 [l2 [l3 [l4 [it0 [sa [sb [la [li [lb [R [Hi [HS [Hv V]]]]]]]]]]]]]]]]]].
  destruct (skel_eq _ _ HS) as [E1 [E2 [E3 [E4 [E5 E6]]]]].
  rewrite E1, E2, E3, E4 in *. set (c := mk_ctx u w fname) in *.
  destruct (attribute_origin _ _ _ _ _ _ _ _ _ _ _ R _ _ _ Hi Ho) as [p [pit0 [h [k [Hp [Hpo [Hk [Eit Hpa]]]]]]]].
  destruct (listed_end _ _ _ _ _ _ _ _ _ _ _ R _ _ Hp) as [pit [Lp HSp]].
  destruct (skel_eq _ _ HSp) as [P1 [P2 [P3 [P4 [P5 P6]]]]].
  exists p, pit, h, k. split; auto.
  destruct (attr_item_spec p pit0 x (Some k)) as [A1 [A2 [A3 [A4 A5]]]].
  assert (Hcp : str_eqb (it_cp pit0) NON_NEXUS = false).
  { destruct (str_eqb (it_cp pit0) NON_NEXUS) eqn:En; auto. exfalso. apply Ha. rewrite Eit. unfold attr_item. rewrite En. reflexivity. }
  assert (Hadr : it_addr it0 = Some (h_name h ++ ch_at :: k)).
  { rewrite Eit. unfold attr_item. rewrite Hcp. simpl. rewrite Hpa. reflexivity. }
  assert (Hcpa : has_char ch_at (it_cp it0) = true).
  { rewrite Eit. unfold attr_item. rewrite Hcp. simpl. apply has_char_spec. apply in_or_app. right. left. auto. }
  assert (Hpar : it_parent it0 = Some p) by (rewrite Eit; auto).
  assert (Hnm : it_name it0 = Some k) by (rewrite Eit; auto).
  split; [exact Hpar|]. split; [congruence|]. split; [exact Hk|]. split; [exact Hnm|]. split; [exact Hadr|].
  pose proof (vs_cache _ _ _ _ _ _ _ _ _ _ V) as HC.
  destruct (visit_halves _ _ _ _ _ _ _ _ _ _ V) as [sn [lm [ln [H1 [HAt [T1 [T2 [F1 [F2 [HCn V2]]]]]]]]]].
  pose proof H1 as HV. unfold item_name_verify in H1.
  apply bind_ok in H1 as [z [sz [Hz H1]]]. apply item_ok in Hz as [-> Hz].
  rewrite (vs_item _ _ _ _ _ _ _ _ _ _ V) in Hz. inversion Hz; subst z.
  rewrite Hpar in H1.
  assert (D : name_done it0 = false). { unfold name_done. rewrite Hnm, Hv. reflexivity. }
  rewrite D, Hadr in H1. destruct (endswith (h_name h ++ ch_at :: k) (py "@NX_class")) eqn:Ee.
  - destruct (handle_NX_class_ok _ _ _ _ _ _ _ HC (vs_item _ _ _ _ _ _ _ _ _ _ V) Ho H1) as [l [n [sm [st [cm [Hl [Hn [HR [[B1 [B2 [B3 [B4 _]]]] Hst]]]]]]]]].
    exists l, n, st, cm. split; auto. split; auto. split; auto.
    replace sn with (fst (item_name_verify c i sa)) in HR by (rewrite HV; reflexivity).
    destruct (name_shows _ _ _ _ _ _ _ _ _ _ _ R _ _ _ _ _ _ _ V Hi _ _ _ HR B1 B2 B3 B4) as [it' [X1 [X2 X3]]].
    eapply shows_item; eauto.
  - rewrite Hcpa in H1. apply bind_ok in H1 as [qit [sz [Hz2 H1]]]. apply item_ok in Hz2 as [-> Hz2].
    assert (HSq : skel qit = skel pit0).
    { destruct (trace_item _ _ _ _ _ (vs_a _ _ _ _ _ _ _ _ _ _ V) Hp) as [q2 [Q1 Q2]]. congruence. }
    destruct (skel_eq _ _ HSq) as [Q1 [Q2 [Q3 [Q4 [Q5 Q6]]]]].
    apply bind_ok in H1 as [lt [sz [Hlt H1]]]. apply lift_ok in Hlt as [-> Hlt].
    unfold isNeXusLinkTarget in Hlt. rewrite Q2, Hpo, Q4, Hpa in Hlt. cbn [hobj_attrs rbind] in Hlt.
    assert (Hlink : lt = true <-> linked_elsewhere (u_env u) (attrs_of w h) (h_name h)).
    { unfold linked_elsewhere. change (attrs_of (c_world c) h) with (attrs_of w h) in Hlt.
      destruct (dget (py "target") (attrs_of w h)) as [tv|] eqn:Et.
      - change (c_env c) with (u_env u) in Hlt. destruct (decode_byte_string (u_env u) tv) as [t|] eqn:Ed; cbn [rbind] in Hlt; [|discriminate].
        split.
        + intros ->. exists tv, t. split; auto. split; auto. intros ->. inversion Hlt.
          rewrite (proj2 (str_eqb_eq _ _) eq_refl) in H2. discriminate.
        + intros [tv' [t' [X1 [X2 X3]]]]. inversion X1; subst tv'. rewrite Ed in X2. inversion X2; subst t'.
          destruct t; inversion Hlt; auto. apply negb_true_iff, str_eqb_neq. congruence.
      - inversion Hlt; subst. split; [discriminate|]. intros [tv' [t' [X1 _]]]. discriminate. }
    destruct lt.
    + left. split; [apply Hlink; auto|]. inversion H1; subst sn.
      assert (Hkey : name_key TEST_NAME || attr_key TEST_NAME = true) by reflexivity.
      destruct (visit_final _ _ _ _ _ _ _ _ _ _ _ R _ _ _ _ _ _ _ V2 _ Hkey) as [it' [N [S Dg]]].
      destruct L as [L0 L1]. rewrite N in L0. inversion L0; subst it'.
      assert (Hno : forall l, Forall (on_item attr_key i) l -> Forall (fun e => match e with ERec j f => j = i -> f_test f <> TEST_NAME | ENew _ => True end) l).
      { intros l HF. eapply Forall_impl; [|exact HF]. intros [n|j f]; simpl; auto. intros [_ X] _. apply name_attr_disjoint; auto. }
      assert (Hlm : recs lm = []).
      { pose proof (tr_find _ _ _ T1) as X. rewrite <- (app_nil_r (st_find sa)) in X at 1. apply app_inv_head in X. auto. }
      assert (Hlm2 : lm = []).
      { destruct lm as [|e lm]; auto. inversion F1 as [|? ? Fe _]; subst. destruct e as [n|j f]; [destruct Fe | discriminate Hlm]. }
      subst lm. simpl in Dg. rewrite (last_rec_none _ _ _ (Hno _ F2)), Hv in Dg. split; auto.
      intros HU. unfold findings_for.
      change (fun f0 : finding => _) with (at_test (it_addr it0) TEST_NAME).
      rewrite <- E4.
      rewrite E4. rewrite (visit_filter _ _ _ _ _ _ _ _ _ _ _ R _ _ _ _ _ _ _ V2 Hi (own_unique _ _ _ _ _ _ _ _ _ _ _ R _ HU) _ Hkey).
      simpl. apply (filter_other_key attr_key); auto. apply recs_keys.
      eapply Forall_impl; [|exact F2]. intros [n|j f]; simpl; tauto.
    + right. split; [rewrite <- Hlink; discriminate|].
      destruct (handle_any_ok _ _ _ _ _ _ _ HC (vs_item _ _ _ _ _ _ _ _ _ _ V) Hnm H1) as [sm [st [cm [HR [[B1 [B2 [B3 [B4 _]]]] Hst]]]]].
      exists st, cm. split; auto.
      replace sn with (fst (item_name_verify c i sa)) in HR by (rewrite HV; reflexivity).
      destruct (name_shows _ _ _ _ _ _ _ _ _ _ _ R _ _ _ _ _ _ _ V Hi _ _ _ HR B1 B2 B3 B4) as [it' [X1 [X2 X3]]].
      eapply shows_item; eauto.
Qed.

(** ** The shipped patterns *)
Definition nx_re : re := Seq (Cls (CClit 78)) (Seq (Cls (CClit 88)) (Seq (Seq (Cls CCany) (Star (Cls CCany))) Eps)).
Definition ident_re : re :=
  Seq (Cls (CCor (CCrange 65 90) (CCor (CCrange 97 122) (CCor (CClit 95) CCnone))))
      (Seq (Star (Cls (CCor CCword (CCor (CClit 95) CCnone)))) Eps).

Lemma nx_compiled : re_compile (py "NX.+") = Ok [nx_re].
Proof. vm_compute. reflexivity. Qed.
Lemma ident_compiled : re_compile (py "[A-Za-z_][\w_]*") = Ok [ident_re].
Proof. vm_compute. reflexivity. Qed.

Lemma any_iff : forall uw x, cmatch uw CCany x = true <-> x <> 10%N.
Proof. intros. cbn [cmatch]. rewrite negb_true_iff, N.eqb_neq. reflexivity. Qed.

Lemma lang_seq_eps : forall uw r s, lang uw (Seq r Eps) s <-> lang uw r s.
Proof.
  intros. rewrite lang_seq. split.
  - intros [a [b [-> [H1 H2]]]]. apply lang_eps in H2. subst. rewrite app_nil_r. auto.
  - intros. exists s, []. rewrite app_nil_r. split; auto. split; auto. constructor.
Qed.
Lemma lang_cls_seq : forall uw k r s, lang uw (Seq (Cls k) r) s <-> exists x t, s = x :: t /\ cmatch uw k x = true /\ lang uw r t.
Proof.
  intros. rewrite lang_seq. split.
  - intros [a [b [-> [H1 H2]]]]. apply lang_cls in H1 as [x [-> Hx]]. exists x, b. auto.
  - intros [x [t [-> [H1 H2]]]]. exists [x], t. split; auto. split; auto. constructor; auto.
Qed.

Lemma nx_lang : forall uw s, lang uw nx_re s <-> nx_prefixed s.
Proof.
  intros. unfold nx_re, nx_prefixed. rewrite lang_cls_seq. split.
  - intros [a [t [-> [Ha H]]]]. apply lang_cls_seq in H as [b [t2 [-> [Hb H]]]]. apply (proj1 (lang_seq_eps _ _ _)) in H.
    apply lang_cls_seq in H as [d [t3 [-> [Hd H]]]]. apply star_cls in H. cbn [cmatch] in Ha, Hb.
    apply N.eqb_eq in Ha. apply N.eqb_eq in Hb. subst. exists d, t3. split; auto.
    apply any_iff in Hd. intros [Hx|Hx]; [congruence|].
    rewrite Forall_forall in H. apply H in Hx. apply any_iff in Hx. congruence.
  - intros [d [t3 [-> Hd]]]. exists 78%N, (88%N :: d :: t3). split; auto. split; [reflexivity|].
    apply lang_cls_seq. exists 88%N, (d :: t3). split; auto. split; [reflexivity|]. apply lang_seq_eps.
    apply lang_cls_seq. exists d, t3. split; auto. split.
    + apply any_iff. intros ->. apply Hd. left. auto.
    + apply star_cls. apply Forall_forall. intros y Hy. apply any_iff. intros ->. apply Hd. right. auto.
Qed.

Lemma word_iff : forall uw x, cmatch uw (CCor CCword (CCor (CClit 95) CCnone)) x = true <-> word_char uw x.
Proof.
  intros. cbn [cmatch]. rewrite orb_false_r, orb_true_iff, N.eqb_eq. unfold word_char, is_word, ascii_word, ascii_lower, ascii_upper, ascii_digit.
  unfold lower, upper, digit, underscore.
  destruct (N.ltb_spec x 128).
  - rewrite !orb_true_iff, !andb_true_iff, !N.leb_le, N.eqb_eq. split; [tauto|].
    intros [Hx|[Hx|[Hx|[Hx|[Hx _]]]]]; auto. lia.
  - split; [intros [Hx|Hx]; auto 10; lia|]. intros [Hx|[Hx|[Hx|[Hx|[_ Hx]]]]]; auto; lia.
Qed.

Lemma ident_lang : forall uw s, lang uw ident_re s <-> identifier uw s.
Proof.
  intros. unfold ident_re, identifier. rewrite seq_cls_star.
  split; intros [x [t [-> [H1 H2]]]]; exists x, t; (split; [auto|]); split.
  - cc. tauto.
  - eapply Forall_impl; [|exact H2]. intros y Hy. apply word_iff. auto.
  - cc. tauto.
  - eapply Forall_impl; [|exact H2]. intros y Hy. apply word_iff. auto.
Qed.

Lemma nx_accepts : forall uw s, pattern_accepts uw (py "NX.+") s <-> or_newline nx_prefixed s.
Proof. intros. rewrite (compile_fun uw _ _ s nx_compiled), accepts_correct. apply or_newline_iff. apply nx_lang. Qed.
Lemma ident_accepts : forall uw s, pattern_accepts uw (py "[A-Za-z_][\w_]*") s <-> or_newline (identifier uw) s.
Proof. intros. rewrite (compile_fun uw _ _ s ident_compiled), accepts_correct. apply or_newline_iff. apply ident_lang. Qed.

Lemma shipped_class_names : forall uw s, relaxed_name uw shipped_class_patterns s <-> class_name uw s.
Proof.
  intros. unfold relaxed_name, shipped_class_patterns, class_name. split.
  - intros [p [[<-|[<-|[]]] H]]; [left; exact (proj1 (nx_accepts uw s) H) | right; exact (proj1 (ident_accepts uw s) H)].
  - intros [H|H]; [exists (py "NX.+") | exists (py "[A-Za-z_][\w_]*")]; (split; [simpl; auto|]); [exact (proj2 (nx_accepts uw s) H) | exact (proj2 (ident_accepts uw s) H)].
Qed.
Lemma shipped_item_names : forall uw s, relaxed_name uw shipped_item_patterns s <-> or_newline (identifier uw) s.
Proof.
  intros. unfold relaxed_name, shipped_item_patterns. split.
  - intros [p [[<-|[]] H]]. exact (proj1 (ident_accepts uw s) H).
  - intros H. exists (py "[A-Za-z_][\w_]*"). split; [simpl; auto|]. exact (proj2 (ident_accepts uw s) H).
Qed.

(** ** Attributes of non-NeXus content *)
Lemma unaddressed_unchecked : forall u w v fname v', validate u w v fname = (v', Ok tt) ->
  forall i it x, listed v' i it -> it_obj it = OVal x -> it_addr it = None ->
  dget TEST_NAME (it_vals it) = None.
Proof.
  intros u w v fname v' H i it x L Ho Ha.
  destruct (listed_visit _ _ _ _ _ H _ _ L) as [s1 [s2 [s3 [s4 [l1 [l2 [l3 [l4 [it0 [sa [sb [la [li [lb [R [Hi [HS [Hv V]]]]]]]]]]]]]]]]]].
  destruct (skel_eq _ _ HS) as [E1 [E2 [E3 [E4 [E5 E6]]]]]. rewrite E2, E4 in *.
  destruct (attribute_origin _ _ _ _ _ _ _ _ _ _ _ R _ _ _ Hi Ho) as [p [pit0 [h [k [Hp [Hpo [Hk [Eit Hpa]]]]]]]].
  assert (Hcp : it_cp it0 = NON_NEXUS).
  { rewrite Eit in Ha |- *. unfold attr_item in *. destruct (str_eqb (it_cp pit0) NON_NEXUS); simpl in *; auto. discriminate. }
  destruct (visit_halves _ _ _ _ _ _ _ _ _ _ V) as [sn [lm [ln [H1 [HAt [T1 [T2 [F1 [F2 [HCn V2]]]]]]]]]].
  unfold item_name_verify in H1. apply bind_ok in H1 as [z [sz [Hz H1]]]. apply item_ok in Hz as [-> Hz].
  rewrite (vs_item _ _ _ _ _ _ _ _ _ _ V) in Hz. inversion Hz; subst z.
  assert (Hs : sn = sa).
  { destruct (it_parent it0); [|inversion H1; auto]. destruct (name_done it0); [inversion H1; auto|].
    rewrite Ha, Hcp in H1. change (has_char ch_at NON_NEXUS) with false in H1. cbv iota in H1.
    apply bind_ok in H1 as [b [sz [Hb H1]]]. apply lift_ok in Hb as [-> Hb]. rewrite Ho in Hb. inversion Hb; subst b.
    change (str_eqb NON_NEXUS NON_NEXUS) with true in H1. inversion H1; auto. }
  subst sn.
  assert (Hkey : name_key TEST_NAME || attr_key TEST_NAME = true) by reflexivity.
  destruct (visit_final _ _ _ _ _ _ _ _ _ _ _ R _ _ _ _ _ _ _ V2 _ Hkey) as [it' [N [S Dg]]].
  destruct L as [L0 L1]. rewrite N in L0. inversion L0; subst it'.
  assert (Hlm : recs lm = []).
  { pose proof (tr_find _ _ _ T1) as X. rewrite <- (app_nil_r (st_find sa)) in X at 1. apply app_inv_head in X. auto. }
  assert (Hlm2 : lm = []).
  { destruct lm as [|e lm]; auto. inversion F1 as [|? ? Fe _]; subst. destruct e as [n|j f]; [destruct Fe | discriminate Hlm]. }
  subst lm. simpl in Dg. rewrite last_rec_none, Hv in Dg; auto.
  eapply Forall_impl; [|exact F2]. intros [n|j f]; simpl; auto. intros [_ X] _. apply name_attr_disjoint; auto.
Qed.

(** a group's NX_class without the NX prefix makes it non-NeXus *)
Lemma group_without_nx : forall u w v fname v', validate u w v fname = (v', Ok tt) ->
  forall j jt i it h p n, listed v' i it -> it_obj it = ONode h -> isHdf5Group w h = true ->
  it_parent it = Some j -> listed v' j jt -> endswith (it_cp jt) slash = false -> it_name it <> Some slash ->
  dget (py "NX_class") (attrs_of w h) = Some p -> decode_byte_string (u_env u) p = Ok (VStr n) -> startswith n (py "NX") = false ->
  it_cp it = NON_NEXUS.
Proof.
  intros u w v fname v' H j jt i it h p n L Ho Hg Hpar Lj Hjs Hns Hnx Hd Hs.
  destruct (validate_decompose _ _ _ _ _ H) as [_ [_ [_ [s1 [s2 [s3 [s4 [l1 [l2 [l3 [l4 R]]]]]]]]]]].
  destruct (listed_start _ _ _ _ _ _ _ _ _ _ _ R _ _ L) as [it0 [Hi0 HS]].
  destruct (listed_start _ _ _ _ _ _ _ _ _ _ _ R _ _ Lj) as [jt0 [Hj0 HSj]].
  destruct (skel_eq _ _ HS) as [E1 [E2 [E3 [E4 [E5 E6]]]]]. rewrite E1, E2, E3, E5 in *.
  destruct (skel_eq _ _ HSj) as [J1 [J2 [J3 [J4 [J5 J6]]]]]. rewrite J5 in *.
  destruct (ci_origin _ _ (ro_inv _ _ _ _ _ _ _ _ _ _ _ R) _ _ Hi0) as [O1 O2 O3|q qit hp h' name O1 O2 O3 O4 O5 O6|q qit h' k v0 O1 O2 O3 O4 O5].
  - congruence.
  - destruct (node_item_spec _ _ _ _ _ O6) as [N1 [N2 [N3 [N4 N5]]]]. rewrite N1 in Ho. inversion Ho; subst h'.
    rewrite N4 in Hpar. simpl in Hpar. inversion Hpar; subst q.
    pose proof (carrier_nth _ _ _ _ O2) as Hq. rewrite Hj0 in Hq. inversion Hq; subst qit.
    unfold node_item in O6. set (nm := if str_eqb (h_name h) slash then slash else last_part ch_slash (h_name h)) in *.
    destruct (determine_NeXus_classpath _ _ _ _ _) as [[cp nc]|e] eqn:Ed; [|discriminate].
    cbn [rbind] in O6. destruct (identify_object_type _ _ _); [|discriminate]. inversion O6; subst it0. simpl in *.
    unfold determine_NeXus_classpath in Ed.
    destruct (str_eqb_spec nm slash) as [En|En]; [congruence|]. simpl in Ed.
    destruct (str_eqb (it_cp jt0) NON_NEXUS); [inversion Ed; auto|]. rewrite Hjs in Ed.
    rewrite Hg in Ed. change "NX_class"%string with "NX_class"%string in Ed.
    change (py "NX_class") with (py "NX_class") in Ed. unfold dget in *. simpl in Hnx, Ed. rewrite Hnx in Ed. rewrite Hd in Ed. simpl in Ed.
    change (startswith n (py "NX")) with (startswith n [78%N; 88%N]) in Hs. rewrite Hs in Ed. inversion Ed; auto.
  - subst it0. destruct (attr_item_spec q qit v0 (Some k)) as [A _]. congruence.
Qed.
