(** * Value checks of attributes in a completed validation *)

From Coq Require Import List NArith ZArith Bool String Lia.
From Verif Require Import PyBase PyFacts Regex Utf8 H5 Findings Nxdl Core Catalog ItemName AttributeCheck
  GroupChecks AppDef DefaultPlot Validate Trace CheckFacts CatalogFacts Spec_Names Spec_Run NameFacts RunFacts NameRun
  ClassNameRun StepOne Spec_Catalog PathFacts CatalogTerm Spec_Attributes PresenceFacts.
Import ListNotations.

Lemma sbc_trace : forall s s', same_but_cache s s' -> trace s [] s'.
Proof.
  intros s s' [A [B [C [D _]]]]. constructor; simpl; auto. rewrite app_nil_r. auto.
Qed.

Lemma sbc_nth : forall s s' i it, same_but_cache s s' -> nth_error (st_items s) i = Some it -> nth_error (st_items s') i = Some it.
Proof. intros s s' i it [A _] H. rewrite A. auto. Qed.

(** ** The second half of an item's checks *)
Record attr_of (u : setup) (w : world) (v : validator) (fname : pystr) (v' : validator) (i : nat) (it : vitem) (sm sb : vstate) : Prop := mkAttrOf {
  ao_run : attribute_verify (mk_ctx u w fname) i sm = (sb, Ok tt);
  ao_cache : cache_ok (mk_ctx u w fname) sm;
  ao_classes : strip_classes (st_classes sm) = strip_classes (st_classes (v_st v));
  ao_item : exists it0, nth_error (st_items sm) i = Some it0 /\ skel it0 = skel it;
  ao_other : forall j jt', listed v' j jt' -> exists jt, nth_error (st_items sm) j = Some jt /\ skel jt = skel jt';
  ao_in : forall f ln, trace sm ln sb -> In f (recs ln) -> In f (st_find (v_st v'));
  ao_vals : forall ln, trace sm ln sb -> Forall (on_item attr_key i) ln -> forall t, attr_key t = true ->
     dget t (it_vals it) = last_rec t i ln /\ (own_address v' i -> findings_for v' (it_addr it) t = filter (named t) (recs ln));
  ao_all : forall ln, trace sm ln sb -> Forall (on_item attr_key i) ln -> own_address v' i -> attribute_findings v' (it_addr it) = recs ln
}.

Lemma name_not_attr : forall K i (l : list event), Forall (on_item K i) l -> (forall t, K t = true -> attr_key t = false) ->
  Forall (fun f => attr_key (f_test f) = false) (recs l).
Proof.
  intros K i l H HK. induction H as [|e l H HF IH]; simpl; [constructor|]. destruct e as [n|j f]; simpl in *; [tauto|]. constructor; auto. apply HK. tauto.
Qed.

Lemma last_rec_other : forall t i lm ln, Forall (on_item name_key i) lm -> attr_key t = true -> last_rec t i (lm ++ ln) = last_rec t i ln.
Proof.
  intros t i lm ln HF Ht. rewrite last_rec_app. destruct (last_rec t i ln); auto. apply last_rec_none.
  eapply Forall_impl; [|exact HF]. intros [n|j f]; simpl; auto. intros [_ H] _ E. unfold name_key in H. apply str_eqb_eq in H.
  rewrite E in H. subst t. discriminate.
Qed.

Lemma attr_at : forall u w v fname v', validate u w v fname = (v', Ok tt) -> forall i it, listed v' i it ->
  exists sm sb, attr_of u w v fname v' i it sm sb.
Proof.
  intros u w v fname v' H i it L. destruct (step1_at _ _ _ _ _ H _ _ L) as [it0 [sa [sb S]]].
  pose proof (so_run _ _ _ _ _ _ _ _ _ _ S) as HR. unfold check_item in HR. apply bind_ok in HR as [[] [sm [H1 H2]]].
  destruct (logs_run _ _ _ _ _ _ _ (item_name_verify_logs _ i) H1) as [lm [T1 [F1 R1]]].
  assert (NF : forall t, name_key t = true -> attr_key t = false).
  { intros t Ht. unfold name_key in Ht. apply str_eqb_eq in Ht. subst. reflexivity. }
  assert (FF : forall ln, Forall (on_item attr_key i) ln -> Forall (on_item key1 i) (lm ++ ln)).
  { intros ln F2. apply Forall_app. split; eapply Forall_impl; try eassumption; intros [n|j f]; simpl; auto; unfold key1;
      intros [-> ->]; rewrite ?orb_true_r; auto. }
  exists sm, sb. constructor; auto.
  - apply (proj1 R1). apply (so_cache _ _ _ _ _ _ _ _ _ _ S).
  - rewrite (proj2 R1). apply (so_classes _ _ _ _ _ _ _ _ _ _ S).
  - destruct (trace_item _ _ _ _ _ T1 (so_item _ _ _ _ _ _ _ _ _ _ S)) as [it1 [A B]]. exists it1. split; auto. rewrite (so_skel _ _ _ _ _ _ _ _ _ _ S). auto.
  - intros j jt' Lj. destruct (so_listed _ _ _ _ _ _ _ _ _ _ S _ _ Lj) as [jt [A B]].
    destruct (trace_item _ _ _ _ _ T1 A) as [jt1 [C D]]. exists jt1. split; auto. congruence.
  - intros f ln T2 Hf. apply (so_in _ _ _ _ _ _ _ _ _ _ S f (lm ++ ln)); [eapply trace_app; eauto|]. rewrite recs_app. apply in_or_app. auto.
  - intros ln T2 F2 t Ht. assert (K : key1 t = true) by (unfold key1; rewrite Ht; apply orb_true_r).
    destruct (so_shows _ _ _ _ _ _ _ _ _ _ S (lm ++ ln) (trace_app _ _ _ _ _ T1 T2) (FF _ F2) t K) as [A B]. split.
    + rewrite A. apply last_rec_other; auto.
    + intros HU. rewrite (B HU), recs_app, filter_app. rewrite filter_none; auto.
      eapply Forall_impl; [|exact (name_not_attr _ _ _ F1 NF)]. simpl. intros f Hf. unfold named. apply str_eqb_neq. intros E. rewrite E in Hf. congruence.
  - intros ln T2 F2 HU. unfold attribute_findings.
    change of_attribute_check with attr_key.
    rewrite (so_all _ _ _ _ _ _ _ _ _ _ S (lm ++ ln) (trace_app _ _ _ _ _ T1 T2) (FF _ F2) HU attr_key) by (intros t Ht; unfold key1; rewrite Ht; apply orb_true_r).
    rewrite recs_app, filter_app, (filter_none _ _ (recs lm)) by (exact (name_not_attr _ _ _ F1 NF)). simpl.
    clear - F2. induction F2 as [|e l H HF IH]; simpl; auto. destruct e as [n|j f]; simpl in *; [tauto|]. destruct H as [_ ->]. f_equal. auto.
Qed.

(** a finding recorded once by the value check is shown *)
Lemma attr_shows : forall u w v fname v' i it sm sb, attr_of u w v fname v' i it sm sb ->
  forall ln f, trace sm ln sb -> Forall (on_item attr_key i) ln -> In f (recs ln) -> filter (named (f_test f)) (recs ln) = [f] -> f_addr f = it_addr it ->
  shows v' i it f.
Proof.
  intros u w v fname v' i it sm sb O ln f T F Hf Hu Ha.
  assert (K : attr_key (f_test f) = true).
  { clear - F Hf. induction F as [|e l H HF IH]; simpl in Hf; [destruct Hf|]. destruct e as [n|j g]; simpl in *; [tauto|]. destruct Hf as [->|Hf]; auto. tauto. }
  destruct (ao_vals _ _ _ _ _ _ _ _ _ O ln T F _ K) as [A B].
  split; [|split; [auto|split]].
  - rewrite A. rewrite last_rec_filter, Hu; auto. eapply Forall_impl; [|exact F]. intros [n|j g]; simpl; auto. unfold key1. intros [-> ->]. rewrite orb_true_r. auto.
  - eapply ao_in; eauto.
  - intros HU. rewrite (B HU). auto.
Qed.

(** ** Attribute items *)
Lemma attr_listed : forall u w v fname v', validate u w v fname = (v', Ok tt) ->
  forall i it val, listed v' i it -> it_obj it = OVal val -> it_addr it <> None ->
  exists p pit h k, it_parent it = Some p /\ listed v' p pit /\ it_obj pit = ONode h /\ In (k, val) (attrs_of w h)
    /\ it_name it = Some k /\ it_addr it = Some (h_name h ++ ch_at :: k) /\ it_cp pit <> non_nexus /\ it_cp it = it_cp pit ++ ch_at :: k.
Proof.
  intros u w v fname v' H i it val L Ho Ha.
  destruct (validate_decompose _ _ _ _ _ H) as [_ [_ [_ [s1 [s2 [s3 [s4 [l1 [l2 [l3 [l4 R]]]]]]]]]]].
  destruct (listed_start _ _ _ _ _ _ _ _ _ _ _ R _ _ L) as [it0 [Hi0 HS]]. destruct (skel_eq _ _ HS) as [E1 [E2 [E3 [E4 [E5 E6]]]]].
  rewrite E2 in Ho. destruct (attribute_origin _ _ _ _ _ _ _ _ _ _ _ R _ _ _ Hi0 Ho) as [p [pit0 [h [k [A [B [C [D E]]]]]]]].
  destruct (listed_end _ _ _ _ _ _ _ _ _ _ _ R _ _ A) as [pit [Lp Sp]]. destruct (skel_eq _ _ Sp) as [F1 [F2 [F3 [F4 [F5 F6]]]]].
  exists p, pit, h, k. rewrite E1, E3, E5, F2, F5. rewrite E4 in *. subst it0.
  unfold attr_item in *. destruct (str_eqb_spec (it_cp pit0) NON_NEXUS) as [X|X]; simpl in *.
  - exfalso. apply Ha. reflexivity.
  - split; auto. split; auto. split; auto. split; auto. split; auto. rewrite E. simpl. auto.
Qed.

(** ** Names *)
Lemma verdict_status : forall c n k, key_verdict c n k -> name_status (e_uw (c_env c)) (item_patterns c) n (fst (name_verdict k)).
Proof.
  intros c n k [[Hs ->]|[[Hs [p [-> Hp]]]|[Hs [Hr ->]]]]; cbn [name_verdict].
  - change (startswith STRICT_KEY (py "strict")) with true. apply ns_ok; auto.
  - change (startswith (py "relaxed pattern: " ++ p) (py "strict")) with false. apply ns_note; auto. eapply first_relaxed; eauto.
  - apply ns_error; auto.
Qed.

Lemma verdict_text : forall c n k, key_verdict c n k ->
  name_comment (e_uw (c_env c)) (item_patterns c) (py "not a valid NeXus name") n (snd (name_verdict k)).
Proof.
  intros c n k H. pose proof (verdict_comment _ _ _ (py "not a valid NeXus name") H) as NC.
  destruct k as [k|]; cbn [name_verdict]; [destruct (startswith k (py "strict"))|]; exact NC.
Qed.

Lemma verdict_valid : forall c n k, key_verdict c n k -> (k <> None <-> valid_item_name (e_uw (c_env c)) (item_patterns c) n).
Proof.
  intros c n k [[Hs ->]|[[Hs [p [-> Hp]]]|[Hs [Hr ->]]]]; unfold valid_item_name.
  - split; auto. intros _ X. discriminate.
  - split; [|intros _ X; discriminate]. intros _. right. eapply first_relaxed; eauto.
  - split; [congruence|]. tauto.
Qed.

(** ** @target *)
Section Target.
  Variable c : ctx.
  Variable i : nat.
  Definition in_root (a : pystr) : Prop := py_in (c_world c) (c_root c) (VStr a) = Ok true.
  Definition valid_part (p : pystr) : Prop := valid_item_name (e_uw (c_env c)) (item_patterns c) p.

  Lemma target_parts_spec : forall parts addr s s' b, cache_ok c s -> target_parts c i addr parts s = (s', Ok b) ->
    if b then same_but_cache s s' /\ cache_ok c s' /\ Forall valid_part parts /\ (forall x y, parts = x ++ y -> x <> [] -> in_root (addr ++ absolute x))
    else (exists s1 cm, same_but_cache s s1 /\ record_finding i ATTR_TEST ERROR cm s1 = (s', Ok tt)
        /\ exists a p r, parts = a ++ p :: r /\ Forall valid_part a /\ (forall x y, a = x ++ y -> x <> [] -> in_root (addr ++ absolute x))
          /\ ((~ valid_part p /\ cm = py "value must match with a NeXus validItemName")
              \/ (valid_part p /\ ~ in_root (addr ++ absolute (a ++ [p])) /\ cm = py "partial HDF5 address not found in file: " ++ addr ++ absolute (a ++ [p]))))
      /\ ~ (Forall valid_part parts /\ forall x y, parts = x ++ y -> x <> [] -> in_root (addr ++ absolute x)).
  Proof.
    induction parts as [|p parts IH]; intros addr s s' b HC H; cbn [target_parts] in H; inv_ok.
    - split; [apply sbc_refl|]. split; auto. split; [constructor|]. intros x y E Hx. destruct x; [congruence|discriminate].
    - match goal with H : match_key_text _ _ _ = _ |- _ => pose proof (match_key_same _ _ _ _ _ H) as HS; apply match_key_ok in H as [HC1 HK]; [|auto] end.
      pose proof (verdict_valid _ _ _ HK) as HV. destruct x as [k|].
      + assert (Vp : valid_part p) by (apply HV; discriminate). apply bind_ok in H as [found [s9 [H1 H]]]. apply lift_ok in H1 as [-> H1].
        assert (AE : forall x, addr ++ absolute (p :: x) = (addr ++ slash ++ p) ++ absolute x) by (intros; unfold absolute; simpl; rewrite <- !app_assoc; reflexivity).
        destruct found.
        * specialize (IH _ _ _ _ HC1 H). assert (Q : (forall x y, p :: parts = x ++ y -> x <> [] -> in_root (addr ++ absolute x)) <->
             (forall x y, parts = x ++ y -> x <> [] -> in_root ((addr ++ slash ++ p) ++ absolute x))).
          { split; intros Q x y E Hx.
            - rewrite <- AE. apply (Q (p :: x) y); [simpl; congruence|discriminate].
            - destruct x as [|q x]; [congruence|]. simpl in E. inversion E; subst. rewrite AE. destruct x as [|r x].
              + unfold absolute. simpl. rewrite app_nil_r. exact H1.
              + eapply Q; eauto. discriminate. }
          destruct b; rewrite Q.
          -- destruct IH as [I1 [I2 [I3 I4]]]. split; [eapply sbc_trans; eauto|]. split; auto.
          -- destruct IH as [[s1 [cm [I1 [I2 [a [p' [r [J1 [J2 [J3 J4]]]]]]]]]] I3]. split.
             { exists s1, cm. split; [eapply sbc_trans; eauto|]. split; auto. exists (p :: a), p', r. split; [simpl; congruence|].
               split; [constructor; auto|]. split.
               - intros x y E Hx. destruct x as [|q x]; [congruence|]. simpl in E. injection E as E1 E2. subst q. rewrite AE. destruct x as [|z x].
                 + unfold absolute. simpl. rewrite app_nil_r. exact H1.
                 + eapply J3; eauto. discriminate.
               - simpl app. rewrite AE. destruct J4 as [J4|[J4 [J5 J6]]]; auto. }
             intros [X Y]. apply I3. split; auto. inversion X; auto.
        * assert (NF : ~ in_root (addr ++ absolute [p])).
          { rewrite AE. unfold absolute, in_root. simpl. rewrite app_nil_r. intros Y. assert (X : Ok false = Ok true) by (rewrite <- H1; exact Y). discriminate. }
          inv_ok. split.
          { eexists; eexists; split; [exact HS|]. split; [match goal with x : unit |- _ => destruct x end; eassumption|].
            exists [], p, parts. split; auto. split; [constructor|]. split; [intros xs ys E Hx; destruct xs; [congruence|discriminate]|].
            right. split; auto. split; auto. simpl app. rewrite AE. unfold absolute. simpl. rewrite app_nil_r. reflexivity. }
          intros [_ Y]. specialize (Y [p] parts eq_refl). rewrite AE in Y. unfold absolute, in_root in Y. simpl in Y. rewrite app_nil_r in Y.
          assert (X : Ok false = Ok true) by (rewrite <- H1; apply Y; discriminate). discriminate.
      + assert (NV : ~ valid_part p) by (intros X; apply HV in X; congruence).
        inv_ok. split.
        { eexists; eexists; split; [exact HS|]. split; [match goal with x : unit |- _ => destruct x end; eassumption|].
          exists [], p, parts. split; auto. split; [constructor|]. split; [intros xs ys E Hx; destruct xs; [congruence|discriminate]|]. left. auto. }
        intros [X _]. inversion X as [|? ? X1 X2]; subst. apply HV in X1. congruence.
  Qed.

  Lemma absolute_split : forall rest parts, parts <> [] -> 47%N :: rest = absolute parts -> Forall (fun n => ~ In 47%N n) parts -> parts = split ch_slash rest.
  Proof.
    intros rest parts. revert rest. induction parts as [|p parts IH]; intros rest Hne E HF; [congruence|]. inversion HF; subst.
    unfold absolute in E. simpl in E. inversion E; subst. destruct parts as [|q parts].
    - simpl. rewrite app_nil_r, split_no_sep; auto.
    - simpl. rewrite (split_app_sep ch_slash); auto. f_equal. apply IH; auto. discriminate.
  Qed.
  Lemma split_absolute : forall rest, absolute (split ch_slash rest) = 47%N :: rest.
  Proof.
    intros rest. rewrite <- (join_split ch_slash rest) at 2. generalize (split ch_slash rest) (split_nonnil ch_slash rest).
    intros l. induction l as [|x l IH]; intros Hne; [congruence|]. unfold absolute in *. simpl. destruct l as [|y l]; [simpl; rewrite app_nil_r; reflexivity|].
    rewrite IH by discriminate. reflexivity.
  Qed.

  Lemma target_spec : forall s s' it t val, cache_ok c s -> nth_error (st_items s) i = Some it -> it_obj it = OVal val ->
    decode_byte_string (c_env c) val = Ok (VStr t) -> target_handler c i s = (s', Ok tt) ->
    exists sm st cm, same_but_cache s sm /\ record_finding i ATTR_TEST st cm sm = (s', Ok tt)
      /\ ((st = OK /\ good_target (e_uw (c_env c)) (item_patterns c) in_root t) \/ (st = ERROR /\ ~ good_target (e_uw (c_env c)) (item_patterns c) in_root t))
      /\ target_comment (e_uw (c_env c)) (item_patterns c) in_root t cm.
  Proof.
    intros s s' it t val HC Hi Ho Hd H. unfold target_handler in H. apply bind_ok in H as [x [s0 [H0 H]]]. apply item_ok in H0 as [-> H0].
    rewrite Hi in H0. inversion H0; subst x. rewrite Ho in H. simpl decode_obj in H. rewrite Hd in H. apply bind_ok in H as [o [s1 [H1 H]]].
    apply lift_ok in H1 as [-> H1]. simpl in H1. inversion H1; subst o. destruct (startswith t slash) eqn:Es; cbn [negb] in H.
    - apply startswith_spec in Es as [rest ->]. simpl tl in H. apply bind_ok in H as [b [s1 [H2 H]]].
      apply target_parts_spec in H2; auto.
      assert (G : good_target (e_uw (c_env c)) (item_patterns c) in_root (slash ++ rest) <->
        (Forall valid_part (split ch_slash rest) /\ forall x y, split ch_slash rest = x ++ y -> x <> [] -> in_root ([] ++ absolute x))).
      { split.
        - intros [parts [P1 [P2 [P3 [P4 P5]]]]]. rewrite <- (absolute_split rest parts P1 P2 P3). split; auto.
        - intros [P1 P2]. exists (split ch_slash rest). split; [apply split_nonnil|]. split; [rewrite split_absolute; reflexivity|].
          split; [|split; auto]. apply Forall_forall. intros x Hx. eapply split_parts_no_sep; eauto. }
      destruct b.
      + destruct H2 as [I1 [I2 [I3 I4]]]. apply bind_ok in H as [test [s2 [H3 H]]]. apply lift_ok in H3 as [-> H3].
        assert (X : test = true).
        { assert (Y : in_root ([] ++ absolute (split ch_slash rest))) by (apply (I4 _ [] (eq_sym (app_nil_r _)) (split_nonnil _ _))).
          simpl in Y. rewrite split_absolute in Y. unfold in_root in Y. change (47%N :: rest) with (slash ++ rest) in Y. congruence. }
        subst test. exists s1. do 2 eexists. split; auto. split; [exact H|]. split; [left; split; auto; apply G; auto|]. apply tc_found. apply G. auto.
      + destruct H2 as [[s2 [cm [I1 [I2 [a [p [r [J1 [J2 [J3 J4]]]]]]]]]] I3]. apply ret_ok in H as [-> _]. exists s2, ERROR, cm. split; auto. split; auto.
        split; [right; split; auto; rewrite G; auto|].
        assert (TE : slash ++ rest = absolute (a ++ p :: r)) by (rewrite <- J1, split_absolute; reflexivity).
        assert (NS : Forall (fun n => ~ In 47%N n) (a ++ p :: r)).
        { rewrite <- J1. apply Forall_forall. intros x Hx. eapply split_parts_no_sep; eauto. }
        destruct J4 as [[J4 ->]|[J4 [J5 ->]]].
        * eapply tc_name; eauto.
        * eapply tc_absent; eauto. apply Forall_app. split; auto.
    - exists s. do 2 eexists. split; [apply sbc_refl|]. split; [exact H|]. split; [|apply tc_relative; intros r ->; discriminate Es]. right. split; auto.
      intros [parts [P1 [P2 [P3 _]]]]. destruct parts as [|p parts]; [congruence|]. subst t. discriminate Es.
  Qed.
End Target.

Lemma target_shows : forall u w v fname v', validate u w v fname = (v', Ok tt) ->
  forall i it val t, listed v' i it -> it_obj it = OVal val -> it_addr it <> None -> it_name it = Some (py "target") ->
  decode_byte_string (u_env u) val = Ok (VStr t) ->
  let good := good_target (e_uw (u_env u)) (ctx_patterns u) (fun a => py_in w (open_root fname) (VStr a) = Ok true) t in
  exists st cm, shows v' i it (mkF (it_addr it) (py "attribute value") st cm) /\ ((st = OK /\ good) \/ (st = ERROR /\ ~ good))
    /\ target_comment (e_uw (u_env u)) (ctx_patterns u) (fun a => py_in w (open_root fname) (VStr a) = Ok true) t cm.
Proof.
  intros u w v fname v' H i it val t L Ho Ha Hn Hd good.
  destruct (attr_listed _ _ _ _ _ H _ _ _ L Ho Ha) as [p [pit [h [k [A1 [A2 [A3 [A4 [A5 [A6 A7]]]]]]]]]].
  destruct (attr_at _ _ _ _ _ H _ _ L) as [sm [sb O]]. destruct (ao_item _ _ _ _ _ _ _ _ _ O) as [it0 [Hi HS]].
  destruct (skel_eq _ _ HS) as [E1 [E2 [E3 [E4 [E5 E6]]]]].
  pose proof (ao_run _ _ _ _ _ _ _ _ _ O) as HR. unfold attribute_verify in HR. apply bind_ok in HR as [x [s0 [H0 HR]]]. apply item_ok in H0 as [-> H0].
  rewrite Hi in H0. inversion H0; subst x. rewrite E4, A6, E3, Hn in HR.
  assert (X : has_char ch_at (h_name h ++ ch_at :: k) = true) by (apply has_char_spec; apply in_or_app; right; left; reflexivity).
  rewrite X in HR. cbn [negb] in HR. change (str_eqb (py "target") (py "NX_class")) with false in HR. change (str_eqb (py "target") (py "target")) with true in HR. cbv iota in HR.
  assert (Ho0 : it_obj it0 = OVal val) by congruence.
  destruct (target_spec _ _ _ _ _ _ _ (ao_cache _ _ _ _ _ _ _ _ _ O) Hi Ho0 Hd HR) as [s1 [st [cm [B1 [B2 B3]]]]].
  exists st, cm. split; [|exact B3]. destruct (record_ok _ _ _ _ _ _ _ B2) as [it1 [C1 [C2 _]]].
  rewrite (proj1 B1), Hi in C1. inversion C1; subst it1. rewrite E4 in C2.
  assert (T : trace sm [ERec i (mkF (it_addr it) ATTR_TEST st cm)] sb) by (exact (trace_app _ _ _ _ _ (sbc_trace _ _ B1) C2)).
  eapply attr_shows; [exact O|exact T| | | |]; simpl; auto. repeat constructor.
Qed.

Lemma target_comment_ext : forall uw pats (P Q : pystr -> Prop) t cm, (forall a, P a <-> Q a) -> target_comment uw pats P t cm -> target_comment uw pats Q t cm.
Proof.
  intros uw pats P Q t cm H C. destruct C as [C|a p b C1 C2 C3 C4 C5|a p b C1 C2 C3 C4 C5|C].
  - apply tc_relative; auto.
  - eapply tc_name; eauto. intros x y E Hx. apply H. eauto.
  - eapply tc_absent; eauto; [|rewrite <- H; auto]. intros x y E Hx. apply H. eauto.
  - apply tc_found. destruct C as [parts [P1 [P2 [P3 [P4 P5]]]]]. exists parts. repeat (split; auto). intros x y E Hx. apply H. eauto.
Qed.

Lemma good_target_ext : forall uw pats (P Q : pystr -> Prop) t, (forall a, P a <-> Q a) -> (good_target uw pats P t <-> good_target uw pats Q t).
Proof.
  intros uw pats P Q t H. split; intros [parts [P1 [P2 [P3 [P4 P5]]]]]; exists parts; repeat split; auto; intros a b E Hne; apply H; eauto.
Qed.

(** ** Running the checks of an attribute with a given name *)
Lemma attr_start : forall u w v fname v', validate u w v fname = (v', Ok tt) ->
  forall i it val name, listed v' i it -> it_obj it = OVal val -> it_addr it <> None -> it_name it = Some name ->
  exists sm sb it0 p pit pit0 h, attr_of u w v fname v' i it sm sb /\ nth_error (st_items sm) i = Some it0 /\ it_obj it0 = OVal val
    /\ it_addr it0 = it_addr it /\ it_parent it = Some p /\ it_parent it0 = Some p /\ listed v' p pit /\ it_obj pit = ONode h
    /\ nth_error (st_items sm) p = Some pit0 /\ it_obj pit0 = ONode h
    /\ (if str_eqb name (py "NX_class") then nxclass_handler (mk_ctx u w fname) i
        else if str_eqb name (py "target") then target_handler (mk_ctx u w fname) i
        else if str_eqb name (py "signal") then signal_handler (mk_ctx u w fname) i
        else if str_eqb name (py "axes") then axes_handler (mk_ctx u w fname) i
        else generic_handler (mk_ctx u w fname) i) sm = (sb, Ok tt).
Proof.
  intros u w v fname v' H i it val name L Ho Ha Hn.
  destruct (attr_listed _ _ _ _ _ H _ _ _ L Ho Ha) as [p [pit [h [k [A1 [A2 [A3 [A4 [A5 [A6 A7]]]]]]]]]].
  destruct (attr_at _ _ _ _ _ H _ _ L) as [sm [sb O]]. destruct (ao_item _ _ _ _ _ _ _ _ _ O) as [it0 [Hi HS]].
  destruct (skel_eq _ _ HS) as [E1 [E2 [E3 [E4 [E5 E6]]]]].
  destruct (ao_other _ _ _ _ _ _ _ _ _ O _ _ A2) as [pit0 [P1 P2]]. destruct (skel_eq _ _ P2) as [G1 [G2 _]].
  pose proof (ao_run _ _ _ _ _ _ _ _ _ O) as HR. unfold attribute_verify in HR. apply bind_ok in HR as [x [s0 [H0 HR]]]. apply item_ok in H0 as [-> H0].
  rewrite Hi in H0. inversion H0; subst x. rewrite E4, A6, E3, Hn in HR.
  assert (X : has_char ch_at (h_name h ++ ch_at :: k) = true) by (apply has_char_spec; apply in_or_app; right; left; reflexivity).
  rewrite X in HR. cbn [negb] in HR.
  exists sm, sb, it0, p, pit, pit0, h. repeat (split; [congruence || auto|]). exact HR.
Qed.

Lemma listed_fun : forall v i a b, listed v i a -> listed v i b -> a = b.
Proof. intros v i a b [A _] [B _]. congruence. Qed.

Lemma isHdf5Group_obj : forall w h, isHdf5Group w h = true -> is_group_obj w h = true.
Proof. intros w h H. unfold isHdf5Group in H. apply andb_true_iff in H. tauto. Qed.
Lemma group_not_dataset : forall w h, isHdf5Group w h = true -> isHdf5Dataset w h = false.
Proof.
  intros w h H. apply isHdf5Group_obj in H. unfold is_group_obj in H. unfold isHdf5Dataset. destruct (obj_of w h) as [o|]; [|discriminate].
  destruct (ob_kind o); auto; discriminate.
Qed.
Lemma group_in : forall w h s, is_group_obj w h = true -> py_in w h (VStr s) = Ok (contains w h s).
Proof.
  intros w h s H. unfold is_group_obj in H. unfold py_in. destruct (obj_of w h) as [o|]; [|discriminate].
  destruct (ob_kind o); auto; discriminate.
Qed.

Lemma signal_findings : forall u w v fname v', validate u w v fname = (v', Ok tt) ->
  forall i it val s p pit h, listed v' i it -> it_obj it = OVal val -> it_addr it <> None -> it_name it = Some (py "signal") ->
  it_parent it = Some p -> listed v' p pit -> it_obj pit = ONode h -> isHdf5Group w h = true ->
  decode_byte_string (u_env u) val = Ok (VStr s) ->
  exists st1 cm1 st2 cm2, shows v' i it (mkF (it_addr it) (py "valid name @signal=" ++ s) st1 cm1) /\ name_status (e_uw (u_env u)) (ctx_patterns u) s st1
    /\ name_comment (e_uw (u_env u)) (ctx_patterns u) (py "not a valid NeXus name") s cm1
    /\ shows v' i it (mkF (it_addr it) (py "attribute value") st2 cm2)
    /\ ((st2 = OK /\ contains w h s = true /\ cm2 = py "found: @signal=" ++ s) \/ (st2 = ERROR /\ contains w h s = false /\ cm2 = py "not found: @signal=" ++ s))
    /\ (own_address v' i -> attribute_findings v' (it_addr it) = [mkF (it_addr it) (py "valid name @signal=" ++ s) st1 cm1; mkF (it_addr it) (py "attribute value") st2 cm2]).
Proof.
  intros u w v fname v' H i it val s p pit h L Ho Ha Hn Hp Lp Hpo Hg Hd.
  destruct (attr_start _ _ _ _ _ H _ _ _ _ L Ho Ha Hn) as [sm [sb [it0 [p' [pit' [pit0 [h' [O [Hi [Ho0 [Ha0 [Hp' [Hp0 [Lp' [Hpo' [Hi' [Hpo0 HR]]]]]]]]]]]]]]]]].
  rewrite Hp in Hp'. inversion Hp'; subst p'. rewrite (listed_fun _ _ _ _ Lp' Lp) in *. rewrite Hpo in Hpo'. inversion Hpo'; subst h'. clear Hp' Hpo' Lp'.
  change (str_eqb (py "signal") (py "NX_class")) with false in HR. change (str_eqb (py "signal") (py "target")) with false in HR.
  change (str_eqb (py "signal") (py "signal")) with true in HR. cbv iota in HR.
  set (c := mk_ctx u w fname) in *.
  unfold signal_handler in HR. apply bind_ok in HR as [x [s0 [H0 HR]]]. apply item_ok in H0 as [-> H0]. rewrite Hi in H0. inversion H0; subst x.
  rewrite Ho0 in HR. simpl decode_obj in HR. rewrite Hd in HR. apply bind_ok in HR as [o [s1 [H1 HR]]]. apply lift_ok in H1 as [-> H1]. simpl in H1. inversion H1; subst o.
  unfold parent_item in HR. rewrite Hp0 in HR. apply bind_ok in HR as [x [s1 [H2 HR]]]. apply item_ok in H2 as [-> H2]. rewrite Hi' in H2. inversion H2; subst x.
  rewrite Hpo0 in HR. cbn [hobj_isdataset hobj_isgroup] in HR. change (c_world c) with w in HR. rewrite (group_not_dataset _ _ Hg), Hg in HR.
  apply bind_ok in HR as [k [s1 [H3 HR]]]. change (match_key_text c s sm = (s1, Ok k)) in H3.
  pose proof (match_key_same _ _ _ _ _ H3) as HS. apply match_key_ok in H3 as [HC1 HK]; [|apply (ao_cache _ _ _ _ _ _ _ _ _ O)].
  apply bind_ok in HR as [tn [s2 [H4 HR]]]. apply lift_ok in H4 as [-> H4]. cbn [concat_text] in H4. inversion H4; subst tn; clear H4.
  pose proof (verdict_status _ _ _ HK) as VS. pose proof (verdict_text _ _ _ HK) as VT. destruct (name_verdict k) as [st txt]. cbn [fst] in VS. cbn [snd] in VT.
  apply bind_ok in HR as [[] [s2 [R1 HR]]]. apply bind_ok in HR as [test [s3 [H5 HR]]]. apply lift_ok in H5 as [-> H5]. cbn [hobj_in] in H5.
  rewrite (group_in _ _ _ (isHdf5Group_obj _ _ Hg)) in H5. inversion H5; subst test.
  apply bind_ok in HR as [cmt [s3 [H6 HR]]]. apply lift_ok in H6 as [-> H6]. cbn [concat_text] in H6.
  destruct (record_ok _ _ _ _ _ _ _ R1) as [i1 [N1 [T1 _]]]. rewrite (proj1 HS), Hi in N1. inversion N1; subst i1. rewrite Ha0 in T1.
  assert (T01 := trace_app _ _ _ _ _ (sbc_trace _ _ HS) T1). simpl in T01.
  destruct (record_ok _ _ _ _ _ _ _ HR) as [i2 [N2 [T2 _]]]. destruct (trace_item _ _ _ _ _ T01 Hi) as [i3 [N3 S3]]. rewrite N2 in N3. inversion N3; subst i3.
  rewrite (skel_addr _ _ S3), Ha0 in T2. assert (T := trace_app _ _ _ _ _ T01 T2). simpl in T.
  assert (F : Forall (on_item attr_key i) [ERec i (mkF (it_addr it) (py "valid name @signal=" ++ s) st txt); ERec i (mkF (it_addr it) ATTR_TEST (TF_RESULT (contains w h s)) cmt)]).
  { constructor; [split; auto|]. constructor; [split; auto|constructor]. }
  exists st, txt, (TF_RESULT (contains w h s)), cmt.
  assert (D1 : str_eqb (py "valid name @signal=" ++ s) ATTR_TEST = false) by reflexivity.
  assert (D2 : str_eqb ATTR_TEST (py "valid name @signal=" ++ s) = false) by reflexivity.
  split; [|split; [exact VS|split; [exact VT|split; [|split]]]].
  - eapply attr_shows; [exact O|exact T|exact F|left; reflexivity| |reflexivity]. cbn [recs flat_map rec_of app filter f_test named].
    unfold named. cbn [f_test]. rewrite str_eqb_refl, D2. reflexivity.
  - eapply attr_shows; [exact O|exact T|exact F|right; left; reflexivity| |reflexivity]. cbn [recs flat_map rec_of app filter f_test named].
    reflexivity.
  - destruct (contains w h s); [left|right]; (split; [reflexivity|split; [reflexivity|inversion H6; reflexivity]]).
  - intros HU. rewrite (ao_all _ _ _ _ _ _ _ _ _ O _ T F HU). reflexivity.
Qed.

(** ** @axes *)
Definition can_get (w : world) (h : handle) (n : pystr) : Prop := exists t, getitem w h n = Ok t.

Lemma axis_spec : forall c i h n s s' it, cache_ok c s -> nth_error (st_items s) i = Some it -> isHdf5Group (c_world c) h = true ->
  axis_check c i (ONode h) (OVal (VStr n)) s = (s', Ok tt) ->
  n <> [] /\ cache_ok c s' /\ exists log, trace s log s' /\ Forall (on_item attr_key i) log /\ Forall (fun f => f_test f <> ATTR_TEST) (recs log)
    /\ axis_findings (e_uw (c_env c)) (item_patterns c) (it_addr it) (can_get (c_world c) h) n (recs log).
Proof.
  intros c i h n s s' it HC Hi Hg H.
  assert (HC' : cache_ok c s').
  { assert (L : logs c (on_item attr_key i) (axis_check c i (ONode h) (OVal (VStr n)))) by (unfold axis_check; lg; done_key).
    destruct (logs_run _ _ _ _ _ _ _ L H) as [lm [T1 [F1 R1]]]. apply (proj1 R1). auto. }
  unfold axis_check in H. apply bind_ok in H as [k [s1 [H1 H]]]. change (match_key_text c n s = (s1, Ok k)) in H1.
  pose proof (match_key_same _ _ _ _ _ H1) as HS. apply match_key_ok in H1 as [HC1 HK]; auto.
  pose proof (verdict_status _ _ _ HK) as VS. pose proof (verdict_text _ _ _ HK) as VT. destruct (name_verdict k) as [st txt]. cbn [fst] in VS. cbn [snd] in VT. cbn [hobj_str py_str] in H.
  apply bind_ok in H as [[] [s2 [R1 H]]]. apply bind_ok in H as [b [s3 [G H]]]. apply lift_ok in G as [-> G].
  cbn [hobj_get] in G. rewrite (isHdf5Group_obj _ _ Hg) in G. unfold getopt in G.
  assert (Hn : n <> []). { intros ->. simpl in G. discriminate. }
  assert (P : (b = true /\ can_get (c_world c) h n) \/ (b = false /\ ~ can_get (c_world c) h n)).
  { unfold can_get. destruct (getitem (c_world c) h n) as [t|e]; [inversion G; left; split; eauto|]. right. destruct e; inversion G. split; auto.
    intros [t X]. discriminate. }
  destruct (record_ok _ _ _ _ _ _ _ R1) as [i1 [N1 [T1 _]]]. rewrite (proj1 HS), Hi in N1. inversion N1; subst i1.
  assert (T01 := trace_app _ _ _ _ _ (sbc_trace _ _ HS) T1). simpl in T01.
  destruct (record_ok _ _ _ _ _ _ _ H) as [i2 [N2 [T2 _]]]. destruct (trace_item _ _ _ _ _ T01 Hi) as [i3 [N3 S3]]. rewrite N2 in N3. inversion N3; subst i3.
  rewrite (skel_addr _ _ S3) in T2. assert (T := trace_app _ _ _ _ _ T01 T2). simpl in T.
  split; auto. split; auto. eexists. split; [exact T|]. split; [constructor; [split; auto|constructor; [split; auto|constructor]]|].
  split; [constructor; [discriminate|constructor; [discriminate|constructor]]|].
  do 4 eexists. split; [reflexivity|]. split; auto. split; auto. destruct P as [[-> P]|[-> P]]; [left|right]; auto.
Qed.

Lemma axes_findings : forall u w v fname v', validate u w v fname = (v', Ok tt) ->
  forall i it val l p pit h, listed v' i it -> it_obj it = OVal val -> it_addr it <> None -> it_name it = Some (py "axes") ->
  it_parent it = Some p -> listed v' p pit -> it_obj pit = ONode h -> isHdf5Group w h = true ->
  (decode_byte_string (u_env u) val = Ok (VList l) \/ exists n, decode_byte_string (u_env u) val = Ok (VStr n) /\ l = [n]) ->
  Forall (fun n => n <> []) l /\
  exists fss, Forall2 (axis_findings (e_uw (u_env u)) (ctx_patterns u) (it_addr it) (can_get w h)) l fss
    /\ (forall f, In f (List.concat fss) -> In f (st_find (v_st v')))
    /\ shows v' i it (mkF (it_addr it) (py "attribute value") TODO (py "implement"))
    /\ (own_address v' i -> attribute_findings v' (it_addr it) = List.concat fss ++ [mkF (it_addr it) (py "attribute value") TODO (py "implement")]).
Proof.
  intros u w v fname v' H i it val l p pit h L Ho Ha Hn Hp Lp Hpo Hg Hd.
  destruct (attr_start _ _ _ _ _ H _ _ _ _ L Ho Ha Hn) as [sm [sb [it0 [p' [pit' [pit0 [h' [O [Hi [Ho0 [Ha0 [Hp' [Hp0 [Lp' [Hpo' [Hi' [Hpo0 HR]]]]]]]]]]]]]]]]].
  rewrite Hp in Hp'. inversion Hp'; subst p'. rewrite (listed_fun _ _ _ _ Lp' Lp) in *. rewrite Hpo in Hpo'. inversion Hpo'; subst h'. clear Hp' Hpo' Lp'.
  change (str_eqb (py "axes") (py "NX_class")) with false in HR. change (str_eqb (py "axes") (py "target")) with false in HR.
  change (str_eqb (py "axes") (py "signal")) with false in HR. change (str_eqb (py "axes") (py "axes")) with true in HR. cbv iota in HR.
  set (c := mk_ctx u w fname) in *.
  unfold axes_handler in HR. apply bind_ok in HR as [x [s0 [H0 HR]]]. apply item_ok in H0 as [-> H0]. rewrite Hi in H0. inversion H0; subst x.
  rewrite Ho0 in HR. apply bind_ok in HR as [o [s1 [H1 HR]]]. apply lift_ok in H1 as [-> H1]. simpl in H1.
  assert (Hax : axes_values o = map (fun n => OVal (VStr n)) l).
  { destruct Hd as [Hd|[n [Hd ->]]]; rewrite Hd in H1; inversion H1; reflexivity. }
  rewrite Hax in HR. clear Hax H1.
  unfold parent_item in HR. rewrite Hp0 in HR. apply bind_ok in HR as [x [s1 [H2 HR]]]. apply item_ok in H2 as [-> H2]. rewrite Hi' in H2. inversion H2; subst x.
  rewrite Hpo0 in HR. apply bind_ok in HR as [[] [s1 [H3 HR]]].
  set (I := fun s => cache_ok c s /\ exists jt, nth_error (st_items s) i = Some jt /\ it_addr jt = it_addr it).
  set (Q := fun (o : hobj) (log : list event) => exists n, o = OVal (VStr n) /\ n <> [] /\ Forall (on_item attr_key i) log /\ Forall (fun f => f_test f <> ATTR_TEST) (recs log)
     /\ axis_findings (e_uw (c_env c)) (item_patterns c) (it_addr it) (can_get (c_world c) h) n (recs log)).
  destruct (for_each_ok _ (fun a => axis_check c i (ONode h) a) I Q (map (fun n => OVal (VStr n)) l) sm s1 tt) as [I1 [lgs [T1 F1]]]; auto.
  { intros o' sx sy [] Hin [J1 [jt [J2 J3]]] HX. apply in_map_iff in Hin as [n [<- Hin]].
    destruct (axis_spec c i h n sx sy jt J1 J2 Hg HX) as [K1 [K2 [log [K3 [K4 [K5 K6]]]]]]. split.
    - split; auto. destruct (trace_item _ _ _ _ _ K3 J2) as [jt' [M1 M2]]. exists jt'. split; auto. rewrite (skel_addr _ _ M2). auto.
    - exists log. split; auto. exists n. rewrite J3 in K6. auto. }
  { split; [apply (ao_cache _ _ _ _ _ _ _ _ _ O)|]. exists it0. auto. }
  destruct I1 as [_ [jt [J2 J3]]]. destruct (record_ok _ _ _ _ _ _ _ HR) as [i2 [N2 [T2 _]]]. rewrite J2 in N2. inversion N2; subst i2. rewrite J3 in T2.
  assert (T := trace_app _ _ _ _ _ T1 T2).
  assert (FQ : Forall (fun n => n <> []) l /\ Forall (on_item attr_key i) (List.concat lgs) /\ Forall (fun f => f_test f <> ATTR_TEST) (recs (List.concat lgs))
    /\ Forall2 (axis_findings (e_uw (c_env c)) (item_patterns c) (it_addr it) (can_get (c_world c) h)) l (map recs lgs)).
  { clear - F1. revert lgs F1. induction l as [|n l IH]; intros lgs F; inversion F; subst; simpl; [repeat split; constructor|].
    destruct H1 as [n' [E [Q1 [Q2 [Q3 Q4]]]]]. inversion E; subst n'. destruct (IH _ H3) as [A1 [A2 [A3 A4]]].
    rewrite recs_app. split; [constructor; auto|]. split; [apply Forall_app; auto|]. split; [apply Forall_app; auto|constructor; auto]. }
  destruct FQ as [Q1 [Q2 [Q3 Q4]]]. split; auto. exists (map recs lgs).
  assert (RC : recs (List.concat lgs) = List.concat (map recs lgs)).
  { clear. induction lgs; simpl; auto. rewrite recs_app. f_equal. auto. }
  assert (F : Forall (on_item attr_key i) (List.concat lgs ++ [ERec i (mkF (it_addr it) ATTR_TEST TODO (py "implement"))])).
  { apply Forall_app. split; auto. constructor; [split; auto|constructor]. }
  split; auto. split; [|split].
  - intros f Hf. apply (ao_in _ _ _ _ _ _ _ _ _ O _ _ T). rewrite recs_app, RC. apply in_or_app. auto.
  - eapply attr_shows; [exact O|exact T|exact F| | |reflexivity]; rewrite recs_app; [apply in_or_app; right; left; reflexivity|].
    rewrite filter_app, filter_none.
    + cbn [recs flat_map rec_of app filter f_test]. unfold named. cbn [f_test]. change (py "attribute value") with ATTR_TEST. rewrite str_eqb_refl. reflexivity.
    + eapply Forall_impl; [|exact Q3]. intros f Hf. unfold named. apply str_eqb_neq. exact Hf.
  - intros HU. rewrite (ao_all _ _ _ _ _ _ _ _ _ O _ T F HU), recs_app, RC. reflexivity.
Qed.

(** ** Files whose objects are all reached by hard and soft links *)
Lemma run_open : forall u w v fname v', validate u w v fname = (v', Ok tt) -> all_open w fname.
Proof.
  intros u w v fname v' H. destruct (validate_decompose _ _ _ _ _ H) as [_ [_ [_ [s1 [s2 [s3 [s4 [l1 [l2 [l3 [l4 R]]]]]]]]]]].
  apply (build_ok_conditions (mk_ctx u w fname) _ _ fname eq_refl (ro_build _ _ _ _ _ _ _ _ _ _ _ R)).
Qed.

Lemma listed_reachable : forall u w v fname v', validate u w v fname = (v', Ok tt) ->
  forall i it h, listed v' i it -> it_obj it = ONode h -> reachable w fname h.
Proof.
  intros u w v fname v' H i it h L Ho. destruct (validate_decompose _ _ _ _ _ H) as [_ [_ [_ [s1 [s2 [s3 [s4 [l1 [l2 [l3 [l4 R]]]]]]]]]]].
  destruct (listed_start _ _ _ _ _ _ _ _ _ _ _ R _ _ L) as [it0 [Hi0 HS]]. destruct (skel_eq _ _ HS) as [_ [E _]]. rewrite E in Ho.
  apply below_chain. apply (proj1 (cinv_sound _ _ (ro_inv _ _ _ _ _ _ _ _ _ _ _ R) _ _ Hi0) _ Ho).
Qed.

Section PlainRun.
  Variables (u : setup) (w : world) (v : validator) (fname : pystr) (v' : validator) (f : h5file).
  Hypothesis Hrun : validate u w v fname = (v', Ok tt).
  Hypothesis Hfile : dget fname w = Some (FHdf5 f).
  Hypothesis Hplain : plain_file f.

  Lemma run_known : forall i it h, listed v' i it -> it_obj it = ONode h -> known w fname h.
  Proof. intros i it h L Ho. eapply reachable_known; eauto. eapply listed_reachable; eauto. Qed.

  Lemma plain_target : is_group f 0 ->
    forall i it val t, listed v' i it -> it_obj it = OVal val -> it_addr it <> None -> it_name it = Some (py "target") ->
    decode_byte_string (u_env u) val = Ok (VStr t) ->
    let good := good_target (e_uw (u_env u)) (ctx_patterns u) (leads_somewhere f 0) t in
    exists st cm, shows v' i it (mkF (it_addr it) (py "attribute value") st cm) /\ ((st = OK /\ good) \/ (st = ERROR /\ ~ good))
    /\ target_comment (e_uw (u_env u)) (ctx_patterns u) (leads_somewhere f 0) t cm.
  Proof.
    intros Hg i it val t L Ho Ha Hn Hd good. destruct (target_shows _ _ _ _ _ Hrun _ _ _ _ L Ho Ha Hn Hd) as [st [cm [A B]]]. exists st, cm. split; auto.
    assert (G : is_group_obj w (open_root fname) = true).
    { destruct Hg as [ob [links [E1 E2]]]. unfold is_group_obj, obj_of, open_root, get_obj. simpl h_file. simpl h_oid. rewrite Hfile, E1, E2. reflexivity. }
    assert (EX : forall a, leads_somewhere f 0 a <-> py_in w (open_root fname) (VStr a) = Ok true).
    { intros a. rewrite (group_in _ _ _ G). rewrite <- (contains_leads w fname f Hfile Hplain (run_open _ _ _ _ _ Hrun) (open_root fname) a).
      - split; [intros ->; reflexivity|intros X; inversion X; reflexivity].
      - split; auto. exists (open_root fname). split; auto. exists 0. constructor. }
    assert (E : good <-> good_target (e_uw (u_env u)) (ctx_patterns u) (fun a => py_in w (open_root fname) (VStr a) = Ok true) t) by (apply good_target_ext; exact EX).
    rewrite E. destruct B as [B1 B2]. split; auto. eapply target_comment_ext; [|exact B2]. intros a. symmetry. apply EX.
  Qed.

  Lemma plain_signal : forall i it val s p pit h, listed v' i it -> it_obj it = OVal val -> it_addr it <> None -> it_name it = Some (py "signal") ->
    it_parent it = Some p -> listed v' p pit -> it_obj pit = ONode h -> isHdf5Group w h = true -> decode_byte_string (u_env u) val = Ok (VStr s) ->
    exists st1 cm1 st2 cm2, shows v' i it (mkF (it_addr it) (py "valid name @signal=" ++ s) st1 cm1) /\ name_status (e_uw (u_env u)) (ctx_patterns u) s st1
    /\ name_comment (e_uw (u_env u)) (ctx_patterns u) (py "not a valid NeXus name") s cm1
      /\ shows v' i it (mkF (it_addr it) (py "attribute value") st2 cm2)
      /\ ((st2 = OK /\ leads_somewhere f (h_oid h) s /\ cm2 = py "found: @signal=" ++ s) \/ (st2 = ERROR /\ ~ leads_somewhere f (h_oid h) s /\ cm2 = py "not found: @signal=" ++ s))
      /\ (own_address v' i -> attribute_findings v' (it_addr it) = [mkF (it_addr it) (py "valid name @signal=" ++ s) st1 cm1; mkF (it_addr it) (py "attribute value") st2 cm2]).
  Proof.
    intros i it val s p pit h L Ho Ha Hn Hp Lp Hpo Hg Hd.
    destruct (signal_findings _ _ _ _ _ Hrun _ _ _ _ _ _ _ L Ho Ha Hn Hp Lp Hpo Hg Hd) as [st1 [cm1 [st2 [cm2 [A1 [A2 [A2' [A3 [A4 A5]]]]]]]]].
    exists st1, cm1, st2, cm2. split; auto. split; auto. split; auto. split; auto. split; auto.
    rewrite <- (contains_leads w fname f Hfile Hplain (run_open _ _ _ _ _ Hrun) h s (run_known _ _ _ Lp Hpo)).
    destruct A4 as [[-> [-> ->]]|[-> [-> ->]]]; auto.
  Qed.

  Lemma can_get_leads : forall h n, known w fname h -> n <> [] -> (can_get w h n <-> leads_somewhere f (h_oid h) n).
  Proof.
    intros h n Hk Hn. destruct (getopt_leads w fname f Hfile Hplain (run_open _ _ _ _ _ Hrun) h n Hk Hn) as [o [E1 E2]]. rewrite <- E2.
    unfold can_get, getopt in *. destruct (getitem w h n) as [t|e].
    - inversion E1; subst. split; eauto.
    - split; [intros [t X]; discriminate|]. destruct e; inversion E1; subst. discriminate.
  Qed.

  Lemma plain_axes : forall i it val l p pit h, listed v' i it -> it_obj it = OVal val -> it_addr it <> None -> it_name it = Some (py "axes") ->
    it_parent it = Some p -> listed v' p pit -> it_obj pit = ONode h -> isHdf5Group w h = true ->
    (decode_byte_string (u_env u) val = Ok (VList l) \/ exists n, decode_byte_string (u_env u) val = Ok (VStr n) /\ l = [n]) ->
    exists fss, Forall2 (axis_findings (e_uw (u_env u)) (ctx_patterns u) (it_addr it) (leads_somewhere f (h_oid h))) l fss
      /\ (forall g, In g (List.concat fss) -> In g (st_find (v_st v')))
      /\ shows v' i it (mkF (it_addr it) (py "attribute value") TODO (py "implement"))
      /\ (own_address v' i -> attribute_findings v' (it_addr it) = List.concat fss ++ [mkF (it_addr it) (py "attribute value") TODO (py "implement")]
            /\ List.length (attribute_findings v' (it_addr it)) = 2 * List.length l + 1).
  Proof.
    intros i it val l p pit h L Ho Ha Hn Hp Lp Hpo Hg Hd.
    destruct (axes_findings _ _ _ _ _ Hrun _ _ _ _ _ _ _ L Ho Ha Hn Hp Lp Hpo Hg Hd) as [Hne [fss [A1 [A2 [A3 A4]]]]].
    exists fss. split; [|split; [auto|split; [auto|]]].
    - clear - Hne A1 Hrun Hfile Hplain Lp Hpo. induction A1 as [|n fs l fss H1 H2 IH]; [constructor|]. inversion Hne; subst. constructor; auto.
      destruct H1 as [st1 [cm1 [st2 [cm2 [B1 [B2 [B2' B3]]]]]]]. exists st1, cm1, st2, cm2. split; auto. split; auto. split; auto.
      rewrite <- (can_get_leads h n (run_known _ _ _ Lp Hpo) H3). auto.
    - intros HU. rewrite (A4 HU). split; auto. rewrite app_length. cbn [List.length].
      assert (X : List.length (List.concat fss) = 2 * List.length l).
      { clear - A1. induction A1 as [|n fs l fss H1 H2 IH]; auto. simpl List.concat. rewrite app_length, IH. destruct H1 as [st1 [cm1 [st2 [cm2 [-> _]]]]]. simpl. lia. }
      lia.
  Qed.
End PlainRun.
