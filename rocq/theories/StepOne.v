(** * One item's checks in a completed validation *)

From Coq Require Import List NArith ZArith Bool String Lia.
From Verif Require Import PyBase PyFacts Regex Utf8 H5 Findings Nxdl Core Catalog ItemName AttributeCheck
  GroupChecks AppDef DefaultPlot Validate Trace CheckFacts CatalogFacts Spec_Run RunFacts NameRun.
Import ListNotations.

Definition key1 (t : pystr) : bool := name_key t || attr_key t.

Definition named (t : pystr) (f : finding) : bool := str_eqb (f_test f) t.

Lemma filter_ext_in' : forall A (p q : A -> bool) l, Forall (fun x => p x = q x) l -> filter p l = filter q l.
Proof. induction 1 as [|x l H HF IH]; simpl; auto. rewrite H, IH. reflexivity. Qed.

Lemma log_addr_at : forall log items i it, log_ok items log -> nth_error items i = Some it -> Forall (on_item key1 i) log ->
  Forall (fun f => f_addr f = it_addr it) (recs log).
Proof.
  induction log as [|e log IH]; intros items i it HO Hi HF; [constructor|]. destruct HO as [H1 H2]. inversion HF; subst.
  destruct e as [n|j f]; simpl in *; [tauto|]. destruct H3 as [-> _]. destruct H1 as [it' [A B]]. rewrite Hi in A. inversion A; subst it'.
  constructor; auto. rewrite <- (skel_addr (add_val f it) it eq_refl). eapply IH; eauto. apply update_nth_same. auto.
Qed.

(** findings of an item's own checks, by any property of their test names *)
Lemma visit_filter_q : forall c cl s1 s2 s3 s4 s5 l1 l2 l3 l4, run_ok c cl s1 s2 s3 s4 s5 l1 l2 l3 l4 ->
  forall i it sa sb la li lb, visit c s1 s2 i it sa sb la li lb ->
  nth_error (st_items s1) i = Some it -> unique_item (st_items s1) i ->
  forall q, (forall t, q t = true -> key1 t = true) ->
  filter (fun f => ostr_eqb (f_addr f) (it_addr it) && q (f_test f)) (st_find s5) = filter (fun f => q (f_test f)) (recs li).
Proof.
  intros c cl s1 s2 s3 s4 s5 l1 l2 l3 l4 R i it sa sb la li lb V Hi HU q Hq.
  assert (U : forall j jt, nth_error (st_items s1) j = Some jt -> it_addr jt = it_addr it -> j = i).
  { intros j jt Hj Ha. eapply HU; eauto. }
  assert (K : forall K l, Forall (fun f => K (f_test f) = true) l -> (forall t, K t = true -> group_key t || app_key t || step4_key t = true) ->
    filter (fun f => ostr_eqb (f_addr f) (it_addr it) && q (f_test f)) l = []).
  { intros K l HF HK. apply filter_none. eapply Forall_impl; [|exact HF]. simpl. intros f Hf. destruct (q (f_test f)) eqn:E; [|apply andb_false_r].
    pose proof (key1_later _ (Hq _ E)) as X. rewrite (HK _ Hf) in X. discriminate. }
  assert (A : forall l, Forall (fun f => f_addr f <> it_addr it) l -> filter (fun f => ostr_eqb (f_addr f) (it_addr it) && q (f_test f)) l = []).
  { intros l HF. apply filter_none. eapply Forall_impl; [|exact HF]. simpl. intros f Hf. destruct (ostr_eqb (f_addr f) (it_addr it)) eqn:E; auto.
    apply ostr_eqb_eq in E. congruence. }
  rewrite (tr_find _ _ _ (ro_t4 _ _ _ _ _ _ _ _ _ _ _ R)), (tr_find _ _ _ (ro_t3 _ _ _ _ _ _ _ _ _ _ _ R)),
    (tr_find _ _ _ (ro_t2 _ _ _ _ _ _ _ _ _ _ _ R)).
  rewrite !filter_app.
  rewrite (K group_key (recs l2)); [|apply recs_keys; apply with_key_new_of; apply R|intros t ->; reflexivity].
  rewrite (K app_key (recs l3)); [|apply recs_keys; apply R|intros t ->; rewrite orb_true_r; reflexivity].
  rewrite (K step4_key (recs l4)); [|apply recs_keys; apply with_key_new_of; apply R|intros t ->; rewrite !orb_true_r; reflexivity].
  rewrite !app_nil_r.
  rewrite (tr_find _ _ _ (vs_b _ _ _ _ _ _ _ _ _ _ V)), (tr_find _ _ _ (vs_i _ _ _ _ _ _ _ _ _ _ V)),
    (tr_find _ _ _ (vs_a _ _ _ _ _ _ _ _ _ _ V)), (ro_find _ _ _ _ _ _ _ _ _ _ _ R).
  rewrite !filter_app. simpl.
  assert (NN : forall K l, Forall (on_item K i) l -> Forall (fun e => match e with ENew _ => False | ERec _ _ => True end) l).
  { intros K0 l H. eapply Forall_impl; [|exact H]. intros [n|j f]; simpl; tauto. }
  assert (NE : forall l, Forall (elsewhere i) l -> Forall (fun e => match e with ENew _ => False | ERec _ _ => True end) l).
  { intros l H. eapply Forall_impl; [|exact H]. intros [n|j f]; simpl; tauto. }
  pose proof (vs_ea _ _ _ _ _ _ _ _ _ _ V) as Ea. pose proof (vs_eb _ _ _ _ _ _ _ _ _ _ V) as Eb.
  pose proof (vs_on _ _ _ _ _ _ _ _ _ _ V) as Eo.
  pose proof (trace_unique _ _ _ i (it_addr it) (vs_a _ _ _ _ _ _ _ _ _ _ V) (NE _ Ea) U) as Ua.
  pose proof (trace_unique _ _ _ i (it_addr it) (vs_i _ _ _ _ _ _ _ _ _ _ V) (NN _ _ Eo) Ua) as Ub.
  rewrite (A (recs la)) by (exact (log_addrs _ _ _ _ (tr_ok _ _ _ (vs_a _ _ _ _ _ _ _ _ _ _ V)) U Ea)).
  rewrite (A (recs lb)) by (exact (log_addrs _ _ _ _ (tr_ok _ _ _ (vs_b _ _ _ _ _ _ _ _ _ _ V)) Ub Eb)).
  rewrite app_nil_r. simpl. apply filter_ext_in'. pose proof (log_addr_at _ _ _ _ (tr_ok _ _ _ (vs_i _ _ _ _ _ _ _ _ _ _ V)) (vs_item _ _ _ _ _ _ _ _ _ _ V) Eo) as X.
  eapply Forall_impl; [|exact X]. simpl. intros f Hf. rewrite Hf, (proj2 (ostr_eqb_eq _ _) eq_refl). reflexivity.
Qed.

Record step1_of (u : setup) (w : world) (v : validator) (fname : pystr) (v' : validator) (i : nat) (it it0 : vitem) (sa sb : vstate) : Prop := mkStep1 {
  so_run : check_item (mk_ctx u w fname) i sa = (sb, Ok tt);
  so_item : nth_error (st_items sa) i = Some it0;
  so_skel : skel it = skel it0;
  so_vals : it_vals it0 = [];
  so_cache : cache_ok (mk_ctx u w fname) sa;
  so_classes : strip_classes (st_classes sa) = strip_classes (st_classes (v_st v));
  so_items : forall j jt, nth_error (st_items sa) j = Some jt -> exists jt', listed v' j jt' /\ skel jt' = skel jt;
  so_listed : forall j jt', listed v' j jt' -> exists jt, nth_error (st_items sa) j = Some jt /\ skel jt' = skel jt;
  so_shows : forall li, trace sa li sb -> Forall (on_item key1 i) li ->
    forall t, key1 t = true -> dget t (it_vals it) = last_rec t i li
      /\ (own_address v' i -> findings_for v' (it_addr it) t = filter (named t) (recs li));
  so_all : forall li, trace sa li sb -> Forall (on_item key1 i) li -> own_address v' i ->
    forall q, (forall t, q t = true -> key1 t = true) ->
    filter (fun f => ostr_eqb (f_addr f) (it_addr it) && q (f_test f)) (st_find (v_st v')) = filter (fun f => q (f_test f)) (recs li);
  so_in : forall f li, trace sa li sb -> In f (recs li) -> In f (st_find (v_st v'))
}.

Lemma step1_at : forall u w v fname v', validate u w v fname = (v', Ok tt) -> forall i it, listed v' i it ->
  exists it0 sa sb, step1_of u w v fname v' i it it0 sa sb.
Proof.
  intros u w v fname v' H i it L.
  destruct (listed_visit _ _ _ _ _ H _ _ L) as [s1 [s2 [s3 [s4 [l1 [l2 [l3 [l4 [it0 [sa [sb [la [li [lb [R [Hi [HS [Hv V]]]]]]]]]]]]]]]]]].
  exists it0, sa, sb. constructor; auto; try apply V.
  - rewrite (vs_cl _ _ _ _ _ _ _ _ _ _ V), (ro_cl _ _ _ _ _ _ _ _ _ _ _ R). reflexivity.
  - intros j jt Hj. assert (X : exists jt1, nth_error (st_items s1) j = Some jt1 /\ skel jt = skel jt1).
    { pose proof (vs_a _ _ _ _ _ _ _ _ _ _ V) as T. destruct (nth_error (st_items s1) j) as [jt1|] eqn:E.
      - destruct (trace_item _ _ _ _ _ T E) as [jt2 [A B]]. exists jt1. split; auto. congruence.
      - exfalso. assert (LL : List.length (st_items sa) = List.length (st_items s1)).
        { rewrite (tr_items _ _ _ T). pose proof (vs_ea _ _ _ _ _ _ _ _ _ _ V) as HF. clear - HF. generalize (st_items s1).
          induction HF as [|e log H HF IH]; simpl; intros; auto. destruct e; [destruct H|]. simpl. rewrite IH. apply update_nth_length. }
        apply nth_error_None in E. rewrite <- LL in E. apply nth_error_None in E. congruence. }
    destruct X as [jt1 [Hj1 Hs1]]. destruct (listed_end _ _ _ _ _ _ _ _ _ _ _ R _ _ Hj1) as [jt' [A B]]. exists jt'. split; auto. congruence.
  - intros j jt' Lj. destruct (listed_start _ _ _ _ _ _ _ _ _ _ _ R _ _ Lj) as [jt0 [A B]].
    destruct (trace_item _ _ _ _ _ (vs_a _ _ _ _ _ _ _ _ _ _ V) A) as [jt1 [C D]]. exists jt1. split; auto. congruence.
  - intros li' T F t Ht. assert (V' : visit (mk_ctx u w fname) s1 s2 i it0 sa sb la li' lb) by (eapply visit_change; eauto).
    destruct (visit_final _ _ _ _ _ _ _ _ _ _ _ R _ _ _ _ _ _ _ V' t Ht) as [it' [N [S D]]].
    destruct L as [L _]. rewrite N in L. inversion L; subst it'. split.
    + rewrite D, Hv. destruct (last_rec t i li'); reflexivity.
    + intros HU. unfold findings_for. rewrite (skel_addr _ _ HS).
      change (fun f0 : finding => ostr_eqb (f_addr f0) (it_addr it0) && str_eqb (f_test f0) t) with (at_test (it_addr it0) t).
      rewrite (visit_filter _ _ _ _ _ _ _ _ _ _ _ R _ _ _ _ _ _ _ V' Hi (own_unique _ _ _ _ _ _ _ _ _ _ _ R _ HU) _ Ht).
      apply filter_ext_in'. pose proof (log_addr_at _ _ _ _ (tr_ok _ _ _ T) (vs_item _ _ _ _ _ _ _ _ _ _ V) F) as X.
      eapply Forall_impl; [|exact X]. intros f Hf. unfold at_test, named. rewrite Hf, (proj2 (ostr_eqb_eq _ _) eq_refl). reflexivity.
  - intros li' T F HU q Hq. assert (V' : visit (mk_ctx u w fname) s1 s2 i it0 sa sb la li' lb) by (eapply visit_change; eauto).
    rewrite (skel_addr _ _ HS).
    apply (visit_filter_q _ _ _ _ _ _ _ _ _ _ _ R _ _ _ _ _ _ _ V' Hi (own_unique _ _ _ _ _ _ _ _ _ _ _ R _ HU) _ Hq).
  - intros f li' T Hf. destruct (trace_prefix _ _ _ (vs_b _ _ _ _ _ _ _ _ _ _ V)) as [p1 P1].
    destruct (trace_prefix _ _ _ (ro_t2 _ _ _ _ _ _ _ _ _ _ _ R)) as [p2 P2].
    destruct (trace_prefix _ _ _ (ro_t3 _ _ _ _ _ _ _ _ _ _ _ R)) as [p3 P3].
    destruct (trace_prefix _ _ _ (ro_t4 _ _ _ _ _ _ _ _ _ _ _ R)) as [p4 P4].
    rewrite P4, P3, P2, P1, (tr_find _ _ _ T). rewrite !in_app_iff. tauto.
Qed.

(** the log of one check *)
Lemma step1_log : forall u w v fname v' i it it0 sa sb, step1_of u w v fname v' i it it0 sa sb ->
  exists li, trace sa li sb /\ Forall (on_item key1 i) li.
Proof. intros. destruct (logs_run _ _ _ _ _ _ _ (check_item_logs _ i) (so_run _ _ _ _ _ _ _ _ _ _ H)) as [li [T [F _]]]. eauto. Qed.

(** ** At most one finding of a kind *)
Definition adds {A} (t : pystr) (n : nat) (m : M A) : Prop :=
  forall s, exists x, st_find (fst (m s)) = st_find s ++ x /\ (List.length (filter (named t) x) <= n)%nat.

Lemma adds_id : forall A t (m : M A), (forall s, st_find (fst (m s)) = st_find s) -> adds t 0 m.
Proof. intros A t m H s. exists []. rewrite H, app_nil_r. auto. Qed.
Lemma adds_weaken : forall A t n k (m : M A), adds t n m -> (n <= k)%nat -> adds t k m.
Proof. intros A t n k m H Hn s. destruct (H s) as [x [A1 A2]]. exists x. split; auto. lia. Qed.
Lemma adds_bind : forall A B t n k (m : M A) (f : A -> M B), adds t n m -> (forall a, adds t k (f a)) -> adds t (n + k) (bind m f).
Proof.
  intros A B t n k m f Hm Hf s. destruct (Hm s) as [x [E L]]. unfold bind. destruct (m s) as [s1 [a|e]]; simpl in *.
  - destruct (Hf a s1) as [y [E2 L2]]. exists (x ++ y). split; [rewrite E2, E, app_assoc; reflexivity|].
    rewrite filter_app, app_length. lia.
  - exists x. split; auto. lia.
Qed.
Lemma adds_record : forall t i k st cm, adds t (if str_eqb k t then 1 else 0) (record_finding i k st cm).
Proof.
  intros t i k st cm s. unfold record_finding, bind, item. destruct (nth_error (st_items s) i) as [it|]; simpl.
  - eexists. split; [reflexivity|]. simpl. unfold named. simpl. destruct (str_eqb k t); simpl; lia.
  - exists []. rewrite app_nil_r. split; auto. simpl. lia.
Qed.
Lemma adds_for_each : forall A t (f : A -> M unit) l, (forall x, adds t 0 (f x)) -> adds t 0 (for_each f l).
Proof.
  induction l; simpl; intros; [apply adds_id; reflexivity|]. apply (adds_bind _ _ t 0 0); auto.
Qed.
Lemma adds_match_key : forall c t o, adds t 0 (validItemName_match_key c o).
Proof.
  intros. apply adds_id. intros s. destruct (validItemName_match_key c o s) as [s' r] eqn:E. apply match_key_same in E.
  destruct E as [_ [E _]]. exact E.
Qed.
Lemma adds_first_match : forall c t o l, adds t 0 (first_match c o l).
Proof.
  intros. apply adds_id. intros s. destruct (first_match c o l s) as [s' r] eqn:E. apply first_match_same in E.
  destruct E as [_ [E _]]. exact E.
Qed.
Lemma adds_item : forall t i, adds t 0 (item i).
Proof. intros. apply adds_id. intros. unfold item. destruct (nth_error _ _); reflexivity. Qed.
Lemma adds_ret : forall A t (a : A), adds t 0 (ret a).
Proof. intros. apply adds_id. reflexivity. Qed.
Lemma adds_raise : forall A t e, adds t 0 (@raise A e).
Proof. intros. apply adds_id. reflexivity. Qed.
Lemma adds_lift : forall A t (r : res A), adds t 0 (lift r).
Proof. intros. apply adds_id. reflexivity. Qed.
Lemma adds_get : forall t, adds t 0 get.
Proof. intros. apply adds_id. reflexivity. Qed.
Lemma adds_bind0 : forall A B t n (m : M A) (f : A -> M B), adds t 0 m -> (forall a, adds t n (f a)) -> adds t n (bind m f).
Proof. intros. apply (adds_bind _ _ t 0 n); auto. Qed.
Lemma adds_bind_lift : forall A B t n (r : res A) (f : A -> M B), (forall a, r = Ok a -> adds t n (f a)) -> adds t n (bind (lift r) f).
Proof.
  intros A B t n r f H s. unfold bind, lift. destruct r as [a|e]; simpl; [apply (H a eq_refl s)|].
  exists []. rewrite app_nil_r. split; auto. simpl. lia.
Qed.
Lemma adds_0 : forall A t n (m : M A), adds t 0 m -> adds t n m.
Proof. intros. eapply adds_weaken; eauto. lia. Qed.

Ltac ad_step :=
  match goal with
  | |- adds _ _ (bind (lift _) _) => apply adds_bind_lift; intros ? ?
  | |- adds _ _ (bind (item _) _) => apply adds_bind0; [apply adds_item|intros]
  | |- adds _ _ (bind get _) => apply adds_bind0; [apply adds_get|intros]
  | |- adds _ _ (bind (raise _) _) => apply adds_bind0; [apply adds_raise|intros]
  | |- adds _ _ (bind (ret _) _) => apply adds_bind0; [apply adds_ret|intros]
  | |- adds _ _ (bind (validItemName_match_key _ _) _) => apply adds_bind0; [apply adds_match_key|intros]
  | |- adds _ _ (bind (match_key_text _ _) _) => apply adds_bind0; [apply adds_match_key|intros]
  | |- adds _ _ (bind (first_match _ _ _) _) => apply adds_bind0; [apply adds_first_match|intros]
  | |- adds _ _ (bind (bind _ _) _) => apply adds_bind0; [|intros]
  | |- adds _ _ (bind (match ?x with _ => _ end) _) => destruct x
  | |- adds _ _ (ret _) => apply adds_0, adds_ret
  | |- adds _ _ (raise _) => apply adds_0, adds_raise
  | |- adds _ _ (lift _) => apply adds_0, adds_lift
  | |- adds _ _ (match ?x with _ => _ end) => destruct x
  | |- adds _ _ (let '(_, _) := ?x in _) => destruct x
  end.

Lemma target_parts_adds : forall c t i parts addr, adds t (if str_eqb ATTR_TEST t then 1 else 0) (target_parts c i addr parts).
Proof.
  induction parts as [|p parts IH]; intros addr; cbn [target_parts]; repeat ad_step; auto;
    eapply adds_weaken; [apply adds_bind; [apply adds_record|intros; apply adds_ret]|lia| |];
    try (apply adds_bind; [apply adds_record|intros; apply adds_ret]); lia.
Qed.

(** going through the components records nothing *)
Lemma target_parts_through : forall c i parts addr s s' b, target_parts c i addr parts s = (s', Ok b) -> b = true -> st_find s' = st_find s.
Proof.
  induction parts as [|p parts IH]; intros addr s s' b H Hb; cbn [target_parts] in H; inv_ok; auto.
  match goal with H : match_key_text _ _ _ = _ |- _ => apply match_key_same in H as [_ [E _]] end.
  destruct x; inv_ok.
  - destruct x; inv_ok; [|discriminate]. rewrite (IH _ _ _ _ H Hb). auto.
  - discriminate.
Qed.

Lemma item_name_adds : forall c i t, adds t (if str_eqb TEST_NAME t then 1 else 0) (item_name_verify c i).
Proof.
  intros c i t. unfold item_name_verify, handle_NX_class, handle_any_attribute, handle_groups_and_fields, match_key_name.
  repeat ad_step; try apply adds_record.
Qed.

Lemma target_adds : forall c i, adds ATTR_TEST 1 (target_handler c i).
Proof.
  intros c i. unfold target_handler. repeat ad_step; try (apply (adds_record ATTR_TEST)).
  intros s0. pose proof (target_parts_adds c ATTR_TEST i (split ch_slash (tl s)) [] s0) as X.
  unfold bind at 1. destruct (target_parts c i [] _ s0) as [s1 [b|e]] eqn:E; auto. destruct b.
  - apply target_parts_through in E; auto. destruct (py_in _ _ _) as [b|]; cbn [bind lift].
    + destruct (adds_record ATTR_TEST i ATTR_TEST (TF_RESULT b) ((if b then py "found" else py "not found") ++ py ": @target=" ++ s) s1) as [y [Y1 Y2]].
      exists y. rewrite <- E. split; [exact Y1|exact Y2].
    + exists []. rewrite app_nil_r. split; [exact E|simpl; lia].
  - exact X.
Qed.

Lemma signal_adds : forall c i, adds ATTR_TEST 1 (signal_handler c i).
Proof.
  intros c i. unfold signal_handler, generic_handler, parent_item. repeat ad_step; try (apply (adds_record ATTR_TEST)).
  all: apply (adds_bind _ _ ATTR_TEST 0 1); [|intros; repeat ad_step; apply (adds_record ATTR_TEST)].
  all: eapply adds_weaken; [apply adds_record|].
  all: match goal with H : concat_text _ ?v = Ok _ |- _ => destruct v; inversion H; subst end.
  all: match goal with |- ((if ?b then _ else _) <= 0)%nat => replace b with false; [lia|] end.
  all: symmetry; apply str_eqb_neq; discriminate.
Qed.

Lemma axis_adds : forall c i p o, adds ATTR_TEST 0 (axis_check c i p o).
Proof.
  intros c i p o. unfold axis_check. repeat ad_step;
    (apply (adds_bind _ _ ATTR_TEST 0 0); [|intros; repeat ad_step]; try (eapply adds_weaken; [apply adds_record|]; simpl; lia)).
Qed.

Lemma attribute_adds : forall c i, adds ATTR_TEST 1 (attribute_verify c i).
Proof.
  intros c i. unfold attribute_verify, nxclass_handler, axes_handler, generic_handler, parent_item.
  repeat ad_step; try (apply (adds_record ATTR_TEST)); try apply target_adds; try apply signal_adds.
  all: apply (adds_bind _ _ ATTR_TEST 0 1); [apply adds_for_each; intros; apply axis_adds|intros; apply (adds_record ATTR_TEST)].
Qed.

Lemma attribute_no_names : forall c i, adds TEST_NAME 0 (attribute_verify c i).
Proof.
  intros c i s. destruct (logs_run _ _ _ _ _ _ _ (attribute_verify_logs c i) (surjective_pairing (attribute_verify c i s))) as [log [T [F _]]].
  exists (recs log). split; [apply (tr_find _ _ _ T)|]. rewrite filter_none; auto.
  clear T. induction F as [|e log H HF IH]; simpl; [constructor|]. destruct e as [n|j f]; simpl in *; [tauto|]. constructor; auto.
  unfold named. apply str_eqb_neq. apply name_attr_disjoint. tauto.
Qed.
Lemma item_name_no_values : forall c i, adds ATTR_TEST 0 (item_name_verify c i).
Proof. intros. apply (item_name_adds c i ATTR_TEST). Qed.

Lemma check_item_adds : forall c i t, t = TEST_NAME \/ t = ATTR_TEST -> adds t 1 (check_item c i).
Proof.
  intros c i t [-> | ->]; unfold check_item.
  - apply (adds_bind _ _ TEST_NAME 1 0); [apply (item_name_adds c i TEST_NAME)|intros; apply attribute_no_names].
  - apply (adds_bind _ _ ATTR_TEST 0 1); [apply item_name_no_values|intros; apply attribute_adds].
Qed.

(** ** In the final state *)
Lemma last_rec_filter : forall t i li, Forall (on_item key1 i) li ->
  last_rec t i li = match rev (filter (named t) (recs li)) with f :: _ => Some f | [] => None end.
Proof.
  intros t i li H. induction li as [|e li IH] using rev_ind; auto. apply Forall_app in H as [H1 H2]. inversion H2; subst.
  rewrite last_rec_app, recs_app, filter_app, rev_app_distr. destruct e as [n|j f]; simpl in *; [tauto|]. destruct H3 as [-> _].
  rewrite Nat.eqb_refl. unfold named at 1. simpl. destruct (str_eqb (f_test f) t); simpl; auto.
Qed.

Lemma once_per_item : forall u w v fname v', validate u w v fname = (v', Ok tt) ->
  forall i it t, listed v' i it -> own_address v' i -> t = TEST_NAME \/ t = ATTR_TEST ->
  findings_for v' (it_addr it) t = match dget t (it_vals it) with Some f => [f] | None => [] end.
Proof.
  intros u w v fname v' H i it t L HU Ht. destruct (step1_at _ _ _ _ _ H _ _ L) as [it0 [sa [sb S]]].
  destruct (step1_log _ _ _ _ _ _ _ _ _ _ S) as [li [T F]].
  assert (Hk : key1 t = true) by (destruct Ht as [-> | ->]; reflexivity).
  destruct (so_shows _ _ _ _ _ _ _ _ _ _ S li T F t Hk) as [D E]. rewrite (E HU), D, (last_rec_filter _ _ _ F).
  destruct (check_item_adds (mk_ctx u w fname) i t Ht sa) as [x [X1 X2]]. rewrite (so_run _ _ _ _ _ _ _ _ _ _ S) in X1. simpl in X1.
  rewrite (tr_find _ _ _ T) in X1. apply app_inv_head in X1. rewrite X1.
  destruct (filter (named t) x) as [|f [|g l]]; auto. simpl in X2. lia.
Qed.

Lemma error_visible : forall u w v fname v', validate u w v fname = (v', Ok tt) ->
  forall i it f, listed v' i it -> own_address v' i -> In f (st_find (v_st v')) -> f_addr f = it_addr it ->
  f_test f = TEST_NAME \/ f_test f = ATTR_TEST -> dget (f_test f) (it_vals it) = Some f.
Proof.
  intros u w v fname v' H i it f L HU Hf Ha Ht. pose proof (once_per_item _ _ _ _ _ H _ _ _ L HU Ht) as X.
  assert (Y : In f (findings_for v' (it_addr it) (f_test f))).
  { unfold findings_for. apply filter_In. split; auto. rewrite Ha, (proj2 (ostr_eqb_eq _ _) eq_refl), (proj2 (str_eqb_eq _ _) eq_refl). reflexivity. }
  rewrite X in Y. destruct (dget _ _) as [g|]; [|destruct Y]. destruct Y as [->|[]]. reflexivity.
Qed.
