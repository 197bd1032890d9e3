(** * Name checks in a completed validation *)

From Coq Require Import List NArith ZArith Bool String Lia Permutation.
From Verif Require Import PyBase PyFacts Regex RegexFacts Utf8 H5 Findings Nxdl Core Catalog ItemName AttributeCheck
  GroupChecks AppDef DefaultPlot Validate Trace CheckFacts CatalogFacts Spec_Names Spec_Run NameFacts RunFacts.
Import ListNotations.

(** ** Listed items *)
Lemma listed_start : forall c cl s1 s2 s3 s4 v' l1 l2 l3 l4, run_ok c cl s1 s2 s3 s4 (v_st v') l1 l2 l3 l4 ->
  forall i it', listed v' i it' -> exists it, nth_error (st_items s1) i = Some it /\ skel it' = skel it.
Proof.
  intros c cl s1 s2 s3 s4 v' l1 l2 l3 l4 R i it' [Hi [k [l [Hk Hl]]]].
  assert (T : exists log, trace s1 log (v_st v')).
  { exists (l1 ++ l2 ++ l3 ++ l4). eapply trace_app; [apply R|]. eapply trace_app; [apply R|]. eapply trace_app; apply R. }
  destruct T as [log T]. rewrite (tr_cp _ _ _ T) in Hk.
  destruct (ci_cpof _ _ (ro_inv _ _ _ _ _ _ _ _ _ _ _ R) _ _ _ Hk Hl) as [it [H1 H2]].
  exists it. split; auto. destruct (trace_item _ _ _ _ _ T H1) as [it2 [H3 H4]]. congruence.
Qed.

Lemma run_trace : forall c cl s1 s2 s3 s4 s5 l1 l2 l3 l4, run_ok c cl s1 s2 s3 s4 s5 l1 l2 l3 l4 ->
  exists log, trace s1 log s5.
Proof.
  intros c cl s1 s2 s3 s4 s5 l1 l2 l3 l4 R. exists (l1 ++ l2 ++ l3 ++ l4).
  eapply trace_app; [apply R|]. eapply trace_app; [apply R|]. eapply trace_app; apply R.
Qed.

Lemma listed_end : forall c cl s1 s2 s3 s4 v' l1 l2 l3 l4, run_ok c cl s1 s2 s3 s4 (v_st v') l1 l2 l3 l4 ->
  forall i it, nth_error (st_items s1) i = Some it -> exists it', listed v' i it' /\ skel it' = skel it.
Proof.
  intros c cl s1 s2 s3 s4 v' l1 l2 l3 l4 R i it Hi. destruct (run_trace _ _ _ _ _ _ _ _ _ _ _ R) as [log T].
  destruct (trace_item _ _ _ _ _ T Hi) as [it' [H1 H2]]. exists it'. split; auto. split; auto.
  rewrite (tr_cp _ _ _ T).
  assert (Hin : In i (List.concat (dvals (st_cp s1)))).
  { eapply Permutation_in; [apply Permutation_sym; apply (ci_cpperm _ _ (ro_inv _ _ _ _ _ _ _ _ _ _ _ R))|].
    apply in_seq. split; [lia|]. simpl. apply nth_error_Some. congruence. }
  apply in_concat in Hin as [l [Hl Hil]]. unfold dvals in Hl. apply in_map_iff in Hl as [[k l'] [Hkl Hin]].
  simpl in Hkl. subst. eauto.
Qed.

Lemma own_unique : forall c cl s1 s2 s3 s4 v' l1 l2 l3 l4, run_ok c cl s1 s2 s3 s4 (v_st v') l1 l2 l3 l4 ->
  forall i, own_address v' i -> unique_item (st_items s1) i.
Proof.
  intros c cl s1 s2 s3 s4 v' l1 l2 l3 l4 R i HO it j jt Hi Hj Ha.
  destruct (listed_end _ _ _ _ _ _ _ _ _ _ _ R _ _ Hi) as [it' [Li Si]].
  destruct (listed_end _ _ _ _ _ _ _ _ _ _ _ R _ _ Hj) as [jt' [Lj Sj]].
  eapply HO; eauto. rewrite (skel_addr _ _ Si), (skel_addr _ _ Sj). auto.
Qed.

(** a finding recorded once during the visit of an item is what the item shows *)
Lemma visit_shows : forall c cl s1 s2 s3 s4 v' l1 l2 l3 l4, run_ok c cl s1 s2 s3 s4 (v_st v') l1 l2 l3 l4 ->
  forall i it sa sb la li lb, visit c s1 s2 i it sa sb la li lb ->
  nth_error (st_items s1) i = Some it ->
  forall x f y, li = x ++ ERec i f :: y ->
  Forall (fun e => match e with ERec _ g => f_test g <> f_test f | ENew _ => True end) (x ++ y) ->
  exists it', nth_error (st_items (v_st v')) i = Some it' /\ skel it' = skel it /\ shows v' i it' f.
Proof.
  intros c cl s1 s2 s3 s4 v' l1 l2 l3 l4 R i it sa sb la li lb V Hi x f y El Ho.
  pose proof (vs_on _ _ _ _ _ _ _ _ _ _ V) as Hon.
  assert (Hkey : name_key (f_test f) || attr_key (f_test f) = true).
  { rewrite El, Forall_app in Hon. destruct Hon as [_ Hon]. inversion Hon; subst. simpl in H1. tauto. }
  destruct (visit_final _ _ _ _ _ _ _ _ _ _ _ R _ _ _ _ _ _ _ V _ Hkey) as [it' [N [S D]]].
  exists it'. split; auto. split; auto.
  apply Forall_app in Ho as [Ox Oy].
  assert (Lr : last_rec (f_test f) i li = Some f).
  { rewrite El, last_rec_app. simpl. rewrite last_rec_none.
    - rewrite Nat.eqb_refl. rewrite (proj2 (str_eqb_eq _ _) eq_refl). reflexivity.
    - eapply Forall_impl; [|exact Oy]. intros [n|j g]; simpl; auto. }
  assert (Ha : f_addr f = it_addr it).
  { pose proof (tr_ok _ _ _ (vs_i _ _ _ _ _ _ _ _ _ _ V)) as HO. rewrite El in HO. apply log_ok_app in HO as [_ HO].
    destruct HO as [[jt [H1 H2]] _]. rewrite H2.
    destruct (apply_log_skel x _ _ _ (vs_item _ _ _ _ _ _ _ _ _ _ V)) as [it2 [H3 H4]].
    rewrite H3 in H1. inversion H1; subst. apply skel_addr. auto. }
  split; [rewrite D, Lr; auto|]. split; [rewrite Ha; symmetry; apply skel_addr; auto|]. split.
  - destruct (trace_prefix _ _ _ (vs_b _ _ _ _ _ _ _ _ _ _ V)) as [p1 P1].
    destruct (trace_prefix _ _ _ (ro_t2 _ _ _ _ _ _ _ _ _ _ _ R)) as [p2 P2].
    destruct (trace_prefix _ _ _ (ro_t3 _ _ _ _ _ _ _ _ _ _ _ R)) as [p3 P3].
    destruct (trace_prefix _ _ _ (ro_t4 _ _ _ _ _ _ _ _ _ _ _ R)) as [p4 P4].
    rewrite P4, P3, P2, P1, (tr_find _ _ _ (vs_i _ _ _ _ _ _ _ _ _ _ V)), El, recs_app. simpl.
    rewrite !in_app_iff. simpl. tauto.
  - intros HU. unfold findings_for. rewrite (skel_addr _ _ S).
    change (fun f0 : finding => _) with (at_test (it_addr it) (f_test f)).
    rewrite (visit_filter _ _ _ _ _ _ _ _ _ _ _ R _ _ _ _ _ _ _ V Hi (own_unique _ _ _ _ _ _ _ _ _ _ _ R _ HU) _ Hkey).
    rewrite El, recs_app, filter_app. simpl.
    assert (K : forall l, Forall (fun e => match e with ERec _ g => f_test g <> f_test f | ENew _ => True end) l ->
      filter (at_test (it_addr it) (f_test f)) (recs l) = []).
    { intros l H. apply filter_none. induction H as [|e l H HF IH]; simpl; [constructor|].
      destruct e; simpl; auto. constructor; auto. unfold at_test.
      apply str_eqb_neq in H. rewrite H. apply andb_false_r. }
    rewrite (K _ Ox), (K _ Oy). simpl. unfold at_test. rewrite Ha, (proj2 (str_eqb_eq _ _) eq_refl).
    rewrite (proj2 (ostr_eqb_eq _ _) eq_refl). reflexivity.
Qed.

Lemma visit_change : forall c s1 s2 i it sa sb la li lb li', visit c s1 s2 i it sa sb la li lb ->
  trace sa li' sb -> Forall (on_item (fun t => name_key t || attr_key t) i) li' -> visit c s1 s2 i it sa sb la li' lb.
Proof. intros c s1 s2 i it sa sb la li lb li' [] H1 H2. constructor; auto. Qed.

(** the two halves of a visit *)
Lemma visit_halves : forall c s1 s2 i it sa sb la li lb, visit c s1 s2 i it sa sb la li lb ->
  exists sm lm ln, item_name_verify c i sa = (sm, Ok tt) /\ attribute_verify c i sm = (sb, Ok tt)
    /\ trace sa lm sm /\ trace sm ln sb /\ Forall (on_item name_key i) lm /\ Forall (on_item attr_key i) ln
    /\ cache_ok c sm /\ visit c s1 s2 i it sa sb la (lm ++ ln) lb.
Proof.
  intros c s1 s2 i it sa sb la li lb V. pose proof (vs_run _ _ _ _ _ _ _ _ _ _ V) as H.
  unfold check_item in H. apply bind_ok in H as [[] [sm [H1 H2]]].
  destruct (logs_run _ _ _ _ _ _ _ (item_name_verify_logs c i) H1) as [lm [T1 [F1 R1]]].
  destruct (logs_run _ _ _ _ _ _ _ (attribute_verify_logs c i) H2) as [ln [T2 [F2 R2]]].
  exists sm, lm, ln. split; auto. split; auto. split; auto. split; auto. split; auto. split; auto. split.
  - apply (proj1 R1). apply (vs_cache _ _ _ _ _ _ _ _ _ _ V).
  - eapply visit_change; eauto.
    + eapply trace_app; eauto.
    + apply Forall_app. split; eapply Forall_impl; try eassumption; intros [n|j f]; simpl; auto;
        intros [-> ->]; rewrite ?orb_true_r; auto.
Qed.

Lemma name_attr_disjoint : forall t, attr_key t = true -> t <> TEST_NAME.
Proof. intros t H ->. discriminate. Qed.

(** the name check recorded exactly one finding *)
Lemma name_shows : forall c cl s1 s2 s3 s4 v' l1 l2 l3 l4, run_ok c cl s1 s2 s3 s4 (v_st v') l1 l2 l3 l4 ->
  forall i it sa sb la li lb, visit c s1 s2 i it sa sb la li lb ->
  nth_error (st_items s1) i = Some it ->
  forall sm st cm, record_finding i TEST_NAME st cm sm = (fst (item_name_verify c i sa), Ok tt) ->
  st_items sm = st_items sa -> st_find sm = st_find sa -> st_addr sm = st_addr sa -> st_cp sm = st_cp sa ->
  exists it', nth_error (st_items (v_st v')) i = Some it' /\ skel it' = skel it
    /\ shows v' i it' (mkF (it_addr it) TEST_NAME st cm).
Proof.
  intros c cl s1 s2 s3 s4 v' l1 l2 l3 l4 R i it sa sb la li lb V Hi sm st cm HR E1 E2 E3 E4.
  destruct (visit_halves _ _ _ _ _ _ _ _ _ _ V) as [sn [lm [ln [H1 [H2 [T1 [T2 [F1 [F2 [HC V2]]]]]]]]]].
  rewrite H1 in HR. simpl in HR. destruct (record_ok _ _ _ _ _ _ _ HR) as [it0 [N0 [T0 _]]].
  rewrite E1, (vs_item _ _ _ _ _ _ _ _ _ _ V) in N0. inversion N0; subst it0.
  assert (T3 : trace sa ([ERec i (mkF (it_addr it) TEST_NAME st cm)] ++ ln) sb).
  { eapply trace_app; [|exact T2]. destruct T0 as [A B C D E]. rewrite E1, E2, E3, E4 in *. constructor; auto. }
  refine (visit_shows _ _ _ _ _ _ _ _ _ _ _ R _ _ _ _ _ _ _ (visit_change _ _ _ _ _ _ _ _ _ _ _ V T3 _) Hi [] _ ln eq_refl _).
  - constructor; [simpl; auto|]. eapply Forall_impl; [|exact F2]. intros [n|j f]; simpl; auto.
    intros [-> ->]. rewrite orb_true_r. auto.
  - simpl. eapply Forall_impl; [|exact F2]. intros [n|j f]; simpl; auto. intros [_ H]. apply name_attr_disjoint. auto.
Qed.

(** ** first_match changes nothing but the cache *)
Definition same_but_cache (s s' : vstate) : Prop :=
  st_items s' = st_items s /\ st_find s' = st_find s /\ st_addr s' = st_addr s /\ st_cp s' = st_cp s /\ st_classes s' = st_classes s.
Lemma sbc_refl : forall s, same_but_cache s s.
Proof. unfold same_but_cache. auto 10. Qed.
Lemma sbc_trans : forall a b c, same_but_cache a b -> same_but_cache b c -> same_but_cache a c.
Proof. unfold same_but_cache. intuition congruence. Qed.

Lemma cached_same : forall k p s s' r, cached_regexp k p s = (s', r) -> same_but_cache s s'.
Proof.
  intros k p s s' r H. unfold cached_regexp in H. destruct (dget k (st_cache s)).
  - inversion H. apply sbc_refl.
  - destruct (re_compile p); inversion H; subst; unfold same_but_cache; simpl; auto 10.
Qed.
Lemma first_match_same : forall c o pats s s' r, first_match c o pats s = (s', r) -> same_but_cache s s'.
Proof.
  induction pats as [|[k p] pats IH]; cbn [first_match]; intros s s' r H.
  - inversion H. apply sbc_refl.
  - unfold bind at 1 in H. destruct (cached_regexp k p s) as [s1 [re|e]] eqn:E; apply cached_same in E; [|inversion H; subst; auto].
    eapply sbc_trans; [exact E|].
    unfold bind, lift in H. destruct (decode_obj (c_env c) o) as [o'|]; [|inversion H; apply sbc_refl].
    destruct (match_value (c_env c) re o') as [b|]; [|inversion H; apply sbc_refl].
    destruct b; [inversion H; apply sbc_refl | eauto].
Qed.
Lemma match_key_same : forall c o s s' r, validItemName_match_key c o s = (s', r) -> same_but_cache s s'.
Proof.
  intros c o s s' r H. unfold validItemName_match_key, bind in H.
  destruct (first_match c o (getValidItemNamePatterns c) s) as [s1 [m|e]] eqn:E; apply first_match_same in E; inversion H; subst; auto.
Qed.

(** ** Last component *)
Lemma last_component_spec : forall a,
  last_component a (if str_eqb a slash then slash else last_part ch_slash a).
Proof.
  intros a. destruct (str_eqb_spec a slash) as [->|H]; [left; auto|]. right. split; auto.
  unfold last_part.
  destruct (exists_last (split_nonnil ch_slash a)) as [ws [x E]]. rewrite E, last_last. split.
  - apply (split_parts_no_sep ch_slash a). rewrite E. apply in_or_app. right. left. auto.
  - pose proof (join_split ch_slash a) as J. rewrite E in J. destruct ws as [|w ws].
    + left. simpl in J. auto.
    + right. clear - J. revert a J. generalize dependent w. induction ws as [|w' ws IH]; intros w a J.
      * simpl in J. exists w. rewrite <- J. reflexivity.
      * simpl in J. destruct (IH w' _ eq_refl) as [d Hd]. simpl in Hd. rewrite <- J.
        exists (w ++ ch_slash :: d). rewrite <- app_assoc. simpl. unfold ch_slash in *. rewrite <- Hd. reflexivity.
Qed.

(** ** What the name check does for groups and fields *)
Lemma first_match_node : forall c h pats s s' m, first_match c (ONode h) pats s = (s', Ok m) -> pats = [] /\ m = None.
Proof.
  intros c h [|[k p] pats] s s' m H; cbn [first_match] in H; inv_ok; auto.
  simpl in *. inversion H1; subst. simpl in H2. discriminate.
Qed.

Lemma handle_NX_class_node : forall c i s s' u it h, nth_error (st_items s) i = Some it -> it_obj it = ONode h ->
  handle_NX_class c i s = (s', Ok u) -> False.
Proof.
  intros c i s s' u it h Hi Ho H. unfold handle_NX_class in H. inv_ok.
  rewrite Hi in H0. inversion H0; subst. rewrite Ho in *.
  match goal with H : first_match _ _ _ _ = _ |- _ => apply first_match_node in H as [E ->] end.
  match goal with H : enum_patterns 0 ?l = [] |- _ => destruct l; [|discriminate] end.
  simpl in H. inv_ok.
Qed.


Lemma handle_groups_ok : forall c i s s' u it n, cache_ok c s -> nth_error (st_items s) i = Some it -> it_name it = Some n ->
  handle_groups_and_fields c i s = (s', Ok u) ->
  exists sm st cm, record_finding i TEST_NAME st cm sm = (s', Ok tt) /\ same_but_cache s sm /\
   (if contains_sub (it_cp it) (py "NXcollection") then st = WARN /\ cm = py "NXcollection contains non-NeXus content"
    else name_status (e_uw (c_env c)) (item_patterns c) n st
      /\ name_comment (e_uw (c_env c)) (item_patterns c) (py "valid HDF5 item name, not valid with NeXus") n cm).
Proof.
  intros c i s s' u it n HC Hi Hn H. destruct u. unfold handle_groups_and_fields in H. inv_ok.
  rewrite Hi in H0. inversion H0; subst x. rewrite Hn in *. cbn [match_key_name] in *.
  match goal with H : match_key_text _ _ _ = _ |- _ => pose proof (match_key_same _ _ _ _ _ H) as HS; apply match_key_ok in H as [HC1 HK]; [|auto] end.
  destruct (contains_sub (it_cp it) (py "NXcollection")).
  - do 3 eexists. split; [exact H|]. split; auto.
  - pose proof (verdict_comment _ _ _ (py "valid HDF5 item name, not valid with NeXus") HK) as NC.
    destruct HK as [[Hs ->]|[[Hs [p [-> Hp]]]|[Hs [Hr ->]]]]; cbv iota in NC.
    + change (startswith STRICT_KEY (py "strict")) with true in H. cbv iota in H.
      do 3 eexists. split; [exact H|]. split; auto. split; [apply ns_ok|]; auto.
    + change (startswith (py "relaxed pattern: " ++ p) (py "strict")) with false in H. cbv iota in H.
      do 3 eexists. split; [exact H|]. split; auto. split; auto. apply ns_note; auto. eapply first_relaxed; eauto.
    + do 3 eexists. split; [exact H|]. split; auto. split; [apply ns_error|]; auto.
Qed.

Lemma skel_vals : forall a b, skel a = skel b -> it_vals a = it_vals b -> a = b.
Proof. intros [] [] H1 H2. unfold skel, set_vals in H1. simpl in *. inversion H1; subst. reflexivity. Qed.

(** all facts about one listed item and its visit *)
Lemma listed_visit : forall u w v fname v', validate u w v fname = (v', Ok tt) ->
  forall i it, listed v' i it ->
  exists s1 s2 s3 s4 l1 l2 l3 l4 it0 sa sb la li lb,
    run_ok (mk_ctx u w fname) (st_classes (v_st v)) s1 s2 s3 s4 (v_st v') l1 l2 l3 l4 /\
    nth_error (st_items s1) i = Some it0 /\ skel it = skel it0 /\ it_vals it0 = [] /\
    visit (mk_ctx u w fname) s1 s2 i it0 sa sb la li lb.
Proof.
  intros u w v fname v' H i it L.
  destruct (validate_decompose _ _ _ _ _ H) as [_ [_ [_ [s1 [s2 [s3 [s4 [l1 [l2 [l3 [l4 R]]]]]]]]]]].
  destruct (listed_start _ _ _ _ _ _ _ _ _ _ _ R _ _ L) as [it0 [Hi0 HS]].
  destruct (step1_visit _ _ _ _ _ _ _ _ _ _ _ R _ _ Hi0) as [sa [sb [la [li [lb V]]]]].
  exists s1, s2, s3, s4, l1, l2, l3, l4, it0, sa, sb, la, li, lb.
  split; auto. split; auto. split; auto. split; auto.
  apply (ci_vals _ _ (ro_inv _ _ _ _ _ _ _ _ _ _ _ R) _ _ Hi0).
Qed.

Lemma shows_item : forall v' i it it' f, nth_error (st_items (v_st v')) i = Some it' -> listed v' i it -> shows v' i it' f -> shows v' i it f.
Proof. intros v' i it it' f H [L _] S. rewrite H in L. inversion L; subst. auto. Qed.

Lemma endswith_at : forall a, endswith a (py "@NX_class") = true -> In ch_at a.
Proof. intros a H. apply endswith_spec in H as [t ->]. apply in_or_app. right. left. reflexivity. Qed.

Lemma object_name_shows : forall u w v fname v', validate u w v fname = (v', Ok tt) ->
  forall i it h, listed v' i it -> it_obj it = ONode h -> it_parent it <> None ->
  (isHdf5Group w h = true \/ isHdf5Dataset w h = true) -> ~ In ch_at (it_cp it) ->
  exists n st cm, it_name it = Some n /\ last_component (h_name h) n /\ it_addr it = Some (h_name h)
   /\ shows v' i it (mkF (it_addr it) TEST_NAME st cm)
   /\ (if contains_sub (it_cp it) (py "NXcollection") then st = WARN /\ cm = py "NXcollection contains non-NeXus content"
       else name_status (e_uw (u_env u)) (ctx_patterns u) n st
         /\ name_comment (e_uw (u_env u)) (ctx_patterns u) (py "valid HDF5 item name, not valid with NeXus") n cm).
Proof.
  intros u w v fname v' H i it h L Ho Hp Hk Hat.
  destruct (listed_visit _ _ _ _ _ H _ _ L) as [s1 [s2 [s3 [s4 [l1 [l2 [l3 [l4 [it0 [sa [sb [la [li [lb [R [Hi [HS [Hv V]]]]]]]]]]]]]]]]]].
  destruct (skel_eq _ _ HS) as [E1 [E2 [E3 [E4 [E5 E6]]]]].
  rewrite E1, E2, E3, E4, E5 in *.
  set (c := mk_ctx u w fname) in *.
  assert (Hname : it_name it0 = Some (if str_eqb (h_name h) slash then slash else last_part ch_slash (h_name h)) /\ it_addr it0 = Some (h_name h)).
  { destruct (ci_origin _ _ (ro_inv _ _ _ _ _ _ _ _ _ _ _ R) _ _ Hi) as [O1 O2 O3|p pit hp h' name O1 O2 O3 O4 O5 O6|p pit h' k v0 O1 O2 O3 O4 O5].
    - congruence.
    - destruct (node_item_spec _ _ _ _ _ O6) as [N1 [N2 [N3 [N4 N5]]]]. rewrite N1 in Ho. inversion Ho; subst. auto.
    - subst it0. destruct (attr_item_spec p pit v0 (Some k)) as [A _]. congruence. }
  destruct Hname as [Hname Haddr].
  set (n := if str_eqb (h_name h) slash then slash else last_part ch_slash (h_name h)) in *.
  exists n. pose proof (vs_cache _ _ _ _ _ _ _ _ _ _ V) as HC.
  destruct (visit_halves _ _ _ _ _ _ _ _ _ _ V) as [sn [lm [ln [H1 _]]]].
  pose proof H1 as HV. unfold item_name_verify in H1. inv_ok.
  rewrite (vs_item _ _ _ _ _ _ _ _ _ _ V) in H0. inversion H0; subst x.
  destruct (it_parent it0) as [pi|]; [|congruence].
  assert (D : name_done it0 = false). { unfold name_done. rewrite Hname, Hv. reflexivity. }
  rewrite D in H1.
  assert (G : handle_groups_and_fields c i sa = (sn, Ok tt)).
  { rewrite Haddr in H1. destruct (endswith (h_name h) (py "@NX_class")) eqn:Ee.
    { destruct (handle_NX_class_node _ _ _ _ _ _ _ (vs_item _ _ _ _ _ _ _ _ _ _ V) Ho H1). }
    assert (Hc : has_char ch_at (it_cp it0) = false) by (apply has_char_false; auto).
    rewrite Hc in H1. inv_ok. unfold is_named_object in *. rewrite Ho in *. cbn [hobj_isdataset hobj_isgroup] in *.
    assert (Hb : (isHdf5Dataset (c_world c) h || isHdf5Group (c_world c) h) = true).
    { unfold c. simpl. destruct Hk as [Hk|Hk]; rewrite Hk; auto. apply orb_true_r. }
    rewrite Hb in *. match goal with H : Ok true = Ok _ |- _ => inversion H; subst end. auto. }
  destruct (handle_groups_ok _ _ _ _ _ _ _ HC (vs_item _ _ _ _ _ _ _ _ _ _ V) Hname G) as [sm [st [cm [HR [[B1 [B2 [B3 [B4 _]]]] HSt]]]]].
  exists st, cm. split; [auto|]. split; [apply last_component_spec|]. split; auto. split; auto.
  replace sn with (fst (item_name_verify c i sa)) in HR by (rewrite HV; reflexivity).
  destruct (name_shows _ _ _ _ _ _ _ _ _ _ _ R _ _ _ _ _ _ _ V Hi _ _ _ HR B1 B2 B3 B4) as [it' [X1 [X2 X3]]].
  eapply shows_item; eauto.
Qed.
