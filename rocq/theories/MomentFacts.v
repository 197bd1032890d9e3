(** * Findings are only appended *)

From Coq Require Import List NArith ZArith Bool String Lia.
From Verif Require Import PyBase PyFacts Regex Utf8 H5 Findings Nxdl Core Catalog ItemName AttributeCheck
  GroupChecks AppDef DefaultPlot Validate Trace CheckFacts CatalogFacts Spec_Run Spec_Catalog CatalogRun CatalogEnd RunFacts NameRun NameSamples Samples Spec_Moments.
Import ListNotations.

Lemma prefix_refl : forall A (a : list A), prefix a a.
Proof. intros. exists []. symmetry. apply app_nil_r. Qed.
Lemma prefix_trans : forall A (a b c : list A), prefix a b -> prefix b c -> prefix a c.
Proof. intros A a b c [x ->] [y ->]. exists (x ++ y). apply eq_sym, app_assoc. Qed.

Lemma operation_appends : forall A m, operation A m -> forall s, prefix (st_find s) (st_find (fst (m s))).
Proof.
  intros A m H s; destruct H; try apply prefix_refl.
  - unfold item. destruct (nth_error _ _); apply prefix_refl.
  - unfold address_item. destruct (aget _ _ _); apply prefix_refl.
  - unfold last_of_classpath. destruct (dget _ _) as [l|]; [destruct (rev l)|]; apply prefix_refl.
  - unfold cached_regexp. destruct (dget _ _); [apply prefix_refl|]. destruct (re_compile p); apply prefix_refl.
  - unfold record_finding, bind, item. destruct (nth_error _ _) as [it|]; [|apply prefix_refl]. simpl. eexists. reflexivity.
Qed.

Lemma built_appends : forall A m, built A m -> forall s, prefix (st_find s) (st_find (fst (m s))).
Proof.
  intros A m H. induction H as [A m H|A B m f Hm IHm Hf IHf]; intros s; [apply operation_appends; auto|].
  unfold bind. specialize (IHm s). destruct (m s) as [s1 [a|e]]; auto. simpl in *. eapply prefix_trans; eauto.
Qed.

Lemma moment_prefix : forall A m s s', moment A m s s' ->
  prefix (st_find s) (st_find s') /\ prefix (st_find s') (st_find (fst (m s))).
Proof.
  induction 1 as [A m s H|A m s H|A B m f s s' H1 H2 H3 [IH1 IH2]|A B m f s s1 a s' H1 H2 E H3 [IH1 IH2]].
  - split; [apply prefix_refl|apply built_appends; auto].
  - split; [apply built_appends; auto|apply prefix_refl].
  - split; auto. eapply prefix_trans; [exact IH2|]. unfold bind. destruct (m s) as [s1 [a|e]]; [|apply prefix_refl].
    simpl. apply built_appends. auto.
  - pose proof (built_appends _ _ H1 s) as X. unfold bind. rewrite E in *. simpl in *. split; auto. eapply prefix_trans; eauto.
Qed.

(** ** The validator is built from these operations *)
Lemma built_for_each : forall A (f : A -> M unit) l, (forall x, In x l -> built _ (f x)) -> built _ (for_each f l).
Proof. induction l; simpl; intros; [apply bu_op, op_ret|]. apply bu_bind; auto. Qed.

Ltac bd_step :=
  match goal with
  | |- built _ (bind _ _) => apply bu_bind; [|intros]
  | |- built _ (for_each _ _) => apply built_for_each; intros
  | |- built _ (ret _) => apply bu_op, op_ret
  | |- built _ (raise _) => apply bu_op, op_raise
  | |- built _ (lift _) => apply bu_op, op_lift
  | |- built _ get => apply bu_op, op_get
  | |- built _ (item _) => apply bu_op, op_item
  | |- built _ (address_item _) => apply bu_op, op_address
  | |- built _ (classpath_list _) => apply bu_op, op_classpath
  | |- built _ (last_of_classpath _) => apply bu_op, op_last
  | |- built _ (new_item _) => apply bu_op, op_new
  | |- built _ (add_address _ _) => apply bu_op, op_add_address
  | |- built _ (add_classpath _ _) => apply bu_op, op_add_classpath
  | |- built _ (cached_regexp _ _) => apply bu_op, op_regexp
  | |- built _ (store_minOccurs _ _ _) => apply bu_op, op_minOccurs
  | |- built _ (record_finding _ _ _ _) => apply bu_op, op_record
  | |- built _ (match ?x with _ => _ end) => destruct x
  | |- built _ (let '(_, _) := ?x in _) => destruct x
  end.
Ltac bd := repeat bd_step.

Lemma first_match_built : forall c o l, built _ (first_match c o l).
Proof. induction l as [|[k p] l IH]; cbn [first_match]; bd; auto. Qed.
Lemma match_key_built : forall c o, built _ (validItemName_match_key c o).
Proof. intros. unfold validItemName_match_key. bd. apply first_match_built. Qed.
Lemma register_built : forall it, built _ (register it).
Proof. intros. unfold register. bd. Qed.
Lemma get_subject_built : forall c p h, built _ (get_subject c p h).
Proof. intros. unfold get_subject. bd; apply register_built. Qed.
Lemma catalog_built : forall n c p h, built _ (group_address_catalog n c p h).
Proof. induction n as [|n IH]; intros; cbn [group_address_catalog]; bd; try apply get_subject_built; auto. Qed.
Lemma target_parts_built : forall c i parts addr, built _ (target_parts c i addr parts).
Proof. induction parts; intros; cbn [target_parts]; bd; auto; apply match_key_built. Qed.
Lemma check_item_built : forall c i, built _ (check_item c i).
Proof.
  intros. unfold check_item, item_name_verify, handle_NX_class, handle_any_attribute, handle_groups_and_fields, match_key_name, match_key_text,
    attribute_verify, nxclass_handler, target_handler, signal_handler, axes_handler, generic_handler, axis_check, parent_item.
  bd; try apply match_key_built; try apply first_match_built; try apply target_parts_built.
Qed.
Lemma check_group_built : forall c i, built _ (check_group c i).
Proof.
  intros. unfold check_group, validate_group, validate_NX_class_attribute, verify_group_attributes, group_attribute,
    verify_group_children, group_child, base_class_items_verify, base_field, base_group, child_exists. bd.
Qed.
Lemma check_definition_built : forall c i, built _ (check_definition c i).
Proof. intros. unfold check_definition, application_definition_verify. bd. unfold ad_field. bd. Qed.
Lemma v3_loop_built : forall c l a n, built _ (v3_loop c a n l).
Proof.
  induction l as [|i l IH]; intros; cbn [v3_loop]; bd; auto. unfold v3_item. bd.
Qed.
Lemma v2_collect_built : forall c l r, built _ (v2_collect c r l).
Proof. induction l as [|i l IH]; intros; cbn [v2_collect]; bd; auto. unfold v2_item, parent_item. bd. Qed.
Lemma v2_decide_built : forall l a, built _ (v2_decide a l).
Proof. induction l as [|[g l'] l IH]; intros; cbn [v2_decide]; bd; auto; unfold parent_item; bd. Qed.
Lemma default_plot_built : forall c, built _ (default_plot_verify c).
Proof.
  intros. unfold default_plot_verify. bd. cbn [try_methods]. unfold default_plot_v3, default_plot_v2, default_plot_v1.
  bd; try apply v3_loop_built; try apply v2_collect_built; try apply v2_decide_built.
Qed.
Lemma validate_built : forall c, built _ (validate_open c).
Proof.
  intros. unfold validate_open, build_address_catalog, step1, step2, step3.
  bd; try apply catalog_built; try apply check_item_built; try apply check_group_built; try apply check_definition_built; try apply default_plot_built.
Qed.

(** the state after step 1 is one of the moments *)
Lemma after_step1 : forall c s s1, build_address_catalog c s = (s1, Ok tt) -> moment unit (validate_open c) s (fst (step1 c s1)).
Proof.
  intros c s s1 H. unfold validate_open.
  assert (B0 : built unit (build_address_catalog c)) by (unfold build_address_catalog; apply catalog_built).
  assert (B1 : built unit (step1 c)) by (unfold step1; bd; apply check_item_built).
  assert (B2 : built unit (step2 c ;;; step3 c ;;; default_plot_verify c)).
  { unfold step2, step3. bd; try apply check_group_built; try apply check_definition_built; apply default_plot_built. }
  apply mo_then with (s1 := s1) (a := tt); auto; [intros; apply bu_bind; auto|].
  apply mo_first; auto. apply mo_after. auto.
Qed.

Lemma validate_moments : forall u w v fname v' r f, dget fname w = Some (FHdf5 f) -> validate u w v fname = (v', r) ->
  forall s, moment unit (validate_open (mk_ctx u w fname)) (fresh_state (st_classes (v_st v))) s -> prefix (st_find s) (st_find (v_st v')).
Proof.
  intros u w v fname v' r f Hf H s Hs. apply moment_prefix in Hs as [_ Hs]. unfold validate in H. rewrite Hf in H.
  destruct (validate_open _ _) as [s1 r1]. inversion H; subst. auto.
Qed.

(** ** The last finding per item and test *)
Definition hist (log : list event) : history := flat_map (fun e => match e with ERec i f => [(i, f)] | ENew _ => [] end) log.

Lemma hist_recs : forall log, map snd (hist log) = recs log.
Proof. induction log as [|[n|i f] log IH]; simpl; congruence. Qed.
Lemma hist_app : forall a b, hist (a ++ b) = hist a ++ hist b.
Proof. intros. unfold hist. apply flat_map_app. Qed.

Lemma last_for_hist : forall log i t, last_for (hist log) i t = last_rec t i log.
Proof.
  intros log i t. unfold last_for. induction log as [|e log IH] using rev_ind; auto.
  rewrite hist_app, filter_app, rev_app_distr, last_rec_app. destruct e as [n|j f]; simpl; [exact IH|].
  destruct (Nat.eqb j i && str_eqb (f_test f) t); simpl; auto.
Qed.

Lemma last_for_addr : forall (h : history) items i it t,
  (forall j f, In (j, f) h -> exists jt, nth_error items j = Some jt /\ f_addr f = it_addr jt) ->
  nth_error items i = Some it -> (forall j jt, nth_error items j = Some jt -> it_addr jt = it_addr it -> j = i) ->
  last_for h i t = last_at (map snd h) (it_addr it) t.
Proof.
  intros h items i it t Hh Hi Hu. unfold last_for, last_at.
  assert (E : filter (fun f => ostr_eqb (f_addr f) (it_addr it) && str_eqb (f_test f) t) (map snd h)
            = map snd (filter (fun e => Nat.eqb (fst e) i && str_eqb (f_test (snd e)) t) h)).
  { induction h as [|[j f] h IH]; auto. simpl. rewrite IH by (intros; apply Hh; right; auto).
    destruct (Hh j f (or_introl eq_refl)) as [jt [Hj Ha]].
    destruct (Nat.eqb_spec j i) as [->|Hn].
    - assert (jt = it) by congruence. subst. rewrite Ha. rewrite (proj2 (ostr_eqb_eq _ _) eq_refl). simpl. destruct (str_eqb (f_test f) t); auto.
    - destruct (ostr_eqb (f_addr f) (it_addr it)) eqn:Eo; simpl; auto. apply ostr_eqb_eq in Eo. exfalso. apply Hn. eapply Hu; eauto. congruence. }
  rewrite E, <- map_rev. destruct (rev (filter _ h)) as [|[j f] l]; auto.
Qed.

Lemma log_ok_final : forall log items j f, log_ok items log -> In (ERec j f) log ->
  exists jt, nth_error (apply_log items log) j = Some jt /\ f_addr f = it_addr jt.
Proof.
  induction log as [|e log IH]; intros items j f Hok Hin; [destruct Hin|]. destruct Hok as [H1 H2]. destruct Hin as [->|Hin].
  - destruct H1 as [it [H1 H3]]. destruct (apply_log_skel (ERec j f :: log) items j it H1) as [it' [A B]]. exists it'. split; auto.
    rewrite H3. symmetry. apply (skel_addr _ _ B).
  - apply (IH _ _ _ H2 Hin).
Qed.

Lemma log_new_vals : forall log items i it, log_ok items log -> nth_error (apply_log items log) i = Some it ->
  (forall i0 it0, nth_error items i0 = Some it0 -> it_vals it0 = []) -> forall t, dget t (it_vals it) = last_rec t i log.
Proof.
  induction log as [|e log IH] using rev_ind; intros items i it Hok Hi H0 t.
  - simpl in *. rewrite (H0 _ _ Hi). reflexivity.
  - apply log_ok_app in Hok as [Hok1 [Hok2 _]]. rewrite apply_log_app in Hi. cbn [apply_log fold_left] in Hi. rewrite last_rec_app.
    destruct e as [n|j f]; simpl in *.
    + destruct (Nat.lt_ge_cases i (List.length (apply_log items log))) as [Hl|Hl].
      * unfold apply_log in Hl. rewrite nth_error_app1 in Hi by auto. apply IH with (items := items); auto.
      * unfold apply_log in Hl. rewrite nth_error_app2 in Hi by auto. destruct (i - _) as [|k] eqn:Ek; [|destruct k; discriminate].
        simpl in Hi. inversion Hi; subst n. rewrite Hok2. assert (X : last_rec t i log = None); [|rewrite X; reflexivity].
        apply last_rec_none. apply Forall_forall. intros [n|j f] Hin; auto. intros -> _. destruct (log_ok_final _ _ _ _ Hok1 Hin) as [jt [Hj _]].
        assert (i < List.length (apply_log items log))%nat by (apply nth_error_Some; congruence). unfold apply_log in *. lia.
    + destruct (Nat.eqb_spec j i) as [->|Hn]; simpl.
      * destruct Hok2 as [it0 [K1 K2]]. unfold apply_log in K1. rewrite (update_nth_same _ _ _ _ K1) in Hi. inversion Hi; subst it. unfold add_val. simpl.
        destruct (str_eqb_spec (f_test f) t) as [->|Ht].
        -- apply dget_dset_same.
        -- rewrite dget_dset_other by auto. apply IH with (items := items); auto.
      * rewrite update_nth_other in Hi by auto. apply IH with (items := items); auto.
Qed.

Lemma run_history : forall u w v fname v' r f, dget fname w = Some (FHdf5 f) -> validate u w v fname = (v', r) ->
  exists h : history, map snd h = st_find (v_st v')
    /\ (forall i g, In (i, g) h -> exists it, nth_error (st_items (v_st v')) i = Some it /\ f_addr g = it_addr it)
    /\ forall i it, nth_error (st_items (v_st v')) i = Some it -> forall t, dget t (it_vals it) = last_for h i t.
Proof.
  intros u w v fname v' r f Hf H. destruct (validate_trace _ _ _ _ _ _ _ Hf H) as [s1 [rb [log [Eb [T [HI _]]]]]].
  destruct (build_spec _ _ _ _ Eb) as [_ [HG _]]. assert (Hfind : st_find s1 = []) by apply HG.
  exists (hist log). split; [rewrite hist_recs, (tr_find _ _ _ T), Hfind; reflexivity|]. split.
  - intros i g Hin. unfold hist in Hin. apply in_flat_map in Hin as [e [He Hin]]. destruct e as [n|j f0]; [destruct Hin|].
    destruct Hin as [E|[]]. inversion E; subst. rewrite (tr_items _ _ _ T). eapply log_ok_final; eauto. apply (tr_ok _ _ _ T).
  - intros i it Hi t. rewrite last_for_hist. rewrite (tr_items _ _ _ T) in Hi. eapply log_new_vals; eauto.
    + apply (tr_ok _ _ _ T).
    + intros. eapply ci_vals; eauto.
Qed.

Lemma last_for_in : forall h i t f, last_for h i t = Some f -> In (i, f) h /\ f_test f = t.
Proof.
  intros h i t f H. unfold last_for in H. destruct (rev (filter _ h)) as [|[j g] l] eqn:E; [discriminate|]. inversion H; subst.
  assert (X : In (j, f) (filter (fun e => Nat.eqb (fst e) i && str_eqb (f_test (snd e)) t) h)) by (apply in_rev; rewrite E; simpl; auto).
  apply filter_In in X as [X Y]. simpl in Y. apply andb_true_iff in Y as [Y1 Y2]. apply Nat.eqb_eq in Y1. subst. split; auto. apply str_eqb_eq. auto.
Qed.

Lemma validations_of_run : forall u w v fname v' r f, dget fname w = Some (FHdf5 f) -> validate u w v fname = (v', r) ->
  forall i it t g, nth_error (st_items (v_st v')) i = Some it -> dget t (it_vals it) = Some g ->
  f_test g = t /\ f_addr g = it_addr it /\ In g (st_find (v_st v')).
Proof.
  intros u w v fname v' r f Hf H i it t g Hi Hg. destruct (run_history _ _ _ _ _ _ _ Hf H) as [h [H1 [H2 H3]]].
  rewrite (H3 _ _ Hi) in Hg. apply last_for_in in Hg as [A B]. split; auto. destruct (H2 _ _ A) as [it' [C D]]. split; [congruence|].
  rewrite <- H1. apply in_map_iff. exists (i, g). auto.
Qed.

(** by address, when no other item has it *)
Lemma validations_by_address : forall u w v fname v' r f, dget fname w = Some (FHdf5 f) -> validate u w v fname = (v', r) ->
  forall i it, nth_error (st_items (v_st v')) i = Some it -> (forall j jt, nth_error (st_items (v_st v')) j = Some jt -> it_addr jt = it_addr it -> j = i) ->
  forall t, dget t (it_vals it) = last_at (st_find (v_st v')) (it_addr it) t.
Proof.
  intros u w v fname v' r f Hf H i it Hi Hu t. destruct (run_history _ _ _ _ _ _ _ Hf H) as [h [H1 [H2 H3]]].
  rewrite (H3 _ _ Hi), <- H1. eapply last_for_addr; eauto.
Qed.
