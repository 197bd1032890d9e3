(** * The shape of a completed validate() call *)

From Coq Require Import List NArith ZArith Bool String Lia Permutation.
From Verif Require Import PyBase PyFacts Regex Utf8 H5 Findings Nxdl Core Catalog ItemName AttributeCheck
  GroupChecks AppDef DefaultPlot Validate Trace CheckFacts CatalogFacts.
Import ListNotations.

(** ** Decomposition *)
Definition definitions_of (s : vstate) : list nat :=
  flat_map (fun k => match dget k (st_cp s) with Some l => l | None => [] end)
           [py "/NXentry/definition"; py "/NXentry/NXsubentry/definition"].

Record run_ok (c : ctx) (cl : classes) (s1 s2 s3 s4 s5 : vstate) (l1 l2 l3 l4 : list event) : Prop := mkRun {
  ro_build : build_address_catalog c (fresh_state cl) = (s1, Ok tt);
  ro_inv : cinv c s1;
  ro_step1 : for_each (check_item c) (List.concat (dvals (st_cp s1))) s1 = (s2, Ok tt);
  ro_step2 : for_each (check_group c) (dvals (st_addr s2)) s2 = (s3, Ok tt);
  ro_step3 : for_each (check_definition c) (definitions_of s3) s3 = (s4, Ok tt);
  ro_step4 : default_plot_verify c s4 = (s5, Ok tt);
  ro_t1 : trace s1 l1 s2;
  ro_t2 : trace s2 l2 s3;
  ro_t3 : trace s3 l3 s4;
  ro_t4 : trace s4 l4 s5;
  ro_k1 : Forall (with_key (fun t => name_key t || attr_key t)) l1;
  ro_k2 : Forall (with_key group_key) l2;
  ro_k3 : Forall (with_key_new app_key) l3;
  ro_k4 : Forall (with_key step4_key) l4;
  ro_r1 : rel c s1 s2;
  ro_r2 : rel c s2 s3;
  ro_r3 : rel c s3 s4;
  ro_r4 : rel c s4 s5;
  ro_cl : st_classes s1 = cl;
  ro_cache : cache_ok c s1;
  ro_find : st_find s1 = []
}.

Lemma open_decompose : forall c cl s5, validate_open c (fresh_state cl) = (s5, Ok tt) ->
  exists s1 s2 s3 s4 l1 l2 l3 l4, run_ok c cl s1 s2 s3 s4 s5 l1 l2 l3 l4.
Proof.
  intros c cl s5 H. unfold validate_open in H.
  apply bind_ok in H as [[] [s1 [H1 H]]]. apply bind_ok in H as [[] [s2 [H2 H]]].
  apply bind_ok in H as [[] [s3 [H3 H]]]. apply bind_ok in H as [[] [s4 [H4 H]]].
  unfold step1 in H2. apply bind_ok in H2 as [? [? [G H2]]]. apply get_ok in G as [-> ->].
  unfold step2 in H3. apply bind_ok in H3 as [? [? [G H3]]]. apply get_ok in G as [-> ->].
  unfold step3 in H4. apply bind_ok in H4 as [? [? [G H4]]]. apply get_ok in G as [-> ->].
  destruct (build_spec _ _ _ _ H1) as [HI [[Hg1 [Hg2 [Hg3 Hg4]]] _]].
  destruct (logs_run _ _ _ _ _ _ _ (step1_logs c _) H2) as [l1 [T1 [K1 R1]]].
  destruct (logs_run _ _ _ _ _ _ _ (step2_logs c _) H3) as [l2 [T2 [K2 R2]]].
  destruct (logs_run _ _ _ _ _ _ _ (step3_logs c _) H4) as [l3 [T3 [K3 R3]]].
  destruct (logs_run _ _ _ _ _ _ _ (default_plot_verify_logs c) H) as [l4 [T4 [K4 R4]]].
  exists s1, s2, s3, s4, l1, l2, l3, l4. constructor; auto.
  unfold cache_ok. rewrite Hg3. simpl. intros k r Hk. discriminate.
Qed.

Lemma validate_decompose : forall u w v fname v', validate u w v fname = (v', Ok tt) ->
  (exists f, dget fname w = Some (FHdf5 f)) /\ v_h5 v' = Some fname /\ v_fname v' = Some fname /\
  exists s1 s2 s3 s4 l1 l2 l3 l4, run_ok (mk_ctx u w fname) (st_classes (v_st v)) s1 s2 s3 s4 (v_st v') l1 l2 l3 l4.
Proof.
  intros u w v fname v' H. unfold validate in H.
  destruct (dget fname w) as [[f|]|] eqn:E; try discriminate.
  destruct (validate_open _ _) as [s r] eqn:Eo. inversion H; subst.
  split; [eauto|]. split; auto. split; auto. apply open_decompose. auto.
Qed.

(** ** Key classes are disjoint *)
Lemma startswith_split : forall s p, startswith s p = true -> exists t, s = p ++ t.
Proof.
  intros s p. revert s. induction p as [|x p IH]; simpl; intros s H; [eauto|].
  destruct s as [|y s]; [discriminate|]. apply andb_true_iff in H as [H1 H2].
  apply N.eqb_eq in H1. subst. destruct (IH _ H2) as [t ->]. eauto.
Qed.

Ltac key_cases H :=
  repeat match type of H with
  | (_ || _)%bool = true => apply orb_true_iff in H; destruct H as [H|H]
  end.
Ltac key_subst H :=
  first [ apply str_eqb_eq in H; subst; reflexivity
        | apply startswith_split in H as [? ->]; reflexivity ].

Lemma key1_later : forall t, name_key t || attr_key t = true -> group_key t || app_key t || step4_key t = false.
Proof.
  intros t H. unfold name_key, attr_key, is_key, pre_key in H. key_cases H; key_subst H.
Qed.

(** ** What stays when the later steps run *)
Lemma trace_prefix : forall s log s', trace s log s' -> exists x, st_find s' = st_find s ++ x.
Proof. intros s log s' H. eexists. apply (tr_find _ _ _ H). Qed.

Lemma keep_vals : forall K k s log s' i it, trace s log s' -> Forall (with_key_new K) log -> K k = false ->
  nth_error (st_items s) i = Some it ->
  exists it', nth_error (st_items s') i = Some it' /\ skel it' = skel it /\ dget k (it_vals it') = dget k (it_vals it).
Proof.
  intros K k s log s' i it HT HF Hk Hi.
  destruct (trace_vals k _ _ _ _ _ HT Hi) as [it' [H1 [H2 H3]]]. exists it'. split; auto. split; auto.
  rewrite H3. rewrite last_rec_none; auto. eapply Forall_impl; [|exact HF].
  intros [n|j f]; simpl; auto. intros Hf _ Heq. subst. congruence.
Qed.

Lemma with_key_new_of : forall K log, Forall (with_key K) log -> Forall (with_key_new K) log.
Proof. intros. eapply Forall_impl; [|exact H]. intros [n|j f]; simpl; tauto. Qed.

(** ** The visit of one item in step 1 *)
Definition elsewhere (i : nat) (e : event) : Prop := match e with ENew _ => False | ERec j f => j <> i end.

Lemma on_item_elsewhere : forall K i j e, i <> j -> on_item K j e -> elsewhere i e.
Proof. intros K i j [n|x f] H; simpl; auto. intros [-> _]. auto. Qed.

Lemma loop_elsewhere : forall c i l s s', ~ In i l -> for_each (check_item c) l s = (s', Ok tt) ->
  exists log, trace s log s' /\ Forall (elsewhere i) log /\ Forall (with_key (fun t => name_key t || attr_key t)) log /\ rel c s s'.
Proof.
  intros c i l s s' Hi H.
  assert (L : logs c (fun e => elsewhere i e /\ with_key (fun t => name_key t || attr_key t) e) (for_each (check_item c) l)).
  { apply logs_for_each. intros x Hx. eapply logs_weaken; [|apply check_item_logs].
    intros e He. split; [eapply on_item_elsewhere; [|exact He]; intros ->; auto | destruct e; simpl in *; tauto]. }
  destruct (logs_run _ _ _ _ _ _ _ L H) as [log [T [F R]]]. exists log.
  split; auto. split; [|split; auto]; eapply Forall_impl; try exact F; simpl; tauto.
Qed.

Record visit (c : ctx) (s1 s2 : vstate) (i : nat) (it : vitem) (sa sb : vstate) (la li lb : list event) : Prop := mkVisit {
  vs_a : trace s1 la sa;
  vs_i : trace sa li sb;
  vs_b : trace sb lb s2;
  vs_run : check_item c i sa = (sb, Ok tt);
  vs_item : nth_error (st_items sa) i = Some it;
  vs_ea : Forall (elsewhere i) la;
  vs_eb : Forall (elsewhere i) lb;
  vs_on : Forall (on_item (fun t => name_key t || attr_key t) i) li;
  vs_cache : cache_ok c sa;
  vs_cl : strip_classes (st_classes sa) = strip_classes (st_classes s1)
}.

Lemma step1_visit : forall c cl s1 s2 s3 s4 s5 l1 l2 l3 l4, run_ok c cl s1 s2 s3 s4 s5 l1 l2 l3 l4 ->
  forall i it, nth_error (st_items s1) i = Some it ->
  exists sa sb la li lb, visit c s1 s2 i it sa sb la li lb.
Proof.
  intros c cl s1 s2 s3 s4 s5 l1 l2 l3 l4 R i it Hi.
  pose proof (ci_cpperm _ _ (ro_inv _ _ _ _ _ _ _ _ _ _ _ R)) as HP.
  pose proof (ro_step1 _ _ _ _ _ _ _ _ _ _ _ R) as HS.
  assert (Hin : In i (List.concat (dvals (st_cp s1)))).
  { eapply Permutation_in; [apply Permutation_sym; exact HP|]. apply in_seq. split; [lia|]. simpl.
    apply nth_error_Some. congruence. }
  assert (HN : NoDup (List.concat (dvals (st_cp s1)))).
  { eapply Permutation_NoDup; [apply Permutation_sym; exact HP|]. apply seq_NoDup. }
  apply in_split in Hin as [x [y E]]. rewrite E in *.
  apply for_each_split in HS as [sa [sb [[] [[] [Ha [Hb Hc]]]]]].
  assert (Hx : ~ In i x /\ ~ In i y).
  { apply NoDup_remove_2 in HN. rewrite in_app_iff in HN. tauto. }
  destruct (loop_elsewhere c i _ _ _ (proj1 Hx) Ha) as [la [Ta [Ea [_ Ra]]]].
  destruct (logs_run _ _ _ _ _ _ _ (check_item_logs c i) Hb) as [li [Ti [Oi Ri]]].
  destruct (loop_elsewhere c i _ _ _ (proj2 Hx) Hc) as [lb [Tb [Eb [_ Rb]]]].
  exists sa, sb, la, li, lb. constructor; auto.
  - rewrite (tr_items _ _ _ Ta). apply apply_log_other; auto. eapply Forall_impl; [|exact Ea]. intros [n|j f]; simpl; auto.
  - apply (proj1 Ra). apply R.
  - apply (proj2 Ra).
Qed.

(** the findings of one visit as seen at the end *)
Lemma visit_final : forall c cl s1 s2 s3 s4 s5 l1 l2 l3 l4, run_ok c cl s1 s2 s3 s4 s5 l1 l2 l3 l4 ->
  forall i it sa sb la li lb, visit c s1 s2 i it sa sb la li lb ->
  forall t, name_key t || attr_key t = true ->
  exists it', nth_error (st_items s5) i = Some it' /\ skel it' = skel it
    /\ dget t (it_vals it') = match last_rec t i li with Some f => Some f | None => dget t (it_vals it) end.
Proof.
  intros c cl s1 s2 s3 s4 s5 l1 l2 l3 l4 R i it sa sb la li lb V t Ht.
  pose proof (key1_later t Ht) as Hl. apply orb_false_iff in Hl as [Hl H4]. apply orb_false_iff in Hl as [H2 H3].
  destruct (trace_vals t _ _ _ _ _ (vs_i _ _ _ _ _ _ _ _ _ _ V) (vs_item _ _ _ _ _ _ _ _ _ _ V)) as [ib [Nb [Sb Db]]].
  assert (N2 : nth_error (st_items s2) i = Some ib).
  { rewrite (tr_items _ _ _ (vs_b _ _ _ _ _ _ _ _ _ _ V)). apply apply_log_other; auto.
    eapply Forall_impl; [|exact (vs_eb _ _ _ _ _ _ _ _ _ _ V)]. intros [n|j f]; simpl; auto. }
  destruct (keep_vals _ t _ _ _ _ _ (ro_t2 _ _ _ _ _ _ _ _ _ _ _ R) (with_key_new_of _ _ (ro_k2 _ _ _ _ _ _ _ _ _ _ _ R)) H2 N2) as [i3 [N3 [S3 D3]]].
  destruct (keep_vals _ t _ _ _ _ _ (ro_t3 _ _ _ _ _ _ _ _ _ _ _ R) (ro_k3 _ _ _ _ _ _ _ _ _ _ _ R) H3 N3) as [i4 [N4 [S4 D4]]].
  destruct (keep_vals _ t _ _ _ _ _ (ro_t4 _ _ _ _ _ _ _ _ _ _ _ R) (with_key_new_of _ _ (ro_k4 _ _ _ _ _ _ _ _ _ _ _ R)) H4 N4) as [i5 [N5 [S5 D5]]].
  exists i5. split; auto. split; [congruence|]. congruence.
Qed.

(** all findings recorded at an address of one item only, for a test of step 1 *)
Definition at_test (a : option pystr) (t : pystr) (f : finding) : bool := ostr_eqb (f_addr f) a && str_eqb (f_test f) t.

Lemma filter_none : forall A (p : A -> bool) l, Forall (fun x => p x = false) l -> filter p l = [].
Proof. induction 1; simpl; auto. rewrite H. auto. Qed.

Definition unique_item (items : list vitem) (i : nat) : Prop :=
  forall it j jt, nth_error items i = Some it -> nth_error items j = Some jt -> it_addr jt = it_addr it -> j = i.

Lemma log_addrs : forall log items i a, log_ok items log ->
  (forall j jt, nth_error items j = Some jt -> it_addr jt = a -> j = i) ->
  Forall (elsewhere i) log -> Forall (fun f => f_addr f <> a) (recs log).
Proof.
  induction log as [|e log IH]; simpl; intros items i a HO HU HE; [constructor|].
  inversion HE as [|? ? H3 H4]; subst. destruct HO as [H1 H2]. destruct e as [n|j f]; simpl in *; [tauto|].
  constructor.
  - destruct H1 as [jt [Hj Ha]]. rewrite Ha. intros Heq. apply H3. eapply HU; eauto.
  - eapply IH; [exact H2 | | exact H4]. intros x xt Hx Hax.
    destruct (Nat.eq_dec j x) as [->|Hne].
    + destruct H1 as [jt [Hj Ha]]. rewrite (update_nth_same _ _ _ _ Hj) in Hx. inversion Hx; subst. eapply HU; eauto.
    + rewrite update_nth_other in Hx by auto. eapply HU; eauto.
Qed.

Lemma recs_keys : forall K log, Forall (with_key_new K) log -> Forall (fun f => K (f_test f) = true) (recs log).
Proof.
  induction 1 as [|e log H HF IH]; simpl; [constructor|]. destruct e; simpl in *; auto.
Qed.

Lemma ostr_eqb_eq : forall a b, ostr_eqb a b = true <-> a = b.
Proof.
  intros [a|] [b|]; simpl; split; intros; try congruence. apply str_eqb_eq in H. congruence.
  inversion H; subst. apply str_eqb_eq. auto.
Qed.

Lemma filter_other_key : forall K a t l, Forall (fun f => K (f_test f) = true) l -> K t = false -> filter (at_test a t) l = [].
Proof.
  intros K a t l H Hk. apply filter_none. eapply Forall_impl; [|exact H]. simpl. intros f Hf. unfold at_test.
  destruct (str_eqb_spec (f_test f) t); [|apply andb_false_r]. subst. congruence.
Qed.
Lemma filter_other_addr : forall a t l, Forall (fun f => f_addr f <> a) l -> filter (at_test a t) l = [].
Proof.
  intros a t l H. apply filter_none. eapply Forall_impl; [|exact H]. simpl. intros f Hf. unfold at_test.
  destruct (ostr_eqb (f_addr f) a) eqn:E; auto. apply ostr_eqb_eq in E. congruence.
Qed.

Lemma skel_addr : forall a b, skel a = skel b -> it_addr a = it_addr b.
Proof. intros. apply skel_eq in H. tauto. Qed.

(** [items] and [items'] agree except for recorded findings and later items *)
Lemma trace_unique : forall s log s' i a, trace s log s' ->
  Forall (fun e => match e with ENew _ => False | ERec _ _ => True end) log ->
  (forall j jt, nth_error (st_items s) j = Some jt -> it_addr jt = a -> j = i) ->
  (forall j jt, nth_error (st_items s') j = Some jt -> it_addr jt = a -> j = i).
Proof.
  intros s log s' i a HT HF HU j jt Hj Ha.
  assert (L : List.length (st_items s') = List.length (st_items s)).
  { rewrite (tr_items _ _ _ HT). clear - HF. generalize (st_items s). induction HF as [|e log H HF IH]; simpl; intros; auto.
    destruct e; [tauto|]. simpl. rewrite IH. apply update_nth_length. }
  assert (Hlt : j < List.length (st_items s)). { rewrite <- L. apply nth_error_Some. congruence. }
  apply nth_error_Some in Hlt. destruct (nth_error (st_items s) j) as [kt|] eqn:E; [|congruence].
  destruct (trace_item _ _ _ _ _ HT E) as [kt' [H1 H2]]. rewrite H1 in Hj. inversion Hj; subst.
  eapply HU; eauto. symmetry. apply skel_addr. auto.
Qed.

Lemma visit_filter : forall c cl s1 s2 s3 s4 s5 l1 l2 l3 l4, run_ok c cl s1 s2 s3 s4 s5 l1 l2 l3 l4 ->
  forall i it sa sb la li lb, visit c s1 s2 i it sa sb la li lb ->
  nth_error (st_items s1) i = Some it -> unique_item (st_items s1) i ->
  forall t, name_key t || attr_key t = true ->
  filter (at_test (it_addr it) t) (st_find s5) = filter (at_test (it_addr it) t) (recs li).
Proof.
  intros c cl s1 s2 s3 s4 s5 l1 l2 l3 l4 R i it sa sb la li lb V Hi HU t Ht.
  pose proof (key1_later t Ht) as Hl. apply orb_false_iff in Hl as [Hl H4]. apply orb_false_iff in Hl as [H2 H3].
  assert (U : forall j jt, nth_error (st_items s1) j = Some jt -> it_addr jt = it_addr it -> j = i).
  { intros j jt Hj Ha. eapply HU; eauto. }
  rewrite (tr_find _ _ _ (ro_t4 _ _ _ _ _ _ _ _ _ _ _ R)), (tr_find _ _ _ (ro_t3 _ _ _ _ _ _ _ _ _ _ _ R)),
    (tr_find _ _ _ (ro_t2 _ _ _ _ _ _ _ _ _ _ _ R)).
  rewrite !filter_app.
  rewrite (filter_other_key group_key _ t (recs l2)) by (auto; apply recs_keys; apply with_key_new_of; apply R).
  rewrite (filter_other_key app_key _ t (recs l3)) by (auto; apply recs_keys; apply R).
  rewrite (filter_other_key step4_key _ t (recs l4)) by (auto; apply recs_keys; apply with_key_new_of; apply R).
  rewrite !app_nil_r.
  rewrite (tr_find _ _ _ (vs_b _ _ _ _ _ _ _ _ _ _ V)), (tr_find _ _ _ (vs_i _ _ _ _ _ _ _ _ _ _ V)),
    (tr_find _ _ _ (vs_a _ _ _ _ _ _ _ _ _ _ V)), (ro_find _ _ _ _ _ _ _ _ _ _ _ R).
  rewrite !filter_app. simpl.
  assert (NN : forall K l, Forall (on_item K i) l -> Forall (fun e => match e with ENew _ => False | ERec _ _ => True end) l).
  { intros K l H. eapply Forall_impl; [|exact H]. intros [n|j f]; simpl; tauto. }
  assert (NE : forall l, Forall (elsewhere i) l -> Forall (fun e => match e with ENew _ => False | ERec _ _ => True end) l).
  { intros l H. eapply Forall_impl; [|exact H]. intros [n|j f]; simpl; tauto. }
  pose proof (vs_ea _ _ _ _ _ _ _ _ _ _ V) as Ea. pose proof (vs_eb _ _ _ _ _ _ _ _ _ _ V) as Eb.
  pose proof (vs_on _ _ _ _ _ _ _ _ _ _ V) as Eo.
  pose proof (trace_unique _ _ _ i (it_addr it) (vs_a _ _ _ _ _ _ _ _ _ _ V) (NE _ Ea) U) as Ua.
  pose proof (trace_unique _ _ _ i (it_addr it) (vs_i _ _ _ _ _ _ _ _ _ _ V) (NN _ _ Eo) Ua) as Ub.
  rewrite (filter_other_addr _ t (recs la)) by (exact (log_addrs _ _ _ _ (tr_ok _ _ _ (vs_a _ _ _ _ _ _ _ _ _ _ V)) U Ea)).
  rewrite (filter_other_addr _ t (recs lb)) by (exact (log_addrs _ _ _ _ (tr_ok _ _ _ (vs_b _ _ _ _ _ _ _ _ _ _ V)) Ub Eb)).
  rewrite app_nil_r. reflexivity.
Qed.
