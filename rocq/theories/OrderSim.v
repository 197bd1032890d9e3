(** * The checks of one item in two files that differ in order only *)

From Coq Require Import List NArith ZArith Bool String Lia Permutation.
From Verif Require Import PyBase PyFacts Regex Utf8 H5 Findings Nxdl Core Catalog ItemName AttributeCheck
  GroupChecks AppDef DefaultPlot Validate Trace CheckFacts CatalogFacts NameFacts CacheFacts Spec_Run Spec_Catalog PathFacts Spec_Order OrderWorld.
From Verif Require Import GroupRun.
From Verif Require SimFacts.
Import ListNotations.

Section Sim.
  Variables (E : env) (w w' : world) (file : pystr) (f f' : h5file) (pats : dict (list pystr)) (rl : nat) (fm : option Z).
  Hypothesis Hf : dget file w = Some (FHdf5 f).
  Hypothesis Hf' : dget file w' = Some (FHdf5 f').
  Hypothesis Hr : reordered f f'.
  Hypothesis Hplain : plain_file f.
  Hypothesis Hd : distinct_names f.
  Local Notation CC := (mkCtx E w (open_root file) pats rl fm).
  Local Notation CD := (mkCtx E w' (open_root file) pats rl fm).

  Definition in_file (o : hobj) : Prop := match o with ONode h => h_file h = file | OVal _ => True end.

  Lemma isgroup_here : forall o, in_file o -> hobj_isgroup w o = hobj_isgroup w' o.
  Proof. intros [h|v] H; [|reflexivity]. simpl. eapply group_same; eauto. Qed.
  Lemma isdataset_here : forall o, in_file o -> hobj_isdataset w o = hobj_isdataset w' o.
  Proof. intros [h|v] H; [|reflexivity]. simpl. eapply dataset_same; eauto. Qed.
  Lemma islink_here : forall o, in_file o -> hobj_islink w o = hobj_islink w' o.
  Proof. intros [h|v] H; [|reflexivity]. simpl. eapply islink_same; eauto. Qed.
  Lemma in_here : forall o v, in_file o -> hobj_in w v o = hobj_in w' v o.
  Proof. intros [h|v] x H; [|reflexivity]. simpl. eapply py_in_same; eauto. Qed.
  Lemma get_here : forall o v, in_file o -> hobj_get w o v = hobj_get w' o v.
  Proof.
    intros [h|v] x H; [|reflexivity]. simpl in *. rewrite (isgroup_same w w' file f f' Hf Hf' Hr h H). destruct (is_group_obj w' h); auto. destruct x; auto.
    rewrite (getopt_same w w' file f f' Hf Hf' Hr Hplain Hd h s H). reflexivity.
  Qed.
  Lemma root_here : forall v, py_in w (open_root file) v = py_in w' (open_root file) v.
  Proof. intros v. eapply py_in_same; eauto. Qed.

  (** ** the item and its parent *)
  Variables (i i' : nat) (b b' : list finding).
  Variables (o : hobj) (n : option pystr) (a : option pystr) (cp : pystr) (pp pp' : option nat) (po : hobj) (pa : option pystr).
  Hypothesis Ho : in_file o.
  Hypothesis Hpo : in_file po.
  Hypothesis Hpp : pp = None <-> pp' = None.
  Definition needs : Prop := has_char ch_at cp = true \/ exists x, a = Some x /\ has_char ch_at x = true.

  Definition irel (it it' : vitem) : Prop :=
    it_obj it = o /\ it_obj it' = o /\ it_name it = n /\ it_name it' = n /\ it_addr it = a /\ it_addr it' = a /\ it_cp it = cp /\ it_cp it' = cp
    /\ it_parent it = pp /\ it_parent it' = pp' /\ it_vals it = it_vals it'.
  Definition prel (it it' : vitem) : Prop := it_obj it = po /\ it_obj it' = po /\ it_addr it = pa /\ it_addr it' = pa.

  Record lrel (s s' : vstate) : Prop := mkL {
    lr_find : exists l, st_find s = b ++ l /\ st_find s' = b' ++ l;
    lr_item : exists it it', nth_error (st_items s) i = Some it /\ nth_error (st_items s') i' = Some it' /\ irel it it';
    lr_parent : needs -> exists p p' it it', pp = Some p /\ pp' = Some p' /\ nth_error (st_items s) p = Some it /\ nth_error (st_items s') p' = Some it' /\ prel it it';
    lr_cache : cache_ok CC s;
    lr_cache' : cache_ok CD s';
    lr_classes : strip_classes (st_classes s) = strip_classes (st_classes s')
  }.

  Definition sim {A B} (V : A -> B -> Prop) (m : M A) (m' : M B) : Prop :=
    forall s s', lrel s s' -> lrel (fst (m s)) (fst (m' s'))
      /\ match snd (m s), snd (m' s') with Ok x, Ok y => V x y | Exn e, Exn e' => e = e' | _, _ => False end.

  Lemma sim_ret : forall A (x : A), sim eq (ret x) (ret x).
  Proof. intros A x s s' L. split; simpl; auto. Qed.
  Lemma sim_raise : forall A B (V : A -> B -> Prop) e, sim V (raise e) (raise e).
  Proof. intros A B V e s s' L. split; simpl; auto. Qed.
  Lemma sim_bind : forall A B A' B' (V : A -> A' -> Prop) (W : B -> B' -> Prop) m m' g g', sim V m m' -> (forall x y, V x y -> sim W (g x) (g' y)) -> sim W (bind m g) (bind m' g').
  Proof.
    intros A B A' B' V W m m' g g' H G s s' L. destruct (H s s' L) as [L1 R]. unfold bind. destruct (m s) as [s1 [x|e]], (m' s') as [s1' [y|e']]; simpl in *; try tauto.
    apply (G x y R s1 s1' L1).
  Qed.
  Lemma sim_lift : forall A (r : res A), sim eq (lift r) (lift r).
  Proof. intros A r s s' L. split; simpl; auto. destruct r; auto. Qed.
  Lemma sim_lift_eq : forall A (r r' : res A), r = r' -> sim eq (lift r) (lift r').
  Proof. intros A r r' ->. apply sim_lift. Qed.
  Lemma sim_bind_lift : forall A B (r : res A) (g g' : A -> M B), (forall x, r = Ok x -> sim eq (g x) (g' x)) -> sim eq (bind (lift r) g) (bind (lift r) g').
  Proof. intros A B r g g' H s s' L. unfold bind, lift. destruct r as [x|e]; [apply (H x eq_refl s s' L)|]. split; simpl; auto. Qed.
  Lemma sim_item : sim irel (item i) (item i').
  Proof. intros s s' L. destruct (lr_item _ _ L) as [it [it' [A [B C]]]]. unfold item. rewrite A, B. split; auto. Qed.
  Lemma sim_parent : needs -> forall p p', pp = Some p -> pp' = Some p' -> sim prel (item p) (item p').
  Proof.
    intros N p p' P P' s s' L. destruct (lr_parent _ _ L N) as [q [q' [it [it' [A [B [C [D F]]]]]]]]. assert (q = p) by congruence. assert (q' = p') by congruence. subst q q'.
    unfold item. rewrite C, D. split; auto.
  Qed.
  Lemma update_other : forall A k (g : A -> A) j l y, nth_error l j = Some y -> exists z, nth_error (update_nth k g l) j = Some z /\ (z = y \/ z = g y).
  Proof.
    intros A k g. revert k. intros k j. revert k. induction j as [|j IH]; intros k l y H; destruct l as [|x l]; try discriminate; simpl in H.
    - injection H as ->. destruct k; simpl; eauto.
    - destruct k; simpl; eauto.
  Qed.
  Lemma sim_record : forall k st cm, sim eq (record_finding i k st cm) (record_finding i' k st cm).
  Proof.
    intros k st cm s s' L. destruct L as [[l [F1 F2]] [it [it' [A [B C]]]] LP C1 C2 CL]. unfold record_finding, bind, item. rewrite A, B. cbn [fst snd]. split; auto.
    destruct C as [O1 [O2 [N1 [N2 [A1 [A2 [P1 [P2 [Q1 [Q2 V]]]]]]]]]]. constructor; cbn [st_find st_items set_items set_find st_cache st_classes]; auto.
    - exists (l ++ [mkF a k st cm]). rewrite F1, F2, A1, A2, <- !app_assoc. auto.
    - eexists. eexists. split; [apply update_nth_same; exact A|]. split; [apply update_nth_same; exact B|]. unfold irel, set_vals. cbn. rewrite A1, A2, V. repeat (split; auto).
    - intros N. destruct (LP N) as [p [p' [pt [pt' [X1 [X2 [X3 [X4 [X5 [X6 [X7 X8]]]]]]]]]]].
      match goal with |- context [update_nth i ?g _] => destruct (update_other _ i g p _ _ X3) as [z [Z1 Z2]] end.
      match goal with |- context [update_nth i' ?g _] => destruct (update_other _ i' g p' _ _ X4) as [z' [Z3 Z4]] end.
      exists p, p', z, z'. split; auto. split; auto. split; auto. split; auto. unfold prel. destruct Z2 as [->| ->], Z4 as [->| ->]; cbn [it_obj it_addr set_vals]; auto.
  Qed.
  Lemma sim_for_each : forall A (g g' : A -> M unit) l, (forall x, sim eq (g x) (g' x)) -> sim eq (for_each g l) (for_each g' l).
  Proof. intros A g g' l H. induction l as [|x l IH]; [apply sim_ret|]. cbn [for_each]. eapply sim_bind; [apply H|]. intros; apply IH. Qed.
  Lemma key_same : forall k p, cache_key CC k p -> cache_key CD k p.
  Proof. intros k p []; econstructor; eauto. Qed.
  Lemma sim_regexp : forall k p, cache_key CC k p -> sim eq (cached_regexp k p) (cached_regexp k p).
  Proof.
    intros k p K s s' L. pose proof (key_same _ _ K) as K'. destruct L as [LF LI LP C1 C2 CL].
    assert (X : forall c t, cache_ok c t -> cache_key c k p -> snd (cached_regexp k p t) = re_compile p /\ cache_ok c (fst (cached_regexp k p t))).
    { intros c t HC HK. split.
      - unfold cached_regexp. destruct (dget k (st_cache t)) as [r|] eqn:G; simpl.
        + destruct (HC _ _ G) as [q [Hq Hq2]]. rewrite (cache_key_fun _ _ _ _ HK Hq). auto.
        + destruct (re_compile p); reflexivity.
      - destruct (logs_cached c (fun _ => True) k p HK t) as [log [_ [_ [R _]]]]. auto. }
    destruct (X _ _ C1 K) as [R1 D1]. destruct (X _ _ C2 K') as [R2 D2]. rewrite R1, R2. split; [|destruct (re_compile p); auto].
    assert (S : forall t, st_find (fst (cached_regexp k p t)) = st_find t /\ st_items (fst (cached_regexp k p t)) = st_items t /\ st_classes (fst (cached_regexp k p t)) = st_classes t).
    { intros t. unfold cached_regexp. destruct (dget k (st_cache t)); [auto|]. destruct (re_compile p); auto. }
    destruct (S s) as [S1 [S2 S3]]. destruct (S s') as [S4 [S5 S6]]. constructor; rewrite ?S1, ?S2, ?S3, ?S4, ?S5, ?S6; auto.
  Qed.

  Lemma sim_first : forall x l, keys_legit CC l -> sim eq (first_match CC x l) (first_match CD x l).
  Proof.
    intros x l. induction l as [|[k p] l IH]; intros K; cbn [first_match]; [apply sim_ret|]. inversion K; subst. cbn [c_env].
    eapply sim_bind; [apply sim_regexp; assumption|]. intros r ? <-. eapply sim_bind; [apply sim_lift|]. intros y ? <-.
    eapply sim_bind; [apply sim_lift|]. intros m ? <-. destruct m; [apply sim_ret|apply IH; auto].
  Qed.
  Lemma sim_match_key : forall x, sim eq (validItemName_match_key CC x) (validItemName_match_key CD x).
  Proof.
    intros x. unfold validItemName_match_key. change (getValidItemNamePatterns CD) with (getValidItemNamePatterns CC). eapply sim_bind; [apply sim_first; apply valid_patterns_keys|]. intros m ? <-. apply sim_ret.
  Qed.
  Lemma sim_match_text : forall s, sim eq (match_key_text CC s) (match_key_text CD s).
  Proof. intros. apply sim_match_key. Qed.
  Lemma sim_match_name : forall m, sim eq (match_key_name CC m) (match_key_name CD m).
  Proof. intros [m|]; [apply sim_match_text|apply sim_match_key]. Qed.

  Ltac rows H := destruct H as [O1 [O2 [N1 [N2 [A1 [A2 [P1 [P2 [Q1 [Q2 V]]]]]]]]]].
  Ltac rowsb H := destruct H as [O3 [O4 [N3 [N4 [A3 [A4 [P3 [P4 [Q3 [Q4 V2]]]]]]]]]].
  Ltac finish :=
    repeat match goal with
    | |- sim _ (ret _) _ => apply sim_ret
    | |- sim _ (raise _) _ => apply sim_raise
    | |- sim _ (record_finding _ _ _ _) _ => apply sim_record
    | |- sim _ (lift _) _ => apply sim_lift
    | |- sim _ (bind _ _) _ => eapply sim_bind with (V := eq); [|intros ? ? <-]
    | |- sim _ (match ?x with _ => _ end) (match ?x with _ => _ end) => destruct x
    end.

  Lemma opt_case : forall A (x : option A), x = None \/ exists y, x = Some y.
  Proof. intros A [y|]; eauto. Qed.
  Lemma pp_case : (pp = None /\ pp' = None) \/ exists p p', pp = Some p /\ pp' = Some p'.
  Proof.
    destruct (opt_case _ pp) as [X|[p X]]; [left; split; auto; apply Hpp; auto|]. destruct (opt_case _ pp') as [Y|[p' Y]]; [|eauto 10].
    apply Hpp in Y. congruence.
  Qed.
  Lemma target_here : forall it it', prel it it' -> isNeXusLinkTarget CC it = isNeXusLinkTarget CD it'.
  Proof.
    intros it it' [A1 [A2 [A3 A4]]]. unfold isNeXusLinkTarget. cbn [c_world c_env]. rewrite A1, A2, A3, A4. revert Hpo. destruct po as [h|v]; intros Hpo0; [|reflexivity].
    cbn [hobj_attrs rbind]. rewrite (attr_same w w' file f f' Hf Hf' Hr Hd h (py "target") Hpo0). reflexivity.
  Qed.

  Lemma parents : needs -> forall p, pp = Some p -> exists p', pp' = Some p' /\ sim prel (item p) (item p').
  Proof.
    intros N p P. destruct pp_case as [[X _]|[q [p' [X Y]]]]; [congruence|]. exists p'. split; auto. apply sim_parent; auto.
  Qed.

  Lemma sim_name : sim eq (item_name_verify CC i) (item_name_verify CD i').
  Proof.
    unfold item_name_verify. eapply sim_bind; [apply sim_item|]. intros it it' R. pose proof R as R0. rows R. rewrite Q1, Q2. unfold name_done. rewrite N1, N2, A1, A2, P1, P2, O1, O2, V.
    destruct pp_case as [[Epp Epp']|[p [p' [Epp Epp']]]]; rewrite Epp, Epp'; [apply sim_ret|].
    destruct (match n with Some n0 => dmem n0 (it_vals it') | None => false end); [apply sim_ret|].
    destruct (match a with Some a0 => endswith a0 _ | None => false end).
    { unfold handle_NX_class. eapply sim_bind; [apply sim_item|]. intros jt jt' R. rowsb R. rewrite O3, O4. cbn [c_patterns].
      apply sim_bind_lift. intros l El.
      assert (El2 : dget (py "validNXClassName") (c_patterns CC) = Some l) by (unfold dgetitem in El; cbn [c_patterns]; destruct (dget (py "validNXClassName") pats); congruence).
      eapply sim_bind; [apply sim_first; apply (enum_patterns_keys CC l l 0 El2); reflexivity|].
      intros m ? <-. finish. }
    destruct (has_char ch_at cp) eqn:Ec.
    { eapply sim_bind; [apply sim_parent; auto; left; auto|]. intros jt jt' R. rewrite (target_here _ _ R). eapply sim_bind; [apply sim_lift|]. intros m ? <-.
      destruct m; [apply sim_ret|]. unfold handle_any_attribute. eapply sim_bind; [apply sim_item|]. intros kt kt' R2. rowsb R2. rewrite N3, N4.
      eapply sim_bind; [apply sim_match_name|]. intros k ? <-. finish. }
    assert (X : is_named_object CC o = is_named_object CD o).
    { unfold is_named_object. cbn [c_world]. rewrite (isgroup_here _ Ho), (isdataset_here _ Ho), (islink_here _ Ho). reflexivity. }
    rewrite X. eapply sim_bind; [apply sim_lift|]. intros m ? <-. destruct m; [|finish].
    unfold handle_groups_and_fields. eapply sim_bind; [apply sim_item|]. intros kt kt' R2. rowsb R2. rewrite N3, N4, P3, P4.
    eapply sim_bind; [apply sim_match_name|]. intros k ? <-. finish.
  Qed.

  Lemma sim_parent_item : needs -> forall it it', irel it it' -> sim prel (parent_item it) (parent_item it').
  Proof.
    intros N it it' R. rows R. unfold parent_item. rewrite Q1, Q2. destruct pp_case as [[Epp Epp']|[p [p' [Epp Epp']]]]; rewrite Epp, Epp'; [apply sim_raise|]. apply sim_parent; auto.
  Qed.

  Lemma class_here : forall k s s', lrel s s' -> option_map (fun d => isBaseClassNXDL d) (dget k (st_classes s)) = option_map (fun d => isBaseClassNXDL d) (dget k (st_classes s')).
  Proof.
    intros k s s' L. pose proof (strip_get _ _ k (lr_classes _ _ L)) as X. destruct (dget k (st_classes s)) as [d|], (dget k (st_classes s')) as [d'|]; try discriminate; auto.
    cbn [option_map] in *. f_equal. apply SimFacts.isBase_strip. congruence.
  Qed.

  Lemma sim_target_parts : forall l x, sim eq (target_parts CC i x l) (target_parts CD i' x l).
  Proof.
    induction l as [|p l IH]; intros x; cbn [target_parts]; [apply sim_ret|]. eapply sim_bind; [apply sim_match_text|]. intros k ? <-.
    destruct k; [|finish]. cbv zeta. cbn [c_world c_root]. rewrite root_here. eapply sim_bind; [apply sim_lift|]. intros m ? <-. destruct m; [apply IH|finish].
  Qed.

  Lemma sim_attribute : sim eq (attribute_verify CC i) (attribute_verify CD i').
  Proof.
    unfold attribute_verify. eapply sim_bind; [apply sim_item|]. intros it it' R. pose proof R as R0. rows R. rewrite A1, A2, N1, N2.
    destruct (opt_case _ a) as [Ea|[x Ea]]; rewrite Ea; [apply sim_ret|]. destruct (has_char ch_at x) eqn:Ex; cbn [negb]; [|apply sim_ret].
    assert (N : needs) by (right; exists x; auto).
    destruct (opt_case _ n) as [En|[m En]]; rewrite En; [apply sim_raise|].
    destruct (str_eqb m (py "NX_class")).
    { unfold nxclass_handler. eapply sim_bind; [apply sim_item|]. intros jt jt' R. rowsb R. rewrite O3, O4. cbn [c_env]. eapply sim_bind; [apply sim_lift|]. intros y ? <-.
      intros s s' L. unfold bind, get. destruct y as [h|v]; [apply (sim_raise _ _ eq TypeError s s' L)|].
      destruct v; try (apply (sim_raise _ _ eq TypeError s s' L)). pose proof (class_here s0 _ _ L) as X.
      destruct (dget s0 (st_classes s)) as [d|], (dget s0 (st_classes s')) as [d'|]; try discriminate X.
      - cbn [option_map] in X. assert (X1 : isBaseClassNXDL d = isBaseClassNXDL d') by congruence. rewrite X1. destruct (isBaseClassNXDL d'); apply sim_record; auto.
      - apply sim_record; auto. }
    destruct (str_eqb m (py "target")).
    { unfold target_handler. eapply sim_bind; [apply sim_item|]. intros jt jt' R. rowsb R. rewrite O3, O4. cbn [c_env c_world c_root]. eapply sim_bind; [apply sim_lift|]. intros y ? <-.
      destruct y as [h|v]; [apply sim_raise|]. destruct v; try apply sim_raise. destruct (negb (startswith s slash)); [finish|].
      eapply sim_bind; [apply sim_target_parts|]. intros t ? <-. destruct t; [|finish]. rewrite root_here. finish. }
    destruct (str_eqb m (py "signal")).
    { unfold signal_handler. eapply sim_bind; [apply sim_item|]. intros jt jt' R. pose proof R as R1. rowsb R. rewrite O3, O4. cbn [c_env c_world]. eapply sim_bind; [apply sim_lift|]. intros y ? <-.
      eapply sim_bind; [apply sim_parent_item; auto|]. intros pt pt' [B1 [B2 _]]. rewrite B1, B2, (isdataset_here _ Hpo), (isgroup_here _ Hpo).
      destruct (hobj_isdataset w' po).
      { eapply sim_bind with (V := eq); [|intros t ? <-; finish]. finish. }
      destruct (hobj_isgroup w' po); [|unfold generic_handler; finish]. eapply sim_bind; [apply sim_match_key|]. intros k ? <-.
      destruct y as [h|v]; [apply sim_raise|]. eapply sim_bind; [apply sim_lift|]. intros tn ? <-. destruct (name_verdict k). rewrite (in_here _ v Hpo). finish. }
    destruct (str_eqb m (py "axes")).
    { unfold axes_handler. eapply sim_bind; [apply sim_item|]. intros jt jt' R. pose proof R as R1. rowsb R. rewrite O3, O4. cbn [c_env]. eapply sim_bind; [apply sim_lift|]. intros y ? <-.
      eapply sim_bind; [apply sim_parent_item; auto|]. intros pt pt' [B1 [B2 _]]. rewrite B1, B2. eapply sim_bind; [|intros ? ? _; finish].
      apply sim_for_each. intros z. unfold axis_check. eapply sim_bind; [apply sim_match_key|]. intros k ? <-. destruct (name_verdict k).
      eapply sim_bind; [apply sim_record|]. intros _ _ _. destruct z as [h|v]; [apply sim_raise|]. cbn [c_world]. rewrite (get_here _ v Hpo). finish. }
    unfold generic_handler. finish.
  Qed.

  Lemma sim_check : sim eq (check_item CC i) (check_item CD i').
  Proof. unfold check_item. eapply sim_bind; [apply sim_name|]. intros _ _ _. apply sim_attribute. Qed.
End Sim.
