(** * What the check functions do to the state

    Proof infrastructure: each check function only records findings (with test
    names of its own kind), keeps the pattern cache coherent, and changes NXDL
    classes at most in the [minOccurs] of their top level groups. *)

From Coq Require Import List NArith ZArith Bool String Lia.
From Verif Require Import PyBase PyFacts Regex Utf8 H5 Findings Nxdl Core Catalog ItemName AttributeCheck
  GroupChecks AppDef DefaultPlot Validate Trace.
Import ListNotations.

(** ** Classes up to minOccurs *)
Definition strip_group (g : nxgroup) : nxgroup := let 'NXG n a f gs l _ := g in NXG n a f gs l None.
Definition strip_def (d : nxdef) : nxdef :=
  set_d_groups d (map (fun ng => (fst ng, strip_group (snd ng))) (d_groups d)).
Definition strip_classes (cl : classes) : classes := map (fun kd => (fst kd, strip_def (snd kd))) cl.

Lemma map_snd_dset : forall V W (f : V -> W) k v v0 (d : dict V),
  dget k d = Some v0 -> f v = f v0 ->
  map (fun kv => (fst kv, f (snd kv))) (dset k v d) = map (fun kv => (fst kv, f (snd kv))) d.
Proof.
  unfold dget, dset. induction d as [|[k' v'] d IH]; simpl; intros; [discriminate|].
  destruct (str_eqb k k') eqn:E; simpl.
  - inversion H; subst. congruence.
  - rewrite IH; auto.
Qed.

Lemma dget_map_snd : forall V W (f : V -> W) k (d : dict V),
  dget k (map (fun kv => (fst kv, f (snd kv))) d) = option_map f (dget k d).
Proof.
  unfold dget. induction d as [|[k' v'] d IH]; simpl; auto. destruct (str_eqb k k'); auto.
Qed.

Lemma strip_set_minOccurs : forall z g, strip_group (set_minOccurs z g) = strip_group g.
Proof. intros z []. reflexivity. Qed.

Lemma strip_store : forall title name z s,
  strip_classes (st_classes (fst (store_minOccurs title name z s))) = strip_classes (st_classes s).
Proof.
  intros. unfold store_minOccurs. simpl.
  destruct (dget title (st_classes s)) as [d|] eqn:E1; auto.
  destruct (dget name (d_groups d)) as [g|] eqn:E2; auto.
  unfold strip_classes. apply map_snd_dset with (v0 := d); auto.
  unfold strip_def, set_d_groups. simpl. f_equal.
  apply map_snd_dset with (v0 := g); auto. apply strip_set_minOccurs.
Qed.

(** ** The pattern cache *)
(** the keys under which patterns are cached, and the pattern each stands for *)
Inductive cache_key (c : ctx) : pystr -> pystr -> Prop :=
| ck_strict : cache_key c (py "strict pattern: " ++ STRICT_PATTERN) STRICT_PATTERN
| ck_relaxed : forall p, cache_key c (py "relaxed pattern: " ++ p) p
| ck_class : forall l n p, dget (py "validNXClassName") (c_patterns c) = Some l -> nth_error l n = Some p ->
    cache_key c (py "validNXClassName" ++ py "-" ++ str_nat n) p.

Definition cache_ok (c : ctx) (s : vstate) : Prop :=
  forall k r, dget k (st_cache s) = Some r -> exists p, cache_key c k p /\ re_compile p = Ok r.

Definition rel (c : ctx) (s s' : vstate) : Prop :=
  (cache_ok c s -> cache_ok c s') /\ strip_classes (st_classes s') = strip_classes (st_classes s).

Lemma rel_refl : forall c s, rel c s s.
Proof. split; auto. Qed.
Lemma rel_trans : forall c s1 s2 s3, rel c s1 s2 -> rel c s2 s3 -> rel c s1 s3.
Proof. intros c s1 s2 s3 [] []. split; auto. congruence. Qed.
Lemma rel_same : forall c s s', st_cache s' = st_cache s -> st_classes s' = st_classes s -> rel c s s'.
Proof. intros c s s' H1 H2. split; [unfold cache_ok; rewrite H1; auto | congruence]. Qed.

Section Logs.
  Variable c : ctx.
  Variable P : event -> Prop.

  Definition logs {A} (m : M A) : Prop :=
    forall s, exists log, trace s log (fst (m s)) /\ Forall P log /\ rel c s (fst (m s)).

  Lemma logs_id : forall A (m : M A), (forall s, fst (m s) = s) -> logs m.
  Proof.
    intros A m H s. exists []. rewrite H. split; [apply trace_nil | split; [constructor | apply rel_refl]].
  Qed.
  Lemma logs_ret : forall A (a : A), logs (ret a).
  Proof. intros. apply logs_id. reflexivity. Qed.
  Lemma logs_raise : forall A e, logs (@raise A e).
  Proof. intros. apply logs_id. reflexivity. Qed.
  Lemma logs_lift : forall A (r : res A), logs (lift r).
  Proof. intros. apply logs_id. reflexivity. Qed.
  Lemma logs_get : logs get.
  Proof. intros. apply logs_id. reflexivity. Qed.
  Lemma logs_item : forall i, logs (item i).
  Proof. intros. apply logs_id. intros. unfold item. destruct (nth_error (st_items s) i); auto. Qed.
  Lemma logs_address_item : forall a, logs (address_item a).
  Proof. intros. apply logs_id. intros. unfold address_item. destruct (aget ostr_eqb a (st_addr s)); auto. Qed.
  Lemma logs_classpath_list : forall a, logs (classpath_list a).
  Proof. intros. apply logs_id. reflexivity. Qed.
  Lemma logs_bind : forall A B (m : M A) (f : A -> M B), logs m -> (forall a, logs (f a)) -> logs (bind m f).
  Proof.
    intros A B m f Hm Hf s. destruct (Hm s) as [l1 [T1 [F1 R1]]]. unfold bind.
    destruct (m s) as [s1 [a|e]]; simpl in *.
    - destruct (Hf a s1) as [l2 [T2 [F2 R2]]]. exists (l1 ++ l2). split; [|split].
      + eapply trace_app; eauto.
      + apply Forall_app. auto.
      + eapply rel_trans; eauto.
    - exists l1. auto.
  Qed.
  Lemma logs_bind_lift : forall A B (r : res A) (f : A -> M B),
    (forall a, r = Ok a -> logs (f a)) -> logs (bind (lift r) f).
  Proof.
    intros A B [a|e] f H s.
    - apply (H a eq_refl s).
    - exists []. split; [apply trace_nil | split; [constructor | apply rel_refl]].
  Qed.
  Lemma logs_for_each : forall A (f : A -> M unit) l, (forall x, In x l -> logs (f x)) -> logs (for_each f l).
  Proof.
    induction l; simpl; intros.
    - apply logs_ret.
    - apply logs_bind; auto.
  Qed.
  Lemma logs_record : forall i k st cm, (forall a, P (ERec i (mkF a k st cm))) -> logs (record_finding i k st cm).
  Proof.
    intros i k st cm H s. unfold record_finding, bind, item.
    destruct (nth_error (st_items s) i) as [it|] eqn:E; simpl.
    - exists [ERec i (mkF (it_addr it) k st cm)]. split; [|split].
      + constructor; simpl; auto. split; auto. exists it. auto.
      + auto.
      + apply rel_same; reflexivity.
    - exists []. split; [apply trace_nil | split; [constructor | apply rel_refl]].
  Qed.
  Lemma logs_new_item : forall it, it_vals it = [] -> P (ENew it) -> logs (new_item it).
  Proof.
    intros it Hv H s. exists [ENew it]. split; [|split].
    - constructor; simpl; auto. rewrite app_nil_r. reflexivity.
    - auto.
    - apply rel_same; reflexivity.
  Qed.
  Lemma logs_store : forall t n z, logs (store_minOccurs t n z).
  Proof.
    intros t n z s. exists []. split; [|split].
    - constructor; simpl; auto. rewrite app_nil_r. reflexivity.
    - constructor.
    - split; [|apply strip_store]. unfold cache_ok. auto.
  Qed.
  Lemma logs_cached : forall k p, cache_key c k p -> logs (cached_regexp k p).
  Proof.
    intros k p Hk s. exists []. unfold cached_regexp.
    destruct (dget k (st_cache s)) eqn:E; [split; [apply trace_nil | split; [constructor | apply rel_refl]]|].
    destruct (re_compile p) eqn:E2; simpl.
    - split; [|split; [constructor|]].
      + constructor; simpl; auto. rewrite app_nil_r. reflexivity.
      + split; auto. unfold cache_ok. simpl. intros H k' r' H'.
        destruct (str_eqb_spec k k').
        * subst. rewrite dget_dset_same in H'. inversion H'; subst. eauto.
        * rewrite dget_dset_other in H'; auto.
    - split; [apply trace_nil | split; [constructor | apply rel_refl]].
  Qed.
  Lemma logs_first_match : forall o pats, Forall (fun kp => cache_key c (fst kp) (snd kp)) pats ->
    logs (first_match c o pats).
  Proof.
    induction pats as [|[k p] pats IH]; simpl; intros H.
    - apply logs_ret.
    - inversion H; subst. apply logs_bind; [apply logs_cached; auto | intros].
      apply logs_bind; [apply logs_lift | intros]. apply logs_bind; [apply logs_lift | intros].
      destruct a1; auto. apply logs_ret.
  Qed.
End Logs.

Lemma logs_weaken : forall c (P Q : event -> Prop) A (m : M A), (forall e, P e -> Q e) -> logs c P m -> logs c Q m.
Proof.
  intros c P Q A m H Hm s. destruct (Hm s) as [l [T [F R]]]. exists l. split; auto. split; auto.
  eapply Forall_impl; eauto.
Qed.

(** ** The patterns of name checks are cached under their own keys *)
Lemma fold_patterns_keys : forall c l d, Forall (fun kp => cache_key c (fst kp) (snd kp)) d ->
  Forall (fun kp => cache_key c (fst kp) (snd kp)) (fold_left (fun d p => dset (py "relaxed pattern: " ++ p) p d) l d).
Proof.
  induction l as [|p l IH]; simpl; intros; auto. apply IH.
  apply Forall_forall. intros [k q] Hin. apply (In_aset str_eqb str_eqb_eq) in Hin as [[-> ->]|Hin].
  - simpl. constructor.
  - rewrite Forall_forall in H. apply (H _ Hin).
Qed.

Lemma valid_patterns_keys : forall c, Forall (fun kp => cache_key c (fst kp) (snd kp)) (getValidItemNamePatterns c).
Proof.
  intros. unfold getValidItemNamePatterns.
  assert (Forall (fun kp => cache_key c (fst kp) (snd kp)) (dset (py "strict pattern: " ++ STRICT_PATTERN) STRICT_PATTERN [])).
  { constructor; [|constructor]. simpl. apply ck_strict. }
  destruct (dget (py "validItemName") (c_patterns c)); auto. apply fold_patterns_keys. auto.
Qed.

Lemma enum_patterns_keys : forall c l l' i,
  dget (py "validNXClassName") (c_patterns c) = Some l ->
  (forall n, nth_error l' n = nth_error l (i + n)) ->
  Forall (fun kp => cache_key c (fst kp) (snd kp)) (enum_patterns i l').
Proof.
  induction l' as [|p l' IH]; intros i Hl H; [constructor|].
  change (enum_patterns i (p :: l')) with ((py "validNXClassName" ++ py "-" ++ str_nat i, p) :: enum_patterns (S i) l').
  constructor.
  - apply ck_class with (l := l); auto. specialize (H 0%nat). simpl in H. rewrite Nat.add_0_r in H. auto.
  - apply IH; auto. intros n. specialize (H (S n)). simpl in H. rewrite H. f_equal. lia.
Qed.

Lemma logs_match_key : forall c P o, logs c P (validItemName_match_key c o).
Proof.
  intros. unfold validItemName_match_key. apply logs_bind; [|intros; apply logs_ret].
  apply logs_first_match. apply valid_patterns_keys.
Qed.

(** ** Automation *)
Ltac logs_step :=
  match goal with
  | |- logs _ _ (bind (lift _) _) => apply logs_bind_lift; intros ? ?
  | |- logs _ _ (bind _ _) => apply logs_bind; [|intros]
  | |- logs _ _ (ret _) => apply logs_ret
  | |- logs _ _ (raise _) => apply logs_raise
  | |- logs _ _ (lift _) => apply logs_lift
  | |- logs _ _ get => apply logs_get
  | |- logs _ _ (item _) => apply logs_item
  | |- logs _ _ (address_item _) => apply logs_address_item
  | |- logs _ _ (classpath_list _) => apply logs_classpath_list
  | |- logs _ _ (store_minOccurs _ _ _) => apply logs_store
  | |- logs _ _ (record_finding _ _ _ _) => apply logs_record; intros
  | |- logs _ _ (for_each _ _) => apply logs_for_each; intros
  | |- logs _ _ (validItemName_match_key _ _) => apply logs_match_key
  | |- logs _ _ (match_key_text _ _) => apply logs_match_key
  | |- logs _ _ (match ?x with _ => _ end) => destruct x
  | |- logs _ _ (let '(_, _) := ?x in _) => destruct x
  end.
Ltac lg := repeat logs_step.

(** ** Test names of each module *)
Definition is_key (k : string) : pystr -> bool := fun t => str_eqb t (py k).
Definition pre_key (k : string) : pystr -> bool := fun t => startswith t (py k).

Definition name_key (t : pystr) : bool := str_eqb t TEST_NAME.
Definition attr_key (t : pystr) : bool :=
  str_eqb t ATTR_TEST || pre_key "valid name @" t || pre_key "axes['" t.
Definition group_key (t : pystr) : bool :=
  is_key "known NXDL" t || is_key "NeXus base class" t || is_key "known attribute" t
  || is_key "attribute value enumeration" t || pre_key "value of @" t
  || is_key "field in base class" t || is_key "group in base class" t
  || is_key "unhandled: group_items_in_base_class" t || is_key "NXDL field in data file" t
  || is_key "NXDL group in data file" t || is_key "NeXus_group" t.
Definition app_key (t : pystr) : bool :=
  is_key "known NXDL" t || is_key "NeXus application definition" t || is_key "NXDL field" t
  || is_key "NXDL field enumerations" t.
Definition plot_key (t : pystr) : bool :=
  is_key "NeXus default plot v3, NXdata@signal" t || is_key "NeXus default plot v3 NIAC2014" t
  || is_key "NeXus default plot v2, @signal=1" t || is_key "NeXus default plot v2, @signal!=1" t
  || is_key "NeXus default plot v2" t || is_key "NeXus default plot v2, multiple @signal=1" t.

(** events on item [i] only, with test names from [K] *)
Definition on_item (K : pystr -> bool) (i : nat) (e : event) : Prop :=
  match e with ENew _ => False | ERec j f => j = i /\ K (f_test f) = true end.
(** events recording findings with test names from [K] *)
Definition with_key (K : pystr -> bool) (e : event) : Prop :=
  match e with ENew _ => False | ERec _ f => K (f_test f) = true end.
(** the same, items may be created *)
Definition with_key_new (K : pystr -> bool) (e : event) : Prop :=
  match e with ENew _ => True | ERec _ f => K (f_test f) = true end.

Ltac done_key := simpl; try split; solve [reflexivity | auto].

Lemma item_name_verify_logs : forall c i, logs c (on_item name_key i) (item_name_verify c i).
Proof.
  intros. unfold item_name_verify, handle_NX_class, handle_any_attribute, handle_groups_and_fields, match_key_name.
  lg; try done_key.
  unfold dgetitem in H. destruct (dget (py "validNXClassName") (c_patterns c)) as [l|] eqn:E; inversion H; subst.
  apply logs_first_match. eapply enum_patterns_keys; eauto.
Qed.

Lemma target_parts_logs : forall c i parts addr, logs c (on_item attr_key i) (target_parts c i addr parts).
Proof.
  induction parts; simpl; intros; lg; try done_key.
Qed.

Lemma attribute_verify_logs : forall c i, logs c (on_item attr_key i) (attribute_verify c i).
Proof.
  intros. unfold attribute_verify, nxclass_handler, target_handler, signal_handler, axes_handler, generic_handler,
    axis_check, parent_item.
  lg; try done_key; try apply target_parts_logs.
  simpl. split; auto. 
  match goal with H : concat_text _ _ = Ok _ |- _ => destruct v; simpl in H; inversion H; reflexivity end.
Qed.

Lemma check_item_logs : forall c i, logs c (on_item (fun t => name_key t || attr_key t) i) (check_item c i).
Proof.
  intros. unfold check_item. apply logs_bind; [|intros].
  - eapply logs_weaken; [|apply item_name_verify_logs]. intros [|j f]; simpl; auto.
    intros [-> ->]. auto.
  - eapply logs_weaken; [|apply attribute_verify_logs]. intros [|j f]; simpl; auto.
    intros [-> ->]. rewrite orb_true_r. auto.
Qed.

Lemma check_group_logs : forall c i, logs c (with_key group_key) (check_group c i).
Proof.
  intros. unfold check_group, validate_group, validate_NX_class_attribute, verify_group_attributes, group_attribute,
    verify_group_children, group_child, base_class_items_verify, base_field, base_group, child_exists.
  lg; try done_key.
Qed.

Lemma check_definition_logs : forall c i, logs c (with_key_new app_key) (check_definition c i).
Proof.
  intros. unfold check_definition, application_definition_verify.
  lg; try done_key.
  unfold ad_field. lg; try done_key.
  apply logs_new_item; simpl; auto.
  match goal with H : field_item _ _ _ _ ?h = Ok _ |- _ => destruct h; simpl in H end.
  - unfold node_item, rbind in *.
    repeat match goal with H : match ?x with _ => _ end = Ok _ |- _ => destruct x; try discriminate end.
    match goal with H : Ok _ = Ok _ |- _ => inversion H; reflexivity end.
  - match goal with H : Ok _ = Ok _ |- _ => inversion H end. unfold attr_item.
    destruct (str_eqb _ NON_NEXUS); reflexivity.
Qed.

(** ** Default plot *)
Lemma v3_item_logs : forall c i, logs c (with_key plot_key) (v3_item c i).
Proof. intros. unfold v3_item. lg; try done_key. Qed.

Lemma v3_loop_logs : forall c l a n, logs c (with_key plot_key) (v3_loop c a n l).
Proof.
  induction l as [|i l IH]; intros; cbn [v3_loop].
  - lg; try done_key.
  - apply logs_bind; [apply v3_item_logs | intros]. lg; auto.
Qed.

Lemma v2_collect_logs : forall c l r, logs c (with_key plot_key) (v2_collect c r l).
Proof.
  induction l as [|i l IH]; intros; cbn [v2_collect].
  - lg.
  - apply logs_bind; [|auto]. unfold v2_item, parent_item. lg; try done_key.
Qed.

Lemma v2_decide_logs : forall c l a, logs c (with_key plot_key) (v2_decide a l).
Proof.
  induction l as [|[g l'] l IH]; intros; cbn [v2_decide].
  - lg.
  - unfold parent_item. lg; try done_key; auto.
Qed.

Lemma default_plot_v3_logs : forall c, logs c (with_key plot_key) (default_plot_v3 c).
Proof. intros. unfold default_plot_v3. apply logs_bind; [apply logs_classpath_list | intros; apply v3_loop_logs]. Qed.
Lemma default_plot_v2_logs : forall c, logs c (with_key plot_key) (default_plot_v2 c).
Proof.
  intros. unfold default_plot_v2. apply logs_bind; [apply logs_get | intros].
  apply logs_bind; [apply v2_collect_logs | intros; apply v2_decide_logs].
Qed.

Definition methods (c : ctx) := [(py "v3", default_plot_v3 c); (py "v2", default_plot_v2 c); (py "v1", default_plot_v1 c)].

Lemma try_methods_logs : forall c, logs c (with_key plot_key) (try_methods (methods c)).
Proof.
  intros. unfold methods. cbn [try_methods].
  apply logs_bind; [apply default_plot_v3_logs | intros]. lg.
  apply default_plot_v2_logs. unfold default_plot_v1. lg.
Qed.

Definition step4_key (t : pystr) : bool := plot_key t || is_key "NeXus default plot" t.

Lemma default_plot_verify_logs : forall c, logs c (with_key step4_key) (default_plot_verify c).
Proof.
  intros. unfold default_plot_verify. apply logs_bind; [apply logs_address_item | intros].
  apply logs_bind.
  - eapply logs_weaken; [|apply try_methods_logs]. intros [|j f]; simpl; auto. unfold step4_key. intros ->. auto.
  - intros. lg; try done_key.
Qed.

(** ** The steps of validate() *)
Lemma step1_logs : forall c l, logs c (with_key (fun t => name_key t || attr_key t)) (for_each (check_item c) l).
Proof.
  intros. apply logs_for_each. intros i _. eapply logs_weaken; [|apply check_item_logs].
  intros [|j f]; simpl; auto. tauto.
Qed.
Lemma step2_logs : forall c l, logs c (with_key group_key) (for_each (check_group c) l).
Proof. intros. apply logs_for_each. intros. apply check_group_logs. Qed.
Lemma step3_logs : forall c l, logs c (with_key_new app_key) (for_each (check_definition c) l).
Proof. intros. apply logs_for_each. intros. apply check_definition_logs. Qed.

(** ** The last finding of an item for a test *)
Fixpoint last_rec (k : pystr) (i : nat) (log : list event) : option finding :=
  match log with
  | [] => None
  | e :: rest =>
      match last_rec k i rest with
      | Some f => Some f
      | None => match e with
                | ERec j f => if Nat.eqb j i && str_eqb (f_test f) k then Some f else None
                | ENew _ => None
                end
      end
  end.

Lemma last_rec_app : forall k i l1 l2,
  last_rec k i (l1 ++ l2) = match last_rec k i l2 with Some f => Some f | None => last_rec k i l1 end.
Proof.
  induction l1 as [|e l1 IH]; simpl; intros.
  - destruct (last_rec k i l2); auto.
  - rewrite IH. destruct (last_rec k i l2); auto.
Qed.

Lemma apply_log_vals : forall k log items i it, nth_error items i = Some it ->
  exists it', nth_error (apply_log items log) i = Some it' /\ skel it' = skel it
    /\ dget k (it_vals it') = match last_rec k i log with Some f => Some f | None => dget k (it_vals it) end.
Proof.
  induction log as [|e log IH]; simpl; intros items i it H.
  - eauto.
  - assert (H1 : exists it1, nth_error (apply_event items e) i = Some it1 /\ skel it1 = skel it
      /\ dget k (it_vals it1) =
         match match e with ERec j f => if Nat.eqb j i && str_eqb (f_test f) k then Some f else None | ENew _ => None end
         with Some f => Some f | None => dget k (it_vals it) end).
    { destruct e as [n|j f]; simpl.
      - exists it. split; auto. rewrite nth_error_app1; auto. apply nth_error_Some. congruence.
      - destruct (Nat.eqb_spec j i); simpl.
        + subst. rewrite (update_nth_same _ _ _ _ H). eexists. split; [reflexivity|]. split; auto. simpl.
          destruct (str_eqb_spec (f_test f) k).
          * subst. apply dget_dset_same.
          * apply dget_dset_other. auto.
        + rewrite update_nth_other by auto. eauto. }
    destruct H1 as [it1 [H1 [E1 D1]]]. destruct (IH _ _ _ H1) as [it2 [H2 [E2 D2]]].
    exists it2. split; auto. split; [congruence|]. rewrite D2, D1.
    destruct (last_rec k i log); auto.
Qed.

Lemma trace_vals : forall k s log s' i it, trace s log s' -> nth_error (st_items s) i = Some it ->
  exists it', nth_error (st_items s') i = Some it' /\ skel it' = skel it
    /\ dget k (it_vals it') = match last_rec k i log with Some f => Some f | None => dget k (it_vals it) end.
Proof. intros. rewrite (tr_items _ _ _ H). apply apply_log_vals. auto. Qed.

Lemma last_rec_none : forall k i log, Forall (fun e => match e with ERec j f => j = i -> f_test f <> k | ENew _ => True end) log ->
  last_rec k i log = None.
Proof.
  induction 1 as [|e log H HF IH]; simpl; auto. rewrite IH. destruct e; auto.
  destruct (Nat.eqb_spec i0 i); simpl; auto. apply str_eqb_neq in H; auto. rewrite H. auto.
Qed.

(** if no event of the log concerns item [i], it keeps its findings *)
Lemma apply_log_other : forall log items i it, nth_error items i = Some it ->
  Forall (fun e => match e with ERec j _ => j <> i | ENew _ => True end) log ->
  nth_error (apply_log items log) i = Some it.
Proof.
  induction log as [|e log IH]; simpl; intros items i it H HF; auto. inversion HF; subst.
  apply IH; auto. destruct e; simpl.
  - rewrite nth_error_app1; auto. apply nth_error_Some. congruence.
  - rewrite update_nth_other; auto.
Qed.

(** ** Loops *)
Lemma for_each_app : forall A (f : A -> M unit) l1 l2 s,
  for_each f (l1 ++ l2) s = bind (for_each f l1) (fun _ => for_each f l2) s.
Proof.
  induction l1 as [|x l1 IH]; simpl; intros; auto.
  unfold bind at 1. unfold bind at 1. unfold bind at 1. destruct (f x s) as [s1 [u|e]]; auto. rewrite IH. reflexivity.
Qed.

Lemma for_each_split : forall A (f : A -> M unit) l1 x l2 s s' u,
  for_each f (l1 ++ x :: l2) s = (s', Ok u) ->
  exists s1 s2 u1 u2, for_each f l1 s = (s1, Ok u1) /\ f x s1 = (s2, Ok u2) /\ for_each f l2 s2 = (s', Ok u).
Proof.
  intros. rewrite for_each_app in H. inv_ok. simpl in H. inv_ok. eauto 10.
Qed.

Lemma logs_run : forall c P A (m : M A) s s' r, logs c P m -> m s = (s', r) ->
  exists log, trace s log s' /\ Forall P log /\ rel c s s'.
Proof. intros c P A m s s' r H E. destruct (H s) as [log HL]. rewrite E in HL. eauto. Qed.
