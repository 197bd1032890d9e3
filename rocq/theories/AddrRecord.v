(** * Every recorded finding has an address *)

From Coq Require Import List NArith ZArith Bool String Lia Permutation.
From Verif Require Import PyBase PyFacts Regex Utf8 H5 Findings Nxdl Core Catalog ItemName AttributeCheck
  GroupChecks AppDef DefaultPlot Validate Trace CheckFacts CatalogFacts Spec_Run Spec_Catalog CatalogRun CatalogEnd RunFacts.
Import ListNotations.

(** ** Running from a given state *)
Definition runs (P : event -> Prop) (s : vstate) {A} (m : M A) : Prop := exists log, trace s log (fst (m s)) /\ Forall P log.
Definition ext (s s' : vstate) : Prop := exists log, trace s log s'.

Lemma ext_refl : forall s, ext s s.
Proof. intros. exists []. apply trace_nil. Qed.
Lemma ext_trans : forall a b c, ext a b -> ext b c -> ext a c.
Proof. intros a b c [l1 H1] [l2 H2]. exists (l1 ++ l2). eapply trace_app; eauto. Qed.
Lemma ext_item : forall s s' i it, ext s s' -> nth_error (st_items s) i = Some it -> exists it', nth_error (st_items s') i = Some it' /\ skel it' = skel it.
Proof. intros s s' i it [l T] H. eapply trace_item; eauto. Qed.

Section Runs.
  Variable P : event -> Prop.

  Lemma runs_bind : forall A B (m : M A) (f : A -> M B) s, runs P s m ->
    (forall a s1, m s = (s1, Ok a) -> ext s s1 -> runs P s1 (f a)) -> runs P s (bind m f).
  Proof.
    intros A B m f s [l1 [T1 F1]] H. unfold runs, bind. destruct (m s) as [s1 [a|e]] eqn:E; simpl in *.
    - destruct (H a s1 eq_refl (ex_intro _ _ T1)) as [l2 [T2 F2]]. exists (l1 ++ l2). split; [eapply trace_app; eauto | apply Forall_app; auto].
    - eauto.
  Qed.
  Lemma runs_id : forall A (m : M A) s, fst (m s) = s -> runs P s m.
  Proof. intros A m s H. exists []. rewrite H. split; [apply trace_nil | constructor]. Qed.
  Lemma runs_ret : forall A (a : A) s, runs P s (ret a).
  Proof. intros. apply runs_id. reflexivity. Qed.
  Lemma runs_raise : forall A e s, runs P s (@raise A e).
  Proof. intros. apply runs_id. reflexivity. Qed.
  Lemma runs_lift : forall A (r : res A) s, runs P s (lift r).
  Proof. intros. apply runs_id. reflexivity. Qed.
  Lemma runs_bind_lift : forall A B (r : res A) (f : A -> M B) s, (forall a, r = Ok a -> runs P s (f a)) -> runs P s (bind (lift r) f).
  Proof. intros A B [a|e] f s H; [apply H; auto | apply runs_id; reflexivity]. Qed.
  Lemma runs_bind_item : forall B i (f : vitem -> M B) s, (forall it, nth_error (st_items s) i = Some it -> runs P s (f it)) -> runs P s (bind (item i) f).
  Proof.
    intros B i f s H. unfold runs, bind, item. destruct (nth_error (st_items s) i) as [it|] eqn:E.
    - apply (H it eq_refl).
    - apply (runs_id _ (fun s => (s, Exn AssertionError : res B)) s). reflexivity.
  Qed.
  Lemma runs_bind_get : forall B (f : vstate -> M B) s, runs P s (f s) -> runs P s (bind get f).
  Proof. intros. exact H. Qed.
  Lemma runs_bind_addr : forall B a (f : nat -> M B) s, (forall i, In (a, i) (st_addr s) -> runs P s (f i)) -> runs P s (bind (address_item a) f).
  Proof.
    intros B a f s H. unfold runs, bind, address_item. destruct (aget ostr_eqb a (st_addr s)) as [i|] eqn:E.
    - apply H. eapply aget_In; eauto. apply ostr_eqb_eq.
    - apply (runs_id _ (fun s => (s, Exn KeyError : res B)) s). reflexivity.
  Qed.
  Lemma runs_for_each : forall A (f : A -> M unit) l s, (forall x s1, In x l -> ext s s1 -> runs P s1 (f x)) -> runs P s (for_each f l).
  Proof.
    induction l as [|x l IH]; intros s H; cbn [for_each]; [apply runs_ret|].
    apply runs_bind; [apply H; [left; auto | apply ext_refl]|]. intros _ s1 _ X. apply IH. intros y s2 Hy Y. apply H; [right; auto | eapply ext_trans; eauto].
  Qed.
  Lemma runs_record : forall i k st cm s, (forall it, nth_error (st_items s) i = Some it -> P (ERec i (mkF (it_addr it) k st cm))) ->
    runs P s (record_finding i k st cm).
  Proof.
    intros i k st cm s H. unfold runs, record_finding, bind, item. destruct (nth_error (st_items s) i) as [it|] eqn:E; simpl.
    - exists [ERec i (mkF (it_addr it) k st cm)]. split; auto. constructor; simpl; auto. split; auto. exists it. auto.
    - exists []. split; [apply trace_nil | constructor].
  Qed.
  Lemma runs_new_item : forall it s, it_vals it = [] -> P (ENew it) -> runs P s (new_item it).
  Proof.
    intros it s Hv H. exists [ENew it]. split; auto. constructor; simpl; auto. rewrite app_nil_r. reflexivity.
  Qed.
  Lemma runs_store : forall t n z s, runs P s (store_minOccurs t n z).
  Proof. intros. exists []. split; [|constructor]. constructor; simpl; auto. rewrite app_nil_r. reflexivity. Qed.
  Lemma runs_logs : forall c A (m : M A) s, logs c P m -> runs P s m.
  Proof. intros c A m s H. destruct (H s) as [log [T [F _]]]. exists log. auto. Qed.
End Runs.

Lemma runs_weaken : forall (P Q : event -> Prop) A (m : M A) s, (forall e, P e -> Q e) -> runs P s m -> runs Q s m.
Proof. intros P Q A m s H [l [T F]]. exists l. split; auto. eapply Forall_impl; eauto. Qed.

(** ** Items with an address *)
Definition with_addr (e : event) : Prop := match e with ENew _ => True | ERec _ f => f_addr f <> None end.

Definition good (s : vstate) (i : nat) : Prop := exists it, nth_error (st_items s) i = Some it /\ it_addr it <> None.

Lemma good_ext : forall s s' i, ext s s' -> good s i -> good s' i.
Proof.
  intros s s' i X [it [H1 H2]]. destruct (ext_item _ _ _ _ X H1) as [it' [H3 H4]]. exists it'. split; auto. rewrite (skel_addr _ _ H4). auto.
Qed.

Lemma good_record : forall i k st cm s, good s i -> runs with_addr s (record_finding i k st cm).
Proof. intros i k st cm s [it [H1 H2]]. apply runs_record. intros it' H. simpl. congruence. Qed.

(** the records of a check that records on one item only *)
Lemma good_on_item : forall c K i A (m : M A) s, logs c (on_item K i) m -> good s i -> runs with_addr s m.
Proof.
  intros c K i A m s H HG. destruct (H s) as [log [T [F _]]]. exists log. split; auto.
  pose proof (tr_ok _ _ _ T) as Hok. destruct HG as [it [Hi Ha]]. clear T. revert Hok F it Hi Ha. generalize (st_items s).
  induction log as [|e log IH]; intros items Hok F it Hi Ha; constructor.
  - inversion F; subst. destruct Hok as [Hok _]. destruct e as [n|j f]; simpl in *; auto. destruct H2 as [-> _]. destruct Hok as [it' [E1 E2]]. congruence.
  - inversion F; subst. destruct Hok as [_ Hok]. destruct (apply_event_skel _ e _ _ Hi) as [it' [E1 E2]].
    eapply IH; eauto. rewrite (skel_addr _ _ E2). auto.
Qed.

Ltac carry X :=
  match type of X with
  | ext ?s ?s1 =>
      repeat match goal with
             | H : ext ?s0 s |- _ => lazymatch s0 with s => fail | _ => apply (fun H => ext_trans _ _ _ H X) in H end
             | H : good s _ |- _ => apply (good_ext _ _ _ X) in H
             end
  end.

Ltac run_step :=
  match goal with
  | |- runs _ _ (bind (lift _) _) => apply runs_bind_lift; intros ? ?
  | |- runs _ _ (bind (item _) _) => apply runs_bind_item; intros ? ?
  | |- runs _ _ (bind get _) => apply runs_bind_get
  | |- runs _ _ (bind (address_item _) _) => apply runs_bind_addr; intros ? ?
  | |- runs _ _ (bind (ret _) _) => apply runs_bind; [apply runs_ret | let X := fresh "X" in intros ? ? _ X; carry X]
  | |- runs _ _ (bind (record_finding _ _ _ _) _) => apply runs_bind; [apply good_record | let X := fresh "X" in intros ? ? _ X; carry X]
  | |- runs _ _ (bind (match ?x with _ => _ end) _) => destruct x
  | |- runs _ _ (bind _ _) => apply runs_bind; [|let X := fresh "X" in intros ? ? _ X; carry X]
  | |- runs _ _ (ret _) => apply runs_ret
  | |- runs _ _ (raise _) => apply runs_raise
  | |- runs _ _ (lift _) => apply runs_lift
  | |- runs _ _ (store_minOccurs _ _ _) => apply runs_store
  | |- runs _ _ (record_finding _ _ _ _) => apply good_record
  | |- runs _ _ (for_each _ _) => apply runs_for_each; let X := fresh "X" in intros ? ? ? X; carry X
  | |- runs _ _ (match ?x with _ => _ end) => destruct x
  | |- runs _ _ (let '(_, _) := ?x in _) => destruct x
  end.

Section Recs.
  Variable c : ctx.
  Variable s0 : vstate.
  Hypothesis HI : cinv c s0.

  (** what cataloguing tells about items without an address *)
  Lemma no_addr : forall i it, nth_error (st_items s0) i = Some it -> it_addr it = None ->
    (exists v, it_obj it = OVal v) /\ it_cp it = NON_NEXUS.
  Proof.
    intros i it Hi Ha.
    destruct (ci_origin _ _ HI _ _ Hi) as [H1 H2 H3|p pit hp h name H1 H2 H3 H4 H5 H6|p pit h k v0 H1 H2 H3 H4 H5].
    - apply node_item_spec in H3 as [_ [H3 _]]. congruence.
    - apply node_item_spec in H6 as [_ [H6 _]]. congruence.
    - subst it. unfold attr_item in *. destruct (str_eqb (it_cp pit) NON_NEXUS); simpl in *; [|discriminate]. eauto.
  Qed.

  Lemma at_addr : forall s a i, ext s0 s -> In (Some a, i) (st_addr s) -> good s i.
  Proof.
    intros s a i [l T] H. rewrite (tr_addr _ _ _ T) in H. destruct (ci_addrof _ _ HI _ _ H) as [it [H1 H2]].
    eapply good_ext; [exists l; exact T|]. exists it. split; auto. congruence.
  Qed.

  Lemma at_node : forall s i it h, ext s0 s -> i < List.length (st_items s0) -> nth_error (st_items s) i = Some it -> it_obj it = ONode h -> good s i.
  Proof.
    intros s i it h X Hl Hi Ho. exists it. split; auto. intros E.
    destruct (nth_error (st_items s0) i) as [it0|] eqn:E0; [|apply nth_error_None in E0; lia].
    destruct (ext_item _ _ _ _ X E0) as [it' [H1 H2]]. assert (it' = it) by congruence. subst it'.
    apply skel_eq in H2 as [A1 [A2 [A3 [A4 _]]]]. destruct (no_addr _ _ E0) as [[v Hv] _]; congruence.
  Qed.

  (** ** Step 1 *)
  Lemma check_item_runs : forall i s, ext s0 s -> i < List.length (st_items s0) -> runs with_addr s (check_item c i).
  Proof.
    intros i s X Hl. destruct (nth_error (st_items s0) i) as [it0|] eqn:E0; [|apply nth_error_None in E0; lia].
    destruct (ext_item _ _ _ _ X E0) as [it [H1 H2]]. pose proof H2 as H2'. apply skel_eq in H2' as [A1 [A2 [A3 [A4 [A5 A6]]]]].
    destruct (it_addr it) as [a|] eqn:Ea.
    - eapply good_on_item; [apply check_item_logs|]. exists it. split; auto. congruence.
    - destruct (no_addr _ _ E0) as [[v Hv] Hcp]; [congruence|]. apply runs_id.
      assert (N : item_name_verify c i s = (s, Ok tt)).
      { unfold item_name_verify, bind at 1, item. rewrite H1. destruct (it_parent it); [|reflexivity].
        destruct (name_done it); [reflexivity|]. rewrite Ea, A5, Hcp. change (has_char ch_at NON_NEXUS) with false. cbv iota.
        rewrite A2, Hv. reflexivity. }
      unfold check_item, bind at 1. rewrite N. unfold attribute_verify, bind, item. rewrite H1, Ea. reflexivity.
  Qed.

  (** ** Step 2 *)
  Lemma child_exists_runs : forall t v it ai s, good s ai -> runs with_addr s (child_exists c t v it ai).
  Proof. intros. unfold child_exists. repeat run_step; auto. Qed.

  Lemma group_attribute_runs : forall i d kv s, ext s0 s -> runs with_addr s (group_attribute c i d kv).
  Proof.
    intros i d kv s X. unfold group_attribute. do 3 run_step. apply runs_bind_addr. intros ai Hai. pose proof (at_addr _ _ _ X Hai) as G.
    repeat (match goal with |- runs _ _ (child_exists _ _ _ _ _) => apply child_exists_runs | |- runs _ _ (if ?b then _ else _) => destruct b | _ => run_step end); auto.
  Qed.

  Lemma group_child_runs : forall h d n s, ext s0 s -> runs with_addr s (group_child c h d n).
  Proof.
    intros h d n s X. unfold group_child. run_step. apply runs_bind_addr. intros ai Hai. pose proof (at_addr _ _ _ X Hai) as G.
    repeat run_step; auto.
  Qed.

  Lemma validate_group_runs : forall i s, ext s0 s -> good s i -> runs with_addr s (validate_group c i).
  Proof.
    intros i s X G. unfold validate_group, validate_NX_class_attribute, verify_group_attributes, verify_group_children, base_class_items_verify, base_field, base_group.
    repeat (match goal with
            | |- runs _ _ (group_attribute _ _ _ _) => apply group_attribute_runs
            | |- runs _ _ (group_child _ _ _ _) => apply group_child_runs
            | _ => run_step end); auto.
  Qed.

  Lemma check_group_runs : forall i s, ext s0 s -> i < List.length (st_items s0) -> runs with_addr s (check_group c i).
  Proof.
    intros i s X Hl. unfold check_group. apply runs_bind_item. intros it Hi.
    destruct (hobj_isgroup (c_world c) (it_obj it) || hobj_isfile (it_obj it)) eqn:E; [|apply runs_ret].
    apply validate_group_runs; auto. destruct (it_obj it) as [h|v] eqn:Eo; [|discriminate]. eapply at_node; eauto.
  Qed.

  (** ** Step 3 *)
  Lemma field_item_addr : forall E w pi p h it, field_item E w pi p h = Ok it -> it_cp p <> NON_NEXUS -> it_addr it <> None /\ it_vals it = [].
  Proof.
    intros E w pi p [h|] it H Hc; simpl in H.
    - apply node_item_spec in H as [_ [H1 [H2 _]]]. split; congruence.
    - inversion H. unfold attr_item. rewrite (proj2 (str_eqb_neq _ _) Hc). simpl. split; [discriminate|auto].
  Qed.

  Lemma ad_field_runs : forall i it ad fs s, it_cp it <> NON_NEXUS -> runs with_addr s (ad_field c i it ad fs).
  Proof.
    intros i it ad fs s Hc. unfold ad_field. do 2 run_step. destruct (field_item_addr _ _ _ _ _ _ H0 Hc) as [F1 F2].
    apply runs_bind; [apply runs_new_item; simpl; auto|]. intros o s1 En X.
    assert (G : good s1 o).
    { inversion En; subst. exists a0. split; auto. simpl. rewrite nth_error_app2, Nat.sub_diag; auto. }
    repeat run_step; auto.
  Qed.

  Lemma appdef_runs : forall i it s, ext s0 s -> nth_error (st_items s) i = Some it -> it_addr it <> None -> it_cp it <> NON_NEXUS ->
    runs with_addr s (application_definition_verify c i).
  Proof.
    intros i it s X Hi Ha Hc. assert (G : good s i) by (exists it; auto). unfold application_definition_verify.
    apply runs_bind_item. intros it' Hi'. assert (it' = it) by congruence. subst it'.
    repeat (match goal with |- runs _ _ (ad_field _ _ _ _ _) => apply ad_field_runs | _ => run_step end); auto.
  Qed.

  (** the parent of an object below NeXus content, not an external file's root *)
  Lemma parent_node : forall i it h, nth_error (st_items s0) i = Some it -> it_obj it = ONode h -> it_cp it <> NON_NEXUS -> it_cp it <> [] ->
    exists p pit, it_parent it = Some p /\ nth_error (st_items s0) p = Some pit /\ it_addr pit <> None /\ it_cp pit <> NON_NEXUS.
  Proof.
    intros i it h Hi Ho Hc He.
    destruct (ci_origin _ _ HI _ _ Hi) as [H1 H2 H3|p pit hp h' name H1 H2 H3 H4 H5 H6|p pit h' k v0 H1 H2 H3 H4 H5].
    - exfalso. apply He. clear -H3. unfold node_item in H3. cbn [option_map] in H3.
      destruct (str_eqb (h_name (c_root c)) slash); unfold determine_NeXus_classpath in H3.
      + change (str_eqb slash slash) with true in H3. cbv iota in H3. cbn [rbind] in H3.
        destruct (identify_object_type _ _ _); [|discriminate]. cbn [rbind] in H3. inversion H3. reflexivity.
      + destruct (str_eqb _ slash); [|discriminate]. cbn [rbind] in H3.
        destruct (identify_object_type _ _ _); [|discriminate]. cbn [rbind] in H3. inversion H3. reflexivity.
    - pose proof (node_item_spec _ _ _ _ _ H6) as [N1 [N2 [N3 [N4 N5]]]]. exists p, pit. split; auto. split; [eapply carrier_nth; eauto|].
      assert (Q : it_cp pit <> NON_NEXUS).
      { destruct (node_class _ _ _ _ _ _ H6) as [[X1 X2]|[X1 [nm [X2 [X3 X4]]]]]; [contradiction|].
        intros E. change (it_cp pit = non_nexus) in E. change (it_cp it <> non_nexus) in Hc. inversion X4; congruence. }
      split; auto. intros E. apply carrier_nth in H2. destruct (no_addr _ _ H2 E) as [_ Z]. contradiction.
    - subst it. destruct (attr_item_spec p pit v0 (Some k)) as [A _]. congruence.
  Qed.

  Lemma attr_at : forall i it v, nth_error (st_items s0) i = Some it -> it_obj it = OVal v -> it_cp it <> NON_NEXUS -> In ch_at (it_cp it).
  Proof.
    intros i it v Hi Ho Hc.
    destruct (ci_origin _ _ HI _ _ Hi) as [H1 H2 H3|p pit hp h' name H1 H2 H3 H4 H5 H6|p pit h' k v0 H1 H2 H3 H4 H5].
    - apply node_item_spec in H3 as [H3 _]. congruence.
    - apply node_item_spec in H6 as [H6 _]. congruence.
    - subst it. unfold attr_item in *. destruct (str_eqb (it_cp pit) NON_NEXUS); simpl in *; [congruence|]. apply in_or_app. right. simpl. auto.
  Qed.

  Lemma check_definition_runs : forall i k s l, ext s0 s -> In (k, l) (st_cp s0) -> In i l ->
    k = py "/NXentry/definition" \/ k = py "/NXentry/NXsubentry/definition" -> runs with_addr s (check_definition c i).
  Proof.
    intros i k s l X Hk Hl Ek. destruct (ci_cpof _ _ HI _ _ _ Hk Hl) as [it0 [H1 H2]].
    assert (K1 : it_cp it0 <> NON_NEXUS) by (intros E; rewrite E in H2; destruct Ek; subst k; discriminate).
    assert (K2 : it_cp it0 <> []) by (intros E; rewrite E in H2; destruct Ek; subst k; discriminate).
    destruct (it_obj it0) as [h|v] eqn:Eo.
    2: { exfalso. pose proof (attr_at _ _ _ H1 Eo K1) as Z. rewrite H2 in Z. assert (Y : has_char ch_at k = true) by (apply has_char_spec; auto).
         destruct Ek; subst k; discriminate. }
    destruct (parent_node _ _ _ H1 Eo K1 K2) as [p [pit [Q1 [Q2 [Q3 Q4]]]]].
    unfold check_definition. apply runs_bind_item. intros it Hi. destruct (ext_item _ _ _ _ X H1) as [it' [E1 E2]].
    assert (it' = it) by congruence. subst it'. apply skel_eq in E2 as [A1 _]. rewrite A1, Q1.
    destruct (ext_item _ _ _ _ X Q2) as [pit' [E3 E4]]. apply skel_eq in E4 as [_ [_ [_ [B4 [B5 _]]]]].
    eapply appdef_runs; eauto; congruence.
  Qed.

  (** ** Default plot *)
  Lemma listed_good : forall s i k l, ext s0 s -> In (k, l) (st_cp s0) -> In i l -> k <> NON_NEXUS -> good s i.
  Proof.
    intros s i k l X Hk Hl En. destruct (ci_cpof _ _ HI _ _ _ Hk Hl) as [it0 [H1 H2]]. eapply good_ext; eauto. exists it0. split; auto.
    intros E. destruct (no_addr _ _ H1 E) as [_ Z]. congruence.
  Qed.

  Lemma v3_item_runs : forall i s, ext s0 s -> good s i -> runs with_addr s (v3_item c i).
  Proof. intros i s X G. unfold v3_item. repeat run_step; auto. Qed.

  Lemma v3_loop_runs : forall l a n s, ext s0 s -> Forall (good s) l -> Forall (good s) n -> runs with_addr s (v3_loop c a n l).
  Proof.
    induction l as [|i l IH]; intros a n s X Hl Hn; cbn [v3_loop].
    - destruct n as [|j [|]]; try apply runs_ret. inversion Hn; subst. repeat run_step; auto.
    - inversion Hl; subst. apply runs_bind; [apply v3_item_runs; auto|]. intros st s1 _ Y. destruct st as [|a' ni]; [apply runs_ret|].
      apply IH; [eapply ext_trans; eauto| |].
      + eapply Forall_impl; [|exact H2]. intros; eapply good_ext; eauto.
      + assert (Z : Forall (good s1) n) by (eapply Forall_impl; [|exact Hn]; intros; eapply good_ext; eauto).
        destruct ni; auto. apply Forall_app. split; auto. constructor; auto. eapply good_ext; eauto.
  Qed.

  (** the group that each entry of the v2 review stands for *)
  Definition owner (s : vstate) (a : option pystr) (i : nat) : Prop :=
    exists it pi pit gi gt, nth_error (st_items s) i = Some it /\ it_parent it = Some pi /\ nth_error (st_items s) pi = Some pit
      /\ it_parent pit = Some gi /\ nth_error (st_items s) gi = Some gt /\ it_addr gt = a.

  Lemma owner_ext : forall s s' a i, ext s s' -> owner s a i -> owner s' a i.
  Proof.
    intros s s' a i X [it [pi [pit [gi [gt [H1 [H2 [H3 [H4 [H5 H6]]]]]]]]]].
    destruct (ext_item _ _ _ _ X H1) as [it' [A1 A2]]. destruct (ext_item _ _ _ _ X H3) as [pit' [B1 B2]]. destruct (ext_item _ _ _ _ X H5) as [gt' [C1 C2]].
    apply skel_eq in A2 as [A2 _]. apply skel_eq in B2 as [B2 _]. apply skel_addr in C2.
    exists it', pi, pit', gi, gt'. repeat split; congruence.
  Qed.

  Definition review_ok (s : vstate) (r : list (option pystr * list nat)) : Prop :=
    forall a l i, In (a, l) r -> In i l -> owner s a i.

  Lemma parent_ok' : forall it s s1 pit, parent_item it s = (s1, Ok pit) -> s1 = s /\ exists pi, it_parent it = Some pi /\ nth_error (st_items s) pi = Some pit.
  Proof.
    intros it s s1 pit H. unfold parent_item in H. destruct (it_parent it) as [pi|] eqn:E; [|inversion H].
    apply item_ok in H as [-> H]. eauto.
  Qed.

  Lemma v2_item_post : forall r i s s1 r1, v2_item c r i s = (s1, Ok r1) -> ext s s1 -> review_ok s r -> review_ok s1 r1.
  Proof.
    intros r i s s1 r1 H X HR.
    assert (HR1 : review_ok s1 r) by (intros a l j Ha Hj; eapply owner_ext; [exact X|]; eapply HR; eauto).
    unfold v2_item in H. apply bind_ok in H as [it [sa [H1 H]]]. apply item_ok in H1 as [-> H1].
    apply bind_ok in H as [pit [sa [H2 H]]]. apply parent_ok' in H2 as [-> [pi [H2 H3]]].
    destruct (hobj_isdataset _ _); [|apply ret_ok in H as [-> <-]; auto].
    apply bind_ok in H as [addr [sa [H4 H]]]. apply lift_ok in H4 as [-> H4].
    destruct (str_eqb _ _).
    - apply bind_ok in H as [u1 [sa [H5 H]]]. apply bind_ok in H as [gp [sb [H6 H]]]. apply parent_ok' in H6 as [-> [gi [H6 H7]]].
      apply ret_ok in H as [<- <-].
      intros a l j Ha Hj. apply (In_aset ostr_eqb ostr_eqb_eq) in Ha as [[-> ->]|Ha]; [|eapply HR1; eauto].
      apply in_app_or in Hj as [Hj|[<-|[]]].
      + destruct (aget ostr_eqb (it_addr gp) r) as [l0|] eqn:El; [|destruct Hj]. apply aget_In in El; [|apply ostr_eqb_eq]. eapply HR1; eauto.
      + destruct (ext_item _ _ _ _ X H1) as [it' [A1 A2]]. destruct (ext_item _ _ _ _ X H3) as [pit' [B1 B2]].
        apply skel_eq in A2 as [A2 _]. apply skel_eq in B2 as [B2 _].
        exists it', pi, pit', gi, gp. repeat split; congruence.
    - apply bind_ok in H as [u1 [sa [H5 H]]]. apply ret_ok in H as [<- <-]. auto.
  Qed.

  Lemma v2_item_runs : forall r i s, runs with_addr s (v2_item c r i).
  Proof.
    intros r i s. unfold v2_item. apply runs_bind_item. intros it Hi. apply runs_bind.
    { apply runs_id. unfold parent_item. destruct (it_parent it); auto. unfold item. destruct (nth_error (st_items s) n); auto. }
    intros pit s1 Hp X. apply parent_ok' in Hp as [-> _]. destruct (hobj_isdataset _ _); [|apply runs_ret].
    apply runs_bind_lift. intros a Ha.
    assert (G : good s i). { exists it. split; auto. destruct (it_addr it); discriminate. }
    destruct (str_eqb _ _).
    - apply runs_bind; [apply good_record; auto|]. intros u1 s2 _ Y. apply runs_bind; [|intros; apply runs_ret].
      apply runs_id. unfold parent_item. destruct (it_parent pit); auto. unfold item. destruct (nth_error (st_items s2) n); auto.
    - repeat run_step; auto.
  Qed.

  Lemma v2_collect_runs : forall l r s, review_ok s r -> runs with_addr s (v2_collect c r l)
    /\ forall s1 r1, v2_collect c r l s = (s1, Ok r1) -> review_ok s1 r1.
  Proof.
    induction l as [|i l IH]; intros r s HR; cbn [v2_collect].
    - split; [apply runs_ret|]. intros s1 r1 H. apply ret_ok in H as [-> <-]. auto.
    - split.
      + apply runs_bind; [apply v2_item_runs|]. intros r1 s1 H X. apply IH. eapply v2_item_post; eauto.
      + intros s1 r1 H. apply bind_ok in H as [ra [sa [H1 H2]]]. destruct (v2_item_runs r i s) as [log [T _]]. rewrite H1 in T. simpl in T.
        assert (X : ext s sa) by (exists log; auto).
        apply (proj2 (IH ra sa (v2_item_post _ _ _ _ _ H1 X HR))). auto.
  Qed.

  Lemma v2_decide_runs : forall r a s, review_ok s r -> runs with_addr s (v2_decide a r).
  Proof.
    induction r as [|[g l] r IH]; intros a s HR; cbn [v2_decide]; [apply runs_ret|].
    assert (HR' : forall s1, ext s s1 -> review_ok s1 r).
    { intros s1 X b l0 j Hb Hj. eapply owner_ext; [exact X|]. eapply HR; [right; eauto|auto]. }
    destruct l as [|i [|i2 l]].
    - apply IH. apply HR'. apply ext_refl.
    - apply runs_bind_item. intros it Hi. apply runs_bind.
      { apply runs_id. unfold parent_item. destruct (it_parent it); auto. unfold item. destruct (nth_error (st_items s) n); auto. }
      intros pit s1 Hp X. apply parent_ok' in Hp as [-> _]. apply runs_bind_lift. intros t Ht.
      apply runs_bind; [apply good_record; exists it; split; auto; destruct (it_addr it); discriminate|].
      intros u1 s2 _ Y. apply IH. auto.
    - destruct (HR g (i :: i2 :: l) i (or_introl eq_refl) (or_introl eq_refl)) as [it0 [pi [pit0 [gi [gt [H1 [H2 [H3 [H4 [H5 H6]]]]]]]]]].
      apply runs_bind_item. intros it Hi. assert (it = it0) by congruence. subst it0. apply runs_bind.
      { apply runs_id. unfold parent_item. destruct (it_parent it); auto. unfold item. destruct (nth_error (st_items s) n); auto. }
      intros pit s1 Hp X. apply parent_ok' in Hp as [-> [pi' [P1 P2]]]. assert (pi' = pi) by congruence. subst pi'. assert (pit = pit0) by congruence. subst pit0.
      apply runs_bind_lift. intros t Ht. rewrite H4. apply runs_bind; [apply runs_ret|]. intros gi' s2 Hg _. apply ret_ok in Hg as [-> <-].
      apply runs_bind; [apply good_record; exists gt; split; auto|].
      { rewrite H6. destruct g; discriminate. }
      intros u1 s2 _ Y. apply IH. auto.
  Qed.

  Lemma default_plot_runs : forall s, ext s0 s -> runs with_addr s (default_plot_verify c).
  Proof.
    intros s X. unfold default_plot_verify. apply runs_bind_addr. intros o Ho. pose proof (at_addr _ _ _ X Ho) as G.
    apply runs_bind.
    - cbn [try_methods]. apply runs_bind.
      + unfold default_plot_v3. apply runs_bind; [apply runs_id; reflexivity|]. intros l s1 Hl _. inversion Hl; subst; clear Hl.
        apply v3_loop_runs; auto. apply Forall_forall. intros i Hi. destruct X as [log T]. pose proof (tr_cp _ _ _ T) as Ec. rewrite Ec in Hi.
        match type of Hi with In _ (match ?x with _ => _ end) => destruct x as [l|] eqn:E end; [|destruct Hi].
        apply dget_In in E. eapply listed_good; eauto; [exists log; auto|discriminate].
      + intros a s1 _ Y. destruct a; [apply runs_ret|]. apply runs_bind.
        * unfold default_plot_v2. apply runs_bind_get. apply runs_bind.
          -- apply v2_collect_runs. intros ? ? ? [].
          -- intros r1 s2 Hr Z. apply v2_decide_runs. eapply (proj2 (v2_collect_runs _ [] s1 _)); eauto. Unshelve. intros ? ? ? [].
        * intros a s2 _ Z. destruct a; [apply runs_ret|]. apply runs_bind; [apply runs_ret|]. intros a s3 _ _. destruct a; apply runs_ret.
    - intros a s1 _ Y. pose proof (good_ext _ _ _ Y G) as G1. destruct a as [[k addr]|]; repeat run_step; auto.
  Qed.

  Lemma steps_runs : runs with_addr s0 (step1 c ;;; step2 c ;;; step3 c ;;; default_plot_verify c).
  Proof.
    apply runs_bind; [|intros _ s1 _ X1; apply runs_bind; [|intros _ s2 _ X2; apply runs_bind; [|intros _ s3 _ X3]]].
    - unfold step1. apply runs_bind_get. apply runs_for_each. intros i s1 Hi X. apply check_item_runs; auto.
      pose proof (Permutation_in _ (ci_cpperm _ _ HI) Hi) as Z. apply in_seq in Z. lia.
    - unfold step2. apply runs_bind_get. apply runs_for_each. intros i s2 Hi X. pose proof (ext_trans _ _ _ X1 X) as Y. apply check_group_runs; auto.
      unfold dvals in Hi. destruct X1 as [log T]. rewrite (tr_addr _ _ _ T) in Hi. apply in_map_iff in Hi as [[a i'] [E Hi]]. simpl in E. subst i'.
      destruct (ci_addrof _ _ HI _ _ Hi) as [it [H1 _]]. apply nth_error_Some. congruence.
    - unfold step3. apply runs_bind_get. apply runs_for_each. intros i s3 Hi X. pose proof (ext_trans _ _ _ (ext_trans _ _ _ X1 X2) X) as Y.
      apply in_flat_map in Hi as [k [Hk Hi]]. destruct (ext_trans _ _ _ X1 X2) as [log T]. rewrite (tr_cp _ _ _ T) in Hi.
      destruct (dget k (st_cp s0)) as [l|] eqn:E; [|destruct Hi]. apply dget_In in E.
      eapply check_definition_runs; eauto. destruct Hk as [<-|[<-|[]]]; auto.
    - apply default_plot_runs. eapply ext_trans; [exact X1|]. eapply ext_trans; eauto.
  Qed.
End Recs.

(** ** The whole run *)
Lemma findings_have_addresses : forall u w v fname v' r f, dget fname w = Some (FHdf5 f) -> validate u w v fname = (v', r) ->
  Forall (fun g => f_addr g <> None) (st_find (v_st v')).
Proof.
  intros u w v fname v' r f Hf H. unfold validate in H. rewrite Hf in H.
  set (c := mk_ctx u w fname) in *. set (s0 := fresh_state (st_classes (v_st v))) in *.
  destruct (validate_open c s0) as [s r'] eqn:E. inversion H; subst; clear H. simpl.
  unfold validate_open in E. unfold bind at 1 in E.
  destruct (build_address_catalog c s0) as [s1 rb] eqn:Eb. pose proof (build_spec _ _ _ _ Eb) as [HI [HG _]].
  assert (Hfind : st_find s1 = []) by apply HG.
  destruct rb as [u0|e]; [|inversion E; subst; rewrite Hfind; constructor].
  destruct (steps_runs c s1 HI) as [log [T F]]. rewrite E in T. simpl in T. rewrite (tr_find _ _ _ T), Hfind. simpl.
  clear -F. induction F as [|e log He F IH]; [constructor|]. destruct e; simpl in *; auto.
Qed.

Lemma no_addr_no_findings : forall u w v fname v' r f, dget fname w = Some (FHdf5 f) -> validate u w v fname = (v', r) ->
  forall i it, listed v' i it -> it_addr it = None -> it_vals it = [].
Proof.
  intros u w v fname v' r f Hf H i it L Ha. pose proof (findings_have_addresses _ _ _ _ _ _ _ Hf H) as F.
  destruct (validate_trace _ _ _ _ _ _ _ Hf H) as [s1 [rb [log [Eb [T [HI _]]]]]].
  destruct (listed_in u w fname v' _ _ _ _ T HI L) as [it0 [H1 H2]]. pose proof (ci_vals _ _ HI _ _ H1) as V0.
  destruct (it_vals it) as [|[k g] rest] eqn:Ev; auto. exfalso.
  destruct (trace_vals k _ _ _ _ _ T H1) as [it' [E1 [E2 E3]]]. assert (it' = it) by (destruct L; congruence). subst it'.
  assert (Hk : dget k (it_vals it) = Some g). { rewrite Ev. unfold dget. simpl. rewrite str_eqb_refl. auto. }
  rewrite E3 in Hk.
  assert (LR : forall l items it0, log_ok items l -> nth_error items i = Some it0 -> it_addr it0 = None -> Forall (fun g => f_addr g <> None) (recs l) -> last_rec k i l = None).
  { clear. induction l as [|e l IH] using rev_ind; intros items it0 Hok Hi Ha HF; auto.
    apply log_ok_app in Hok as [Hok1 Hok2]. rewrite recs_app in HF. apply Forall_app in HF as [HF1 HF2].
    rewrite last_rec_app. rewrite (IH _ _ Hok1 Hi Ha HF1).
    destruct e as [n|j f]; simpl in *; auto. destruct Hok2 as [[jt [J1 J2]] _].
    destruct (Nat.eqb_spec j i) as [->|Hn]; simpl; auto. exfalso. destruct (apply_log_skel l _ _ _ Hi) as [it2 [K1 K2]].
    assert (it2 = jt) by congruence. subst. apply skel_addr in K2. inversion HF2; subst. congruence. }
  rewrite (LR log (st_items s1) it0) in Hk; auto.
  - rewrite V0 in Hk. discriminate.
  - apply (tr_ok _ _ _ T).
  - apply skel_addr in H2. congruence.
  - rewrite (tr_find _ _ _ T) in F. apply Forall_app in F as [_ F]. auto.
Qed.
