(** * Every finding has a status its test can give *)

From Coq Require Import List NArith ZArith Bool String Lia.
From Verif Require Import PyBase PyFacts Regex Utf8 H5 Findings Nxdl Core Catalog ItemName AttributeCheck GroupChecks AppDef DefaultPlot Validate.
From Verif Require Import Spec_Statuses Trace CheckFacts CatalogFacts RunFacts AddrRecord.
Import ListNotations.
Open Scope string_scope.
Open Scope list_scope.

Definition given (e : event) : Prop := match e with ENew _ => True | ERec _ f => gives (f_test f) (f_status f) end.

Lemma tf_in : forall b, In (TF_RESULT b) [OK; ERROR].
Proof. intros []; simpl; auto. Qed.
Lemma verdict_in : forall k st txt, name_verdict k = (st, txt) -> In st [OK; NOTE; ERROR].
Proof.
  intros [k|] st txt H; unfold name_verdict in H; [destruct (startswith k (py "strict"))|]; injection H as <- _; simpl; auto.
Qed.

Ltac st_in := solve [ simpl; tauto | apply tf_in | match goal with |- In (TF_RESULT ?b) _ => destruct b; simpl; tauto end
  | match goal with |- In (if ?b then _ else _) _ => destruct b; simpl; tauto end
  | eapply verdict_in; eassumption ].
Ltac giv := cbn [given f_test f_status]; unfold TEST_NAME, ATTR_TEST, T2, T3;
  first [ apply g_name; st_in | apply g_value; st_in | apply g_known; st_in | apply g_class; st_in | apply g_no_nexus | apply g_attribute
  | apply g_enumeration; st_in | apply g_field | apply g_group | apply g_unhandled | apply g_field_here; st_in | apply g_group_here; st_in
  | apply g_definition; st_in | apply g_nxdl_field; st_in | apply g_nxdl_value; st_in | apply g_plot; st_in
  | apply g_axis_name; st_in | apply g_axis; st_in | apply g_value_signal; st_in | apply g_value_default; st_in
  | apply g_plot_signal; st_in | apply g_plot_chain | apply g_plot_v2 | apply g_plot_one | apply g_plot_other | apply g_plot_many ].

Lemma item_name_given : forall c i, logs c given (item_name_verify c i).
Proof.
  intros. unfold item_name_verify, handle_NX_class, handle_any_attribute, handle_groups_and_fields, match_key_name.
  lg; try giv.
  unfold dgetitem in H. destruct (dget (py "validNXClassName") (c_patterns c)) as [l|] eqn:E; inversion H; subst.
  apply logs_first_match. eapply enum_patterns_keys; eauto.
Qed.

Lemma target_parts_given : forall c i parts addr, logs c given (target_parts c i addr parts).
Proof. induction parts; intros; cbn [target_parts]; lg; try giv; auto. Qed.

Ltac verdict_step := match goal with |- logs _ _ (match name_verdict ?k with _ => _ end) => let V := fresh "V" in destruct (name_verdict k) eqn:V end.

Lemma attribute_given : forall c i, logs c given (attribute_verify c i).
Proof.
  intros. unfold attribute_verify, nxclass_handler, target_handler, signal_handler, axes_handler, generic_handler,
    axis_check, parent_item.
  repeat (first [verdict_step | logs_step]); try giv; try apply target_parts_given.
  match goal with H : concat_text _ ?v = Ok _ |- _ => destruct v; cbn [concat_text] in H; try discriminate H; injection H as <- end.
  apply g_signal_name. eapply verdict_in. eassumption.
Qed.

Lemma check_item_given : forall c i, logs c given (check_item c i).
Proof. intros. unfold check_item. apply logs_bind; [apply item_name_given | intros; apply attribute_given]. Qed.

Ltac if_step := match goal with |- logs _ _ (if ?b then _ else _) => let B := fresh "B" in destruct b eqn:B end.

Lemma group_attribute_given : forall c i d kv, logs c given (group_attribute c i d kv).
Proof.
  intros. unfold group_attribute, child_exists. repeat (first [if_step | logs_step]); try giv.
  cbn [given f_test f_status]. apply g_value_other.
  intros [A|[A|[A|[]]]]; rewrite <- A, str_eqb_refl in *; discriminate.
Qed.

Lemma check_group_given : forall c i, logs c given (check_group c i).
Proof.
  intros. unfold check_group, validate_group, validate_NX_class_attribute, verify_group_attributes,
    verify_group_children, group_child, base_class_items_verify, base_field, base_group.
  lg; try giv; apply group_attribute_given.
Qed.

Lemma check_definition_given : forall c i, logs c given (check_definition c i).
Proof.
  intros. unfold check_definition, application_definition_verify.
  lg; try giv.
  unfold ad_field. lg; try giv.
  apply logs_new_item; [|exact I].
  match goal with H : field_item _ _ _ _ ?h = Ok _ |- _ => destruct h; simpl in H end.
  - unfold node_item, rbind in *.
    repeat match goal with H : match ?x with _ => _ end = Ok _ |- _ => destruct x; try discriminate end.
    match goal with H : Ok _ = Ok _ |- _ => inversion H; reflexivity end.
  - match goal with H : Ok _ = Ok _ |- _ => inversion H end. unfold attr_item.
    destruct (str_eqb _ NON_NEXUS); reflexivity.
Qed.

Lemma v3_item_given : forall c i, logs c given (v3_item c i).
Proof. intros. unfold v3_item. lg; try giv. Qed.
Lemma v3_loop_given : forall c l a n, logs c given (v3_loop c a n l).
Proof.
  induction l as [|i l IH]; intros; cbn [v3_loop].
  - lg; try giv.
  - apply logs_bind; [apply v3_item_given | intros]. lg; auto.
Qed.
Lemma v2_collect_given : forall c l r, logs c given (v2_collect c r l).
Proof.
  induction l as [|i l IH]; intros; cbn [v2_collect].
  - lg.
  - apply logs_bind; [|auto]. unfold v2_item, parent_item. lg; try giv.
Qed.
Lemma v2_decide_given : forall c l a, logs c given (v2_decide a l).
Proof.
  induction l as [|[g l'] l IH]; intros; cbn [v2_decide].
  - lg.
  - unfold parent_item. lg; try giv; auto.
Qed.
Lemma default_plot_given : forall c, logs c given (default_plot_verify c).
Proof.
  intros. unfold default_plot_verify. apply logs_bind; [apply logs_address_item | intros].
  apply logs_bind.
  - cbn [try_methods]. apply logs_bind; [unfold default_plot_v3; apply logs_bind; [apply logs_classpath_list | intros; apply v3_loop_given] | intros]. lg.
    + unfold default_plot_v2. lg; [apply v2_collect_given | apply v2_decide_given].
    + unfold default_plot_v1. lg.
  - intros. lg; try giv.
    unfold no_plot_status, rbind in *.
    repeat match goal with H : match ?x with _ => _ end = Ok _ |- _ => destruct x; try discriminate end.
    match goal with H : Ok _ = Ok _ |- _ => injection H as <- end. cbn [given f_test f_status]. apply g_plot.
    match goal with |- In (if ?b then _ else _) _ => destruct b; simpl; auto end.
Qed.

Lemma steps_given : forall c, logs c given (step1 c ;;; step2 c ;;; step3 c ;;; default_plot_verify c).
Proof.
  intros. unfold step1, step2, step3. lg; auto using check_item_given, check_group_given, check_definition_given, default_plot_given.
Qed.

Lemma validate_given : forall u w v fname v' r f, dget fname w = Some (FHdf5 f) -> validate u w v fname = (v', r) ->
  Forall (fun g => gives (f_test g) (f_status g)) (st_find (v_st v')).
Proof.
  intros u w v fname v' r f Hf H. unfold validate in H. rewrite Hf in H.
  set (c := mk_ctx u w fname) in *. set (s0 := fresh_state (st_classes (v_st v))) in *.
  destruct (validate_open c s0) as [s r'] eqn:E. inversion H; subst; clear H. simpl.
  unfold validate_open in E. unfold bind at 1 in E.
  destruct (build_address_catalog c s0) as [s1 rb] eqn:Eb. pose proof (build_spec _ _ _ _ Eb) as [HI [HG _]].
  assert (Hfind : st_find s1 = []) by apply HG.
  destruct rb as [u0|e]; [|inversion E; subst; rewrite Hfind; constructor].
  destruct (runs_logs _ c _ _ s1 (steps_given c)) as [log [T F]]. rewrite E in T. simpl in T. rewrite (tr_find _ _ _ T), Hfind. simpl.
  clear -F. induction F as [|e log He F IH]; [constructor|]. destruct e; simpl in *; auto.
Qed.
