(** * @NX_class, @signal of fields and attributes without a check of their own *)

From Coq Require Import List NArith ZArith Bool String Lia.
From Verif Require Import PyBase PyFacts Regex Utf8 H5 Findings Nxdl Core Catalog ItemName AttributeCheck
  GroupChecks AppDef DefaultPlot Validate Trace CheckFacts CatalogFacts Spec_Names Spec_Run NameFacts RunFacts NameRun
  ClassNameRun StepOne Spec_Catalog PathFacts CatalogTerm Spec_Number NumberFacts Spec_Attributes PresenceFacts AttrRun GroupRun CliFacts.
Import ListNotations.

Lemma strip_fit : forall d d', strip_def d = strip_def d' -> fit_for_groups d -> fit_for_groups d'.
Proof.
  intros d d' E [H|[H N]].
  - left. rewrite <- H. symmetry. apply (f_equal d_category) in E. exact E.
  - right. split; [rewrite <- H; symmetry; apply (f_equal d_category) in E; exact E|].
    intros [e [G I]]. apply N. apply (f_equal d_groups) in E. cbn [strip_def set_d_groups d_groups] in E.
    apply (f_equal (dget (py "entry"))) in E. rewrite !(dget_map_snd _ _ strip_group) in E. rewrite G in E.
    destruct (dget (py "entry") (d_groups d)) as [e'|]; [|discriminate]. exists e'. split; auto.
    cbn [option_map] in E. assert (E' : strip_group e' = strip_group e) by congruence. apply (f_equal g_fields) in E'.
    destruct e, e'; simpl in *. congruence.
Qed.

Lemma base_class_fit : forall d, isBaseClassNXDL d = true <-> fit_for_groups d.
Proof.
  intros d. unfold isBaseClassNXDL, fit_for_groups.
  destruct (str_eqb (d_category d) (py "base_classes")) eqn:E1.
  - apply str_eqb_eq in E1. split; auto.
  - destruct (str_eqb (d_category d) (py "applications")) eqn:E2.
    + apply str_eqb_eq in E2. rewrite E2. split; [discriminate|]. intros [H|[H _]]; discriminate.
    + destruct (str_eqb (d_category d) (py "contributed_definitions")) eqn:E3.
      * apply str_eqb_eq in E3. destruct (dget (py "entry") (d_groups d)) as [g|].
        -- rewrite negb_true_iff. split.
           ++ intros H. right. split; auto. intros [e [G I]]. assert (e = g) by congruence. subst e. apply dmem_In in I. congruence.
           ++ intros [H|[_ H]]; [rewrite E3 in H; discriminate|]. destruct (dmem (py "definition") (g_fields g)) eqn:D; auto. exfalso. apply H.
              exists g. split; auto. apply dmem_In; auto.
        -- split; auto. intros _. right. split; auto. intros [e [G _]]. discriminate.
      * split; [discriminate|]. intros [H|[H _]]; rewrite H, str_eqb_refl in *; discriminate.
Qed.

Lemma class_verdict_strip : forall cl cl' s st cm, strip_classes cl = strip_classes cl' -> class_verdict cl s st cm -> class_verdict cl' s st cm.
Proof.
  intros cl cl' s st cm E H. pose proof (strip_get _ _ s E) as G. destruct H as [D|d D F|d D F]; rewrite D in G; destruct (dget s cl') as [d'|] eqn:D'; try discriminate.
  - apply cv_unknown; auto.
  - simpl in G. eapply cv_fit; eauto. eapply strip_fit; [|exact F]. congruence.
  - simpl in G. eapply cv_unfit; eauto. intros F'. apply F. eapply strip_fit; [|exact F']. congruence.
Qed.

(** one finding of the test "attribute value" *)
Lemma one_shown : forall u w v fname v' i it sm sb it0, attr_of u w v fname v' i it sm sb -> nth_error (st_items sm) i = Some it0 -> it_addr it0 = it_addr it ->
  forall st cm, record_finding i ATTR_TEST st cm sm = (sb, Ok tt) ->
  shows v' i it (mkF (it_addr it) (py "attribute value") st cm) /\ (own_address v' i -> attribute_findings v' (it_addr it) = [mkF (it_addr it) (py "attribute value") st cm]).
Proof.
  intros u w v fname v' i it sm sb it0 O Hi Ha st cm R. destruct (record_ok _ _ _ _ _ _ _ R) as [i1 [N1 [T1 _]]]. rewrite Hi in N1. inversion N1; subst i1. rewrite Ha in T1.
  assert (F : Forall (on_item attr_key i) [ERec i (mkF (it_addr it) ATTR_TEST st cm)]) by (constructor; [split; auto|constructor]).
  split.
  - eapply attr_shows; [exact O|exact T1|exact F|left; reflexivity|reflexivity|reflexivity].
  - intros HU. rewrite (ao_all _ _ _ _ _ _ _ _ _ O _ T1 F HU). reflexivity.
Qed.

Lemma class_value : forall u w v fname v', validate u w v fname = (v', Ok tt) ->
  forall i it val, listed v' i it -> it_obj it = OVal val -> it_addr it <> None -> it_name it = Some (py "NX_class") ->
  exists s st cm, decode_byte_string (u_env u) val = Ok (VStr s) /\ class_verdict (st_classes (v_st v)) s st cm
    /\ shows v' i it (mkF (it_addr it) (py "attribute value") st cm)
    /\ (own_address v' i -> attribute_findings v' (it_addr it) = [mkF (it_addr it) (py "attribute value") st cm]).
Proof.
  intros u w v fname v' H i it val L Ho Ha Hn.
  destruct (attr_start _ _ _ _ _ H _ _ _ _ L Ho Ha Hn) as [sm [sb [it0 [p' [pit' [pit0 [h' [O [Hi [Ho0 [Ha0 [Hp' [Hp0 [Lp' [Hpo' [Hi' [Hpo0 HR]]]]]]]]]]]]]]]]].
  change (str_eqb (py "NX_class") (py "NX_class")) with true in HR. cbv iota in HR.
  unfold nxclass_handler in HR. apply bind_ok in HR as [x [s0 [H0 HR]]]. apply item_ok in H0 as [-> H0]. rewrite Hi in H0. inversion H0; subst x.
  apply bind_ok in HR as [o [s1 [H1 HR]]]. apply lift_ok in H1 as [-> H1]. rewrite Ho0 in H1. cbn [decode_obj c_env mk_ctx] in H1.
  destruct (decode_byte_string (u_env u) val) as [d|] eqn:D; [|discriminate]. cbn [rbind rmap] in H1. inversion H1; subst o.
  apply bind_ok in HR as [s2 [s3 [H2 HR]]]. inversion H2; subst s2 s3.
  assert (T : exists s, d = VStr s) by (destruct d; try discriminate; eauto). destruct T as [s ->].
  exists s.
  assert (X : exists st cm, class_verdict (st_classes sm) s st cm /\ record_finding i ATTR_TEST st cm sm = (sb, Ok tt)).
  { destruct (dget s (st_classes sm)) as [d|] eqn:G; [|eexists; eexists; split; [apply cv_unknown; exact G|exact HR]].
    destruct (isBaseClassNXDL d) eqn:B; eexists; eexists; (split; [|exact HR]).
    - eapply cv_fit; eauto. apply base_class_fit; auto.
    - eapply cv_unfit; eauto. intros F. apply base_class_fit in F. congruence. }
  destruct X as [st [cm [V R]]]. exists st, cm. split; auto. split; [eapply class_verdict_strip; [exact (ao_classes _ _ _ _ _ _ _ _ _ O)|exact V]|].
  eapply one_shown; eauto.
Qed.

Lemma signal_field : forall u w v fname v', validate u w v fname = (v', Ok tt) ->
  forall i it val p pit h, listed v' i it -> it_obj it = OVal val -> it_addr it <> None -> it_name it = Some (py "signal") ->
  it_parent it = Some p -> listed v' p pit -> it_obj pit = ONode h -> isHdf5Dataset w h = true ->
  exists o st cm, decode_byte_string (u_env u) val = Ok o
    /\ ((st = OK /\ is_one (u_env u) o /\ cm = py "found plottable data marker") \/ (st = NOTE /\ ~ is_one (u_env u) o /\ cm = py "@signal=" ++ py_str o))
    /\ shows v' i it (mkF (it_addr it) (py "attribute value") st cm)
    /\ (own_address v' i -> attribute_findings v' (it_addr it) = [mkF (it_addr it) (py "attribute value") st cm]).
Proof.
  intros u w v fname v' H i it val p pit h L Ho Ha Hn Hp Lp Hpo Hg.
  destruct (attr_start _ _ _ _ _ H _ _ _ _ L Ho Ha Hn) as [sm [sb [it0 [p' [pit' [pit0 [h' [O [Hi [Ho0 [Ha0 [Hp' [Hp0 [Lp' [Hpo' [Hi' [Hpo0 HR]]]]]]]]]]]]]]]]].
  rewrite Hp in Hp'. inversion Hp'; subst p'. rewrite (listed_fun _ _ _ _ Lp' Lp) in *. rewrite Hpo in Hpo'. inversion Hpo'; subst h'. clear Hp' Hpo' Lp'.
  change (str_eqb (py "signal") (py "NX_class")) with false in HR. change (str_eqb (py "signal") (py "target")) with false in HR.
  change (str_eqb (py "signal") (py "signal")) with true in HR. cbv iota in HR.
  unfold signal_handler in HR. apply bind_ok in HR as [x [s0 [H0 HR]]]. apply item_ok in H0 as [-> H0]. rewrite Hi in H0. inversion H0; subst x.
  apply bind_ok in HR as [o' [s1 [H1 HR]]]. apply lift_ok in H1 as [-> H1]. rewrite Ho0 in H1. cbn [decode_obj c_env mk_ctx] in H1.
  destruct (decode_byte_string (u_env u) val) as [o|] eqn:D; [|discriminate]. cbn [rbind rmap] in H1. inversion H1; subst o'.
  unfold parent_item in HR. rewrite Hp0 in HR. apply bind_ok in HR as [x [s1 [H2 HR]]]. apply item_ok in H2 as [-> H2]. rewrite Hi' in H2. inversion H2; subst x.
  rewrite Hpo0 in HR. cbn [hobj_isdataset hobj_isgroup c_world mk_ctx] in HR. rewrite Hg in HR.
  apply bind_ok in HR as [one [s1 [H3 HR]]]. cbn [c_env mk_ctx hobj_str] in H3.
  assert (X : s1 = sm /\ (one = true <-> is_one (u_env u) o)).
  { unfold is_one. rewrite <- isdigit_text, <- int_value. destruct (py_isdigit (u_env u) (py_str o)) eqn:E.
    - apply bind_ok in H3 as [n [s2 [H4 H5]]]. apply lift_ok in H4 as [-> H4]. inversion H5; subst. split; auto. rewrite Z.eqb_eq, H4.
      split; [intros ->; auto|]. intros [_ I]. congruence.
    - inversion H3; subst. split; auto. split; [discriminate|]. intros [I _]. discriminate. }
  destruct X as [-> X]. exists o.
  assert (Y : exists st cm, ((st = OK /\ is_one (u_env u) o /\ cm = py "found plottable data marker") \/ (st = NOTE /\ ~ is_one (u_env u) o /\ cm = py "@signal=" ++ py_str o)) /\ record_finding i ATTR_TEST st cm sm = (sb, Ok tt)).
  { destruct one; eexists; eexists; (split; [|exact HR]).
    - left. split; auto. split; auto. apply X; auto.
    - right. split; auto. split; auto. intros I. apply X in I. discriminate. }
  destruct Y as [st [cm [V R]]]. exists st, cm. split; auto. split; auto. eapply one_shown; eauto.
Qed.

Lemma unchecked_todo : forall u w v fname v', validate u w v fname = (v', Ok tt) ->
  forall i it val name p pit h, listed v' i it -> it_obj it = OVal val -> it_addr it <> None -> it_name it = Some name ->
  it_parent it = Some p -> listed v' p pit -> it_obj pit = ONode h -> unchecked w h name ->
  shows v' i it (mkF (it_addr it) (py "attribute value") TODO (py "implement"))
  /\ (own_address v' i -> attribute_findings v' (it_addr it) = [mkF (it_addr it) (py "attribute value") TODO (py "implement")]).
Proof.
  intros u w v fname v' H i it val name p pit h L Ho Ha Hn Hp Lp Hpo Hu.
  destruct (attr_start _ _ _ _ _ H _ _ _ _ L Ho Ha Hn) as [sm [sb [it0 [p' [pit' [pit0 [h' [O [Hi [Ho0 [Ha0 [Hp' [Hp0 [Lp' [Hpo' [Hi' [Hpo0 HR]]]]]]]]]]]]]]]]].
  rewrite Hp in Hp'. inversion Hp'; subst p'. rewrite (listed_fun _ _ _ _ Lp' Lp) in *. rewrite Hpo in Hpo'. inversion Hpo'; subst h'. clear Hp' Hpo' Lp'.
  assert (R : generic_handler (mk_ctx u w fname) i sm = (sb, Ok tt)).
  { destruct Hu as [Hu|[-> [G1 G2]]].
    - destruct (str_eqb name (py "NX_class")) eqn:X1; [apply str_eqb_eq in X1; subst; exfalso; apply Hu; simpl; auto|].
      destruct (str_eqb name (py "target")) eqn:X2; [apply str_eqb_eq in X2; subst; exfalso; apply Hu; simpl; auto|].
      destruct (str_eqb name (py "signal")) eqn:X3; [apply str_eqb_eq in X3; subst; exfalso; apply Hu; simpl; auto|].
      destruct (str_eqb name (py "axes")) eqn:X4; [apply str_eqb_eq in X4; subst; exfalso; apply Hu; simpl; auto|]. exact HR.
    - change (str_eqb (py "signal") (py "NX_class")) with false in HR. change (str_eqb (py "signal") (py "target")) with false in HR.
      change (str_eqb (py "signal") (py "signal")) with true in HR. cbv iota in HR.
      unfold signal_handler in HR. apply bind_ok in HR as [x [s0 [H0 HR]]]. apply item_ok in H0 as [-> H0]. rewrite Hi in H0. inversion H0; subst x.
      apply bind_ok in HR as [o' [s1 [H1 HR]]]. apply lift_ok in H1 as [-> H1].
      unfold parent_item in HR. rewrite Hp0 in HR. apply bind_ok in HR as [x [s1 [H2 HR]]]. apply item_ok in H2 as [-> H2]. rewrite Hi' in H2. inversion H2; subst x.
      rewrite Hpo0 in HR. cbn [hobj_isdataset hobj_isgroup c_world mk_ctx] in HR. rewrite G1, G2 in HR. exact HR. }
  eapply one_shown; eauto.
Qed.
