(** * The application definition checks of a completed validation *)

From Coq Require Import List NArith ZArith Bool String Lia Permutation.
From Verif Require Import PyBase PyFacts Regex Utf8 H5 Findings Nxdl Core Catalog ItemName AttributeCheck
  GroupChecks AppDef DefaultPlot Validate Trace CheckFacts CatalogFacts Spec_Run Spec_Catalog Spec_Attributes RunFacts AddrRecord GroupRun GroupEnd Spec_AppDef Spec_Plot.
Import ListNotations.

(** ** Enumerations *)
Lemma first_element_spec : forall v x, first_element v x <-> first_if_array v = Ok x.
Proof.
  intros v x. split.
  - intros [| | | |y H]; try reflexivity. destruct y; try destruct H; reflexivity.
  - destruct v; cbn [first_if_array]; intros H; try (injection H as <-; constructor; exact I); destruct l; try discriminate; injection H as <-; constructor.
Qed.
Lemma dataset_value_read : forall E w h x, dataset_value E w h x <->
  exists val first, read_data w h = Ok val /\ first_if_array val = Ok first /\ decode_byte_string E first = Ok x.
Proof.
  intros E w h x. unfold dataset_value, read_data. split.
  - intros (o & val & first & -> & -> & F & D). exists val, first. split; auto. split; auto. apply first_element_spec. auto.
  - intros (val & first & R & F & D). destruct (obj_of w h) as [o|]; [|discriminate]. exists o, val, first.
    split; auto. split; [destruct (ob_kind o); congruence|]. split; auto. apply first_element_spec. auto.
Qed.
Lemma field_value_spec : forall E w h v x, field_value w (Some h) = Ok v -> decode_byte_string E v = Ok x -> dataset_value E w h x.
Proof. intros E w h v x H1 H2. unfold field_value in H1. destruct (read_data w h) as [val|] eqn:E1; [|discriminate]. cbn [rbind] in H1. apply dataset_value_read. exists val, v. auto. Qed.
Lemma dataset_value_field : forall E w h x, dataset_value E w h x -> exists v, field_value w (Some h) = Ok v /\ decode_byte_string E v = Ok x.
Proof. intros E w h x H. apply dataset_value_read in H. destruct H as [val [v [H1 [H2 H3]]]]. exists v. split; auto. unfold field_value. rewrite H1. exact H2. Qed.
Lemma dataset_value_fun : forall E w h x y, dataset_value E w h x -> dataset_value E w h y -> x = y.
Proof. intros E w h x y H H'. apply dataset_value_read in H, H'. destruct H as [v1 [f1 [A1 [A2 A3]]]], H' as [v2 [f2 [B1 [B2 B3]]]]. congruence. Qed.

Lemma find_enum_none : forall E w l, l <> [] -> exists e, find_enum E w None l = Exn e.
Proof. intros E w [|x l] H; [congruence|]. simpl. eauto. Qed.

Lemma find_enum_spec : forall E w h l x, dataset_value E w h x ->
  exists r, find_enum E w (Some h) l = Ok r
    /\ (match r with Some s => x = VStr s /\ In (Some s) l | None => ~ exists s, x = VStr s /\ In (Some s) l end).
Proof.
  intros E w h l x HV. destruct (dataset_value_field _ _ _ _ HV) as [v [V1 V2]]. induction l as [|e l IH].
  - exists None. split; auto. intros [s [_ []]].
  - destruct IH as [r [R1 R2]]. cbn [find_enum]. rewrite V1. cbn [rbind]. rewrite V2. cbn [rbind].
    assert (G : (match e, x with Some s, VStr t => s <> t | _, _ => True end) ->
      match r with Some s => x = VStr s /\ In (Some s) (e :: l) | None => ~ exists s, x = VStr s /\ In (Some s) (e :: l) end).
    { intros N. destruct r as [s|].
      - destruct R2. split; auto. right. auto.
      - intros [s [X1 X2]]. subst x. destruct X2 as [->|X2]; [congruence|]. apply R2. eauto. }
    destruct e as [s|]; [|exists r; split; [exact R1|apply G; destruct x; exact I]]. destruct x; try (exists r; split; [exact R1|apply G; exact I]).
    match goal with |- context [str_eqb s ?t] => destruct (str_eqb_spec s t) end.
    + subst. eexists. split; [reflexivity|]. simpl. auto.
    + exists r. split; [exact R1|]. apply G. assumption.
Qed.

Lemma find_enum_ok : forall E w h l r, l <> [] -> find_enum E w h l = Ok r -> exists t x, h = Some t /\ dataset_value E w t x.
Proof.
  intros E w h [|e l] r Hl H; [congruence|]. cbn [find_enum] in H. destruct h as [t|]; [|discriminate].
  destruct (field_value w (Some t)) as [v|] eqn:E1; [|discriminate]. cbn [rbind] in H. destruct (decode_byte_string E v) as [x|] eqn:E2; [|discriminate].
  exists t, x. split; auto. eapply field_value_spec; eauto.
Qed.

Lemma join_enums_ok : forall l, (exists t, join_enums l = Ok t) <-> ~ In None l.
Proof.
  unfold join_enums. induction l as [|[s|] l IH].
  - simpl. split; eauto.
  - cbn [traverse]. cbn [need_text rbind]. destruct (traverse (need_text TypeError) l) as [r|e]; simpl in *.
    + split; [intros _|eauto]. intros [X|X]; [discriminate|]. apply IH in X; auto. eauto.
    + split; [intros [t X]; discriminate|]. intros N. exfalso. assert (Z : ~ In None l) by tauto. apply IH in Z as [t Z]. discriminate.
  - cbn [traverse need_text rbind]. simpl. split; [intros [t X]; discriminate|]. intros N. exfalso. apply N. auto.
Qed.

Lemma join_enums_text : forall l t, join_enums l = Ok t -> exists texts, l = map Some texts /\ t = join (py " | ") texts.
Proof.
  unfold join_enums. intros l t H. destruct (traverse (need_text TypeError) l) as [r|e] eqn:T; [|discriminate]. cbn [rmap] in H. injection H as <-.
  exists r. split; [|reflexivity]. revert r T. induction l as [|x l IH]; intros r T; cbn [traverse] in T.
  - injection T as <-. reflexivity.
  - destruct x as [s|]; [|discriminate]. cbn [need_text rbind] in T. destruct (traverse (need_text TypeError) l) as [r0|e] eqn:T0; [|discriminate].
    cbn [rbind] in T. injection T as <-. cbn [map]. f_equal. apply IH. reflexivity.
Qed.

Lemma req_text : forall mo ad field, ad ++ py ":" ++ field ++ (if match mo with Some z => Z.eqb z 1 | None => false end then py " (required)" else py " (optional)")
  = enumeration_text mo ad field.
Proof. intros [[|[p|p|]|p]|] ad field; reflexivity. Qed.

(** ** The name of the definition *)
Lemma definition_name_follows : forall c it name, definition_name c it = Ok name <->
  exists h, it_obj it = ONode h /\ follows (c_env c) (c_world c) h name.
Proof.
  intros c it name. unfold definition_name, hobj_getitem, follows. destruct (it_obj it) as [h|v].
  - destruct (is_group_obj (c_world c) h) eqn:G.
    + split.
      * intros H. destruct (getitem (c_world c) h (py "definition")) as [dh|] eqn:E1; [|discriminate]. cbn [rbind] in H.
        destruct (read_data (c_world c) dh) as [val|] eqn:E2; [|discriminate]. cbn [rbind] in H. destruct (first_if_array val) as [f|] eqn:E3; [|discriminate]. cbn [rbind] in H.
        destruct (decode_byte_string (c_env c) f) as [x|] eqn:E4; [|discriminate]. cbn [rbind] in H. inversion H; subst.
        exists h. split; auto. split; auto. exists dh, x. split; auto. split; auto. apply dataset_value_read. exists val, f. auto.
      * intros [h' [X [_ [dh [x [H1 [HV H5]]]]]]]. apply dataset_value_read in HV. destruct HV as [val [f [H2 [H3 H4]]]]. inversion X; subst h'. rewrite H1. cbn [rbind]. rewrite H2. cbn [rbind]. rewrite H3. cbn [rbind]. rewrite H4. cbn [rbind]. congruence.
    + split; [intros H; discriminate|]. intros [h' [X [Y _]]]. inversion X; subst. congruence.
  - split; [discriminate|]. intros [h [X _]]. discriminate.
Qed.

(** ** One field *)
Lemma new_item_run : forall it s s' n, it_vals it = [] -> new_item it s = (s', Ok n) -> rec_run s [] s' /\ nth_error (st_items s') n = Some it /\ st_classes s' = st_classes s.
Proof.
  intros it s s' n HV H. inversion H; subst. split; [|split; [|reflexivity]].
  - exists [ENew it]. split; [|reflexivity]. constructor; simpl; auto. rewrite app_nil_r. reflexivity.
  - simpl. rewrite nth_error_app2; [|lia]. rewrite Nat.sub_diag. reflexivity.
Qed.

Lemma ad_field_run : forall c i it ad fs h s s' u, it_obj it = ONode h -> is_group_obj (c_world c) h = true ->
  ad_field c i it ad fs s = (s', Ok u) ->
  st_classes s' = st_classes s /\ exists l, rec_run s l s' /\ field_report (c_env c) (c_world c) (c_field_minOccurs c) ad it h fs l.
Proof.
  intros c i it ad [field spec] h s s' u Ho Hg H. unfold ad_field in H. cbn [fst snd] in H.
  apply bind_ok in H as [fh [s1 [H1 H]]]. apply lift_ok in H1 as [-> H1]. unfold hobj_getopt in H1. rewrite Ho, Hg in H1.
  apply bind_ok in H as [vi [s2 [H2 H]]]. apply lift_ok in H2 as [-> H2].
  assert (HV : it_vals vi = []).
  { destruct fh as [t|]; cbn [field_item] in H2; [apply node_item_spec in H2; tauto|]. inversion H2; subst. unfold attr_item. destruct (str_eqb _ _); reflexivity. }
  apply bind_ok in H as [n [s3 [H3 H]]]. apply (new_item_run _ _ _ _ HV) in H3 as [R3 [N3 C3]].
  apply bind_ok in H as [u4 [s4 [H4 H]]]. apply (record_run _ _ _ _ _ _ _ (it_addr vi)) in H4 as [R4 C4]; [|exists vi; auto].
  assert (A : it_addr vi = match fh with Some t => Some (h_name t) | None => missing_address it end).
  { destruct fh as [t|]; cbn [field_item] in H2.
    - apply node_item_spec in H2. tauto.
    - inversion H2; subst. unfold attr_item, missing_address. change NON_NEXUS with non_nexus. destruct (str_eqb (it_cp it) non_nexus); reflexivity. }
  assert (AT : addr_at s4 n (it_addr vi)) by (eapply addr_at_ext; [exact (rec_run_ext _ _ _ R4)|]; exists vi; auto).
  assert (F : field_finding ad field it fh (mkF (it_addr vi) (py "NXDL field") (TF_RESULT (is_some fh)) (ad ++ py ":" ++ field ++ (if is_some fh then [] else py " not") ++ py " found"))).
  { rewrite A. destruct fh; reflexivity. }
  assert (Fin : forall s5 e, rec_run s4 e s5 -> enumeration_report (c_env c) (c_world c) (c_field_minOccurs c) ad field spec fh e ->
     exists l, rec_run s l s5 /\ field_report (c_env c) (c_world c) (c_field_minOccurs c) ad it h (field, spec) l).
  { intros s5 e R5 EN. eexists. split; [eapply (rec_run_app _ [] _ _ _ R3); eapply rec_run_cons; [exact R4|exact R5]|]. eexists fh, _, e. split; [exact H1|]. split; [exact F|]. split; [exact EN|reflexivity]. }
  destruct (nf_enums spec) as [|e0 enums] eqn:En.
  - apply ret_ok in H as [-> _]. split; [congruence|]. apply (Fin s4 []); [apply rec_run_nil|]. left. auto.
  - apply bind_ok in H as [fd [s5 [H5 H]]]. apply lift_ok in H5 as [-> H5]. assert (NE : e0 :: enums <> []) by discriminate. set (en := e0 :: enums) in *.
    destruct (find_enum_ok _ _ _ _ _ NE H5) as [t [x [-> HX]]]. destruct (find_enum_spec _ _ _ en _ HX) as [r [R1 R2]].
    rewrite R1 in H5. inversion H5; subst fd. clear H5. destruct r as [e|].
    + apply (record_run _ _ _ _ _ _ _ (it_addr vi)) in H as [R5 C5]; auto. split; [congruence|]. eapply Fin; [exact R5|]. right.
      exists t, x, OK. eexists. split; [rewrite En; discriminate|]. split; auto. split; auto. rewrite A. split; [reflexivity|]. left. split; auto.
      exists e. rewrite En. destruct R2. split; auto. split; auto. rewrite <- req_text. reflexivity.
    + apply bind_ok in H as [txt [s6 [H6 H]]]. apply lift_ok in H6 as [-> H6].
      apply (record_run _ _ _ _ _ _ _ (it_addr vi)) in H as [R5 C5]; auto. split; [congruence|]. eapply Fin; [exact R5|]. right.
      exists t, x, ERROR. eexists. split; [rewrite En; discriminate|]. split; auto. split; auto. rewrite A. split; [reflexivity|]. right. split; auto. split; [unfold enumerated; rewrite En; exact R2|].
      apply join_enums_text in H6 as [texts [T ->]]. exists texts. rewrite En. split; auto. rewrite <- req_text. reflexivity.
Qed.

(** ** One definition *)
Lemma verify_run : forall c i s s' u it, nth_error (st_items s) i = Some it -> application_definition_verify c i s = (s', Ok u) ->
  st_classes s' = st_classes s /\ exists fs, rec_run s fs s' /\ definition_report (c_env c) (c_world c) (c_field_minOccurs c) (st_classes s) it fs.
Proof.
  intros c i s s' u it Hi H. unfold application_definition_verify in H.
  apply bind_ok in H as [it0 [s0 [H0 H]]]. apply item_ok in H0 as [-> H0]. assert (it0 = it) by congruence. subst it0. clear H0.
  apply bind_ok in H as [name [s1 [H1 H]]]. apply lift_ok in H1 as [-> H1]. apply definition_name_follows in H1 as [h [Ho HF]].
  apply bind_ok in H as [? [? [G H]]]. apply get_ok in G as [-> ->].
  apply bind_ok in H as [u2 [s2 [H2 H]]]. assert (A0 : addr_at s i (it_addr it)) by (exists it; auto).
  apply (record_run _ _ _ _ _ _ _ (it_addr it)) in H2 as [R2 C2]; auto.
  destruct (dget name (st_classes s)) as [d|] eqn:Ed; cbn [is_some] in *.
  - apply bind_ok in H as [u3 [s3 [H3 H]]]. pose proof (addr_at_ext _ _ _ _ (rec_run_ext _ _ _ R2) A0) as A2.
    assert (X : exists st cm, rec_run s2 [mkF (it_addr it) definition_test st (name ++ cm)] s3 /\ st_classes s3 = st_classes s2 /\
      (st = OK /\ d_category d = py "applications" /\ cm = py ": known NeXus application definition"
       \/ st = OK /\ d_category d = py "contributed_definitions" /\ cm = py ": known NeXus contributed definition used as application definition"
       \/ st = ERROR /\ d_category d <> py "applications" /\ d_category d <> py "contributed_definitions" /\ cm = py ": unknown application definition")).
    { destruct (str_eqb_spec (d_category d) (py "applications")); [|destruct (str_eqb_spec (d_category d) (py "contributed_definitions"))];
        apply (record_run _ _ _ _ _ _ _ (it_addr it)) in H3 as [R3 C3]; auto; eexists _, _; (split; [exact R3|]); split; auto 10. }
    destruct X as [st [cm [R3 [C3 S3]]]].
    apply bind_ok in H as [u4 [s4 [H4 H]]]. pose proof (addr_at_ext _ _ _ _ (rec_run_ext _ _ _ R3) A2) as A3.
    apply (record_run _ _ _ _ _ _ _ (it_addr it)) in H4 as [R4 C4]; auto.
    destruct (d_groups d) as [|[k entry] rest] eqn:Eg; [discriminate|].
    destruct (for_each_run _ _ (fun s5 => st_classes s5 = st_classes s4) (field_report (c_env c) (c_world c) (c_field_minOccurs c) name it h) _ _ _ _
      (fun x s5 s6 u5 _ I5 H5 => let P := ad_field_run _ _ _ _ _ _ _ _ _ Ho (proj1 HF) H5 in conj (eq_trans (proj1 P) I5) (proj2 P)) eq_refl H) as [C5 [fss [R5 F5]]].
    split; [congruence|]. eexists. split; [|eapply dr_known; eauto].
    eapply rec_run_cons; [exact R2|]. eapply rec_run_cons; [exact R3|]. eapply rec_run_cons; [exact R4|]. exact R5.
  - apply ret_ok in H as [-> _]. split; auto. eexists. split; [exact R2|]. eapply dr_unknown; eauto.
Qed.

(** ** When the check completes *)
Lemma node_item_index : forall E w i j it t vi, node_item E w (Some (i, it)) t = Ok vi -> exists vi', node_item E w (Some (j, it)) t = Ok vi'.
Proof.
  intros E w i j it t vi H. unfold node_item in *. cbn [option_map snd fst] in *.
  destruct (determine_NeXus_classpath E w (Some (it_cp it)) t _) as [cn|]; [|discriminate]. cbn [rbind] in *.
  destruct (identify_object_type E w (ONode t)) as [x|]; [|discriminate]. cbn [rbind] in *. eauto.
Qed.

Lemma record_total : forall i k st cm s it, nth_error (st_items s) i = Some it -> exists s', record_finding i k st cm s = (s', Ok tt) /\ ext s s' /\ st_classes s' = st_classes s.
Proof.
  intros i k st cm s it Hi. unfold record_finding, bind, item. rewrite Hi. eexists. split; [reflexivity|].
  split; [|reflexivity]. assert (E : record_finding i k st cm s = (set_items (set_find s (st_find s ++ [mkF (it_addr it) k st cm])) (update_nth i (fun it0 => set_vals it0 (dset k (mkF (it_addr it) k st cm) (it_vals it0))) (st_items s)), Ok tt)).
  { unfold record_finding, bind, item. rewrite Hi. reflexivity. }
  apply record_ok in E as [it' [_ [T _]]]. eexists. exact T.
Qed.

Lemma bind_eq : forall A B (m : M A) (f : A -> M B) s s1 a, m s = (s1, Ok a) -> bind m f s = f a s1.
Proof. intros A B m f s s1 a H. unfold bind. rewrite H. reflexivity. Qed.
Lemma bind_lift : forall A B (a : A) (f : A -> M B) s r, r = Ok a -> bind (lift r) f s = f a s.
Proof. intros. subst. reflexivity. Qed.

Lemma field_item_total : forall E w i it fh, (forall t, fh = Some t -> exists vi, node_item E w (Some (0, it)) t = Ok vi) ->
  exists vi, field_item E w i it fh = Ok vi /\ it_vals vi = [].
Proof.
  intros E w i it [t|] H.
  - destruct (H t eq_refl) as [vi Hv]. destruct (node_item_index _ _ _ i _ _ _ Hv) as [vi' Hv']. exists vi'. split; auto. apply node_item_spec in Hv'. tauto.
  - eexists. split; [reflexivity|]. unfold attr_item. destruct (str_eqb _ _); reflexivity.
Qed.

Lemma ad_field_total : forall c i it ad field spec h s, it_obj it = ONode h -> is_group_obj (c_world c) h = true ->
  field_checkable (c_env c) (c_world c) it h field spec -> exists s', ad_field c i it ad (field, spec) s = (s', Ok tt).
Proof.
  intros c i it ad field spec h s Ho Hg [fh [H1 [H2 H3]]]. unfold ad_field. cbn [fst snd].
  rewrite (bind_lift _ _ fh); [|unfold hobj_getopt; rewrite Ho, Hg; exact H1].
  destruct (field_item_total (c_env c) (c_world c) i it fh H2) as [vi [Hv HV]]. rewrite (bind_lift _ _ vi _ _ _ Hv).
  destruct (new_item vi s) as [s1 [n|e]] eqn:En; [|discriminate]. rewrite (bind_eq _ _ _ _ _ _ _ En).
  apply (new_item_run _ _ _ _ HV) in En as [_ [N1 _]].
  destruct (record_total n (py "NXDL field") (TF_RESULT (is_some fh)) (ad ++ py ":" ++ field ++ (if is_some fh then [] else py " not") ++ py " found") s1 vi N1) as [s2 [E2 [X2 _]]].
  rewrite (bind_eq _ _ _ _ _ _ _ E2). destruct (nf_enums spec) as [|e0 enums] eqn:Ee; [eexists; reflexivity|].
  destruct H3 as [t [x [-> [HX HE]]]]; [discriminate|]. set (en := e0 :: enums) in *. destruct (find_enum_spec _ _ _ en _ HX) as [r [R1 R2]].
  rewrite (bind_lift _ _ r _ _ _ R1). destruct (ext_item _ _ _ _ X2 N1) as [vi' [N2 _]]. destruct r as [e|].
  - destruct (record_total n (py "NXDL field enumerations") OK ((ad ++ py ":" ++ field ++ (if match c_field_minOccurs c with Some z => Z.eqb z 1 | None => false end then py " (required)" else py " (optional)")) ++ py " has expected value: " ++ e) _ _ N2) as [s3 [E3 _]]. eauto.
  - destruct HE as [HE|HE]; [exfalso; apply R2; destruct HE as [s0 [A B]]; rewrite Ee in B; eauto|]. apply join_enums_ok in HE as [txt HE].
    rewrite (bind_lift _ _ txt _ _ _ HE). destruct (record_total n (py "NXDL field enumerations") ERROR ((ad ++ py ":" ++ field ++ (if match c_field_minOccurs c with Some z => Z.eqb z 1 | None => false end then py " (required)" else py " (optional)")) ++ py " does not have value: " ++ txt) _ _ N2) as [s3 [E3 _]]. eauto.
Qed.

Lemma ad_field_needs : forall c i it ad field spec h s s' u, it_obj it = ONode h -> is_group_obj (c_world c) h = true ->
  ad_field c i it ad (field, spec) s = (s', Ok u) -> field_checkable (c_env c) (c_world c) it h field spec.
Proof.
  intros c i it ad field spec h s s' u Ho Hg H. unfold ad_field in H. cbn [fst snd] in H.
  apply bind_ok in H as [fh [s1 [H1 H]]]. apply lift_ok in H1 as [-> H1]. unfold hobj_getopt in H1. rewrite Ho, Hg in H1.
  apply bind_ok in H as [vi [s2 [H2 H]]]. apply lift_ok in H2 as [-> H2]. exists fh. split; auto. split.
  - intros t ->. cbn [field_item] in H2. eapply node_item_index; eauto.
  - intros NE. apply bind_ok in H as [n [s3 [H3 H]]]. apply bind_ok in H as [u4 [s4 [H4 H]]].
    destruct (nf_enums spec) as [|e0 enums] eqn:En; [congruence|]. apply bind_ok in H as [fd [s5 [H5 H]]]. apply lift_ok in H5 as [-> H5]. set (en := e0 :: enums) in *.
    destruct (find_enum_ok _ _ _ _ _ NE H5) as [t [x [-> HX]]]. exists t, x. split; auto. split; auto. unfold enumerated. rewrite En. destruct (find_enum_spec _ _ _ en _ HX) as [r [R1 R2]].
    rewrite R1 in H5. inversion H5; subst fd. destruct r as [e|]; [left; exists e; exact R2|]. right.
    apply bind_ok in H as [txt [s6 [H6 H]]]. apply lift_ok in H6 as [-> H6]. apply join_enums_ok. eauto.
Qed.

Lemma for_each_total : forall A (f : A -> M unit) l s, (forall x s, In x l -> exists s', f x s = (s', Ok tt)) -> exists s', for_each f l s = (s', Ok tt).
Proof.
  induction l as [|x l IH]; intros s H; cbn [for_each]; [eexists; reflexivity|].
  destruct (H x s (or_introl eq_refl)) as [s1 E1]. rewrite (bind_eq _ _ _ _ _ _ _ E1). apply IH. intros y s2 Hy. apply H. right. auto.
Qed.
Lemma for_each_each : forall A (f : A -> M unit) l s s' u, for_each f l s = (s', Ok u) -> forall x, In x l -> exists s1 s2 u, f x s1 = (s2, Ok u).
Proof.
  induction l as [|y l IH]; intros s s' u H x Hx; [destruct Hx|]. cbn [for_each] in H. apply bind_ok in H as [u1 [s1 [H1 H]]].
  destruct Hx as [->|Hx]; eauto.
Qed.

Lemma verify_completes : forall c i s it, nth_error (st_items s) i = Some it ->
  (snd (application_definition_verify c i s) = Ok tt <-> checkable (c_env c) (c_world c) (st_classes s) it).
Proof.
  intros c i s it Hi. split.
  - intros H. destruct (application_definition_verify c i s) as [s' r] eqn:E. simpl in H. subst r. unfold application_definition_verify in E.
    apply bind_ok in E as [it0 [s0 [H0 E]]]. apply item_ok in H0 as [-> H0]. assert (it0 = it) by congruence. subst it0. clear H0.
    apply bind_ok in E as [name [s1 [H1 E]]]. apply lift_ok in H1 as [-> H1]. apply definition_name_follows in H1 as [h [Ho HF]].
    apply bind_ok in E as [? [? [G E]]]. apply get_ok in G as [-> ->]. apply bind_ok in E as [u2 [s2 [H2 E]]].
    exists h, name. split; auto. split; auto. destruct (dget name (st_classes s)) as [d|] eqn:Ed; [|left; reflexivity]. right.
    apply bind_ok in E as [u3 [s3 [H3 E]]]. apply bind_ok in E as [u4 [s4 [H4 E]]]. destruct (d_groups d) as [|[k entry] rest] eqn:Eg; [discriminate|].
    exists d, k, entry, rest. split; auto. split; auto. intros field spec Hin. destruct (for_each_each _ _ _ _ _ _ E _ Hin) as [t1 [t2 [u5 H5]]].
    eapply ad_field_needs; eauto. apply HF.
  - intros [h [name [Ho [HF HC]]]]. unfold application_definition_verify.
    assert (E0 : item i s = (s, Ok it)) by (unfold item; rewrite Hi; reflexivity). rewrite (bind_eq _ _ _ _ _ _ _ E0).
    assert (E1 : definition_name c it = Ok name) by (apply definition_name_follows; eauto). rewrite (bind_lift _ _ _ _ _ _ E1).
    rewrite (bind_eq _ _ get _ s s s eq_refl).
    match goal with |- snd (bind (record_finding ?i ?k ?st ?cm) _ _) = _ => destruct (record_total i k st cm s it Hi) as [s1 [R1 [X1 _]]]; rewrite (bind_eq _ _ _ _ _ _ _ R1) end.
    destruct (ext_item _ _ _ _ X1 Hi) as [it1 [Hi1 _]].
    destruct HC as [HC|[d [k [entry [rest [HC [Hg HFC]]]]]]]; rewrite HC; [reflexivity|].
    assert (R2 : exists s2, (if str_eqb (d_category d) (py "applications")
      then record_finding i (py "NeXus application definition") OK (name ++ py ": known NeXus application definition")
      else if str_eqb (d_category d) (py "contributed_definitions")
           then record_finding i (py "NeXus application definition") OK (name ++ py ": known NeXus contributed definition used as application definition")
           else record_finding i (py "NeXus application definition") ERROR (name ++ py ": unknown application definition")) s1 = (s2, Ok tt) /\ ext s1 s2).
    { destruct (str_eqb _ _); [|destruct (str_eqb _ _)];
        match goal with |- exists s2, record_finding ?i ?k ?st ?cm _ = _ /\ _ => destruct (record_total i k st cm s1 it1 Hi1) as [s2 [R2 [X2 _]]]; exists s2; auto end. }
    destruct R2 as [s2 [R2 X2]]. rewrite (bind_eq _ _ _ _ _ _ _ R2). destruct (ext_item _ _ _ _ X2 Hi1) as [it2 [Hi2 _]].
    match goal with |- snd (bind (record_finding ?i ?k ?st ?cm) _ _) = _ => destruct (record_total i k st cm s2 it2 Hi2) as [s3 [R3 [X3 _]]]; rewrite (bind_eq _ _ _ _ _ _ _ R3) end.
    rewrite Hg. destruct (for_each_total _ (ad_field c i it name) (g_fields entry) s3) as [s4 E4].
    + intros [field spec] s5 Hin. eapply ad_field_total; eauto. apply HF.
    + rewrite E4. reflexivity.
Qed.
