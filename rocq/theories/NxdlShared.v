(** * What loading does to the defaults that all structures share *)

From Coq Require Import List NArith ZArith Bool String.
From Verif Require Import PyBase PyFacts Nxdl NxdlLoad Spec_Nxdl NxdlFacts.
Import ListNotations.
Open Scope string_scope.
Open Scope list_scope.

(** an element that touches a default: [a], [f], [g] tell whether attributes, fields and
    groups do *)
Inductive touched (a f g : Prop) : xnode -> Prop :=
| to_attr : forall n k, a -> In k (elements (py "attribute") n) -> touched a f g n
| to_fattr : forall n h k, a -> In h (elements (py "field") n) -> In k (elements (py "attribute") h) -> touched a f g n
| to_field : forall n k, f -> In k (elements (py "field") n) -> touched a f g n
| to_group : forall n k, g -> In k (elements (py "group") n) -> touched a f g n
| to_below : forall n k, In k (elements (py "group") n) -> touched a f g k -> touched a f g n.

Section Shared.
  Variable get : defaults -> option dflt.
  Variable value : dflt.
  Variables a f g : Prop.
  Definition app (cat : pystr) : Prop := cat = py "applications".
  Definition mv (P : Prop) (d d' : defaults) : Prop := (P /\ get d' = Some value) \/ (~ P /\ get d' = get d).
  Hypothesis on_attr : forall cat d d' u, app_attr cat d = (d', Ok u) -> mv (app cat /\ a) d d'.
  Hypothesis on_field : forall cat d d' u, app_field cat d = (d', Ok u) -> mv (app cat /\ f) d d'.
  Hypothesis on_group : forall cat d d' u, app_group cat d = (d', Ok u) -> mv (app cat /\ g) d d'.

  Lemma mv_iff : forall P Q d d', (P <-> Q) -> mv P d d' -> mv Q d d'.
  Proof. unfold mv. intros. tauto. Qed.
  Lemma mv_seq : forall P Q d d1 d2, mv P d d1 -> mv Q d1 d2 -> mv (P \/ Q) d d2.
  Proof. unfold mv. intros P Q d d1 d2 [[A B] | [A B]] [[C D] | [C D]]; rewrite ?D, ?B; tauto. Qed.
  Lemma mv_no : forall (P : Prop) d, ~ P -> mv P d d.
  Proof. unfold mv. auto. Qed.

  Lemma attributes_mv : forall cat nodes acc d d' r, parse_attributes cat acc nodes d = (d', Ok r) -> mv (app cat /\ a /\ exists k, In k nodes) d d'.
  Proof.
    induction nodes as [|n nodes IH]; cbn [parse_attributes]; intros acc d d' r H; lm_inv.
    - apply mv_no. intros (_ & _ & k & []).
    - apply on_attr in E0. destruct (dmem (na_name a0) acc); lm_inv. apply IH in H.
      eapply mv_iff; [|exact (mv_seq _ _ _ _ _ E0 H)]. split; [intros [(A & B) | (A & B & k & C)]; split; auto; split; auto; [exists n | exists k]; simpl; auto | intros (A & B & _); auto].
  Qed.

  Lemma field_mv : forall cat n d d' x, parse_field cat n d = (d', Ok x) -> mv (app cat /\ a /\ exists k, In k (elements (py "attribute") n)) d d'.
  Proof.
    unfold parse_field. intros. lm_inv. apply attributes_mv in E0.
    match goal with H : match kids_named (py "dimensions") n with _ => _ end _ = (?d1, _) |- _ => assert (Q : d1 = d1) by reflexivity end. clear Q.
    destruct (kids_named (py "dimensions") n) as [|k [|k' l]]; lm_inv; auto.
    match goal with H : parse_dimensions _ _ = _ |- _ => apply parse_dimensions_state in H; subst end. exact E0.
  Qed.

  Lemma fields_mv : forall cat groups nodes acc d d' r, parse_fields cat groups acc nodes d = (d', Ok r) ->
    mv (app cat /\ ((f /\ exists n, In n nodes) \/ (a /\ exists n k, In n nodes /\ In k (elements (py "attribute") n)))) d d'.
  Proof.
    induction nodes as [|n nodes IH]; intros acc d d' r H; cbn [parse_fields] in H; lm_inv.
    - apply mv_no. intros (_ & [(_ & k & []) | (_ & k & y & [] & _)]).
    - apply field_mv in E. apply on_field in E0. apply IH in H.
      eapply mv_iff; [|exact (mv_seq _ _ _ _ _ (mv_seq _ _ _ _ _ E E0) H)]. split.
      + intros [[(A & B & k & C) | (A & B)] | (A & [(B & k & C) | (B & k & y & C & D)])]; split; auto; [right | left | left | right]; split; auto.
        * exists n, k. simpl. auto.
        * exists n. simpl. auto.
        * exists k. simpl. auto.
        * exists k, y. simpl. auto.
      + intros (A & [(B & k & C) | (B & k & y & [C | C] & D)]); [left; right; auto | left; left | right]; subst; split; auto; [split; eauto|]. right. split; auto. exists k, y. auto.
  Qed.

  Lemma groups_mv : forall (one : xnode -> LM nxgroup) cat nodes,
    Forall (fun n => forall d d' x, one n d = (d', Ok x) -> mv (app cat /\ touched a f g n) d d') nodes ->
    forall acc d d' r, parse_groups_with one cat acc nodes d = (d', Ok r) ->
    mv (app cat /\ exists n, In n (filter (has_tag (py "group")) nodes) /\ (g \/ touched a f g n)) d d'.
  Proof.
    induction nodes as [|n nodes IH]; intros HA acc d d' r H; cbn [parse_groups_with] in H.
    - lm_inv. apply mv_no. simpl. intros [_ [? [[] _]]].
    - inversion HA as [|? ? H1 H2]; subst. cbn [filter]. destruct (has_tag (py "group") n); [|eapply IH; eauto].
      lm_inv. apply H1 in E. apply on_group in E0. apply IH in H; auto.
      eapply mv_iff; [|exact (mv_seq _ _ _ _ _ (mv_seq _ _ _ _ _ E E0) H)]. simpl. split.
      + intros [[[A B] | [A B]] | [A [x [B C]]]]; split; auto; [exists n | exists n | exists x]; auto.
      + intros [A [x [[-> | B] [C | C]]]]; [left; right | left; left | right | right]; split; eauto.
  Qed.

  Lemma content_mv : forall cat n (one : xnode -> LM nxgroup) d d0 d1 d2 d3 attrs groups fields links,
    Forall (fun n => forall d d' x, one n d = (d', Ok x) -> mv (app cat /\ touched a f g n) d d') (x_kids n) ->
    parse_attributes cat [] (elements (py "attribute") n) d = (d0, Ok attrs) ->
    parse_groups_with one cat [] (x_kids n) d0 = (d1, Ok groups) ->
    parse_fields cat (dkeys groups) [] (elements (py "field") n) d1 = (d2, Ok fields) ->
    parse_links (dkeys groups ++ dkeys fields) [] (elements (py "link") n) d2 = (d3, Ok links) ->
    mv (app cat /\ touched a f g n) d d3.
  Proof.
    intros cat n one d d0 d1 d2 d3 attrs groups fields links HA T G F L.
    apply attributes_mv in T. apply groups_mv in G; auto. apply fields_mv in F. apply parse_links_same in L. subst.
    eapply mv_iff; [|exact (mv_seq _ _ _ _ _ (mv_seq _ _ _ _ _ T G) F)]. split.
    - intros [[(A & B & k & C) | (A & k & B & [C | C])] | (A & [(B & k & C) | (B & k & y & C & D)])]; split; auto.
      + eapply to_attr; eauto.
      + eapply to_group; eauto.
      + eapply to_below; eauto.
      + eapply to_field; eauto.
      + eapply to_fattr; eauto.
    - intros [A B]. inversion B; subst.
      + left. left. eauto.
      + right. split; auto. right. eauto.
      + right. split; auto. left. eauto.
      + left. right. split; auto. exists k. auto.
      + left. right. split; auto. exists k. auto.
  Qed.

  Lemma group_mv : forall cat n d d' x, parse_group cat n d = (d', Ok x) -> mv (app cat /\ touched a f g n) d d'.
  Proof.
    intros cat n. induction n as [t b kids IH] using xnode_ind'. intros d d' x H. cbn [parse_group] in H. lm_inv.
    exact (content_mv cat (XN t b kids) (parse_group cat) _ _ _ _ _ _ _ _ _ IH E0 E1 E2 E3).
  Qed.

  Lemma definition_mv : forall valid fname root d d' def, parse_definition valid fname root d = (d', Ok def) -> mv (app (category_of fname) /\ touched a f g root) d d'.
  Proof.
    unfold parse_definition. intros. destruct (negb (valid root)); lm_inv.
    exact (content_mv (category_of fname) root (parse_group (category_of fname)) _ _ _ _ _ _ _ _ _
             ltac:(apply Forall_forall; intros; eapply group_mv; eauto) E E0 E1 E2).
  Qed.

  Lemma files_mv : forall valid content files acc d d' cl, load_files valid content acc files d = (d', Ok cl) ->
    mv (exists file root, In file files /\ content file = Some root /\ app (category_of file) /\ touched a f g root) d d'.
  Proof.
    induction files as [|h files IH]; intros acc d d' cl H; cbn [load_files] in H.
    - lm_inv. apply mv_no. intros (x & y & [] & _).
    - destruct (content h) as [root|] eqn:C; lm_inv. apply definition_mv in E. apply IH in H.
      eapply mv_iff; [|exact (mv_seq _ _ _ _ _ E H)]. simpl. split.
      + intros [[A B] | (x & y & A & B & D & F)]; [exists h, root | exists x, y]; auto.
      + intros (x & y & [<- | A] & B & D & F); [left | right; exists x, y; auto].
        rewrite C in B. inversion B; subst. auto.
  Qed.

  Lemma manager_mv : forall ls valid content d0 dir d' cl, listed_names_plain ls ->
    load_manager ls valid content d0 dir = (d', Ok cl) -> mv (application_that (touched a f g) ls content dir) d0 d'.
  Proof.
    unfold load_manager. intros ls valid content d0 dir d' cl HP H.
    destruct (get_NXDL_file_list ls dir) as [l|] eqn:E; [|discriminate]. apply files_mv in H.
    eapply mv_iff; [|exact H]. unfold application_that. split.
    - intros (h & root & A & B & C & D). exists h, root. split; auto. eapply applications_of_list; eauto.
    - intros (h & root & A & B & C). exists h, root. apply (applications_of_list _ _ _ h HP E) in A as [A A']. auto.
  Qed.
End Shared.

Lemma not_app : forall cat, str_eqb cat (py "applications") = false -> ~ app cat.
Proof. intros cat E ->. rewrite str_eqb_refl in E. discriminate. Qed.

Ltac on_one := intros cat d d' u H; unfold mv;
  destruct (str_eqb cat (py "applications")) eqn:E;
  [apply str_eqb_eq in E | inversion H; subst; right; split; [intros [A _]; exact (not_app _ E A) | reflexivity]].

Lemma attr_moves : forall ls valid content d0 dir d' cl, listed_names_plain ls -> load_manager ls valid content d0 dir = (d', Ok cl) ->
  mv df_attr_optional DFalse (application_that (touched True False False) ls content dir) d0 d'.
Proof.
  apply manager_mv; unfold app_attr, app_field, app_group.
  - on_one. destruct (df_attr_optional d); inversion H; subst. left. repeat split.
  - on_one. destruct (df_field_minOccurs d); inversion H; subst. right. split; [tauto | reflexivity].
  - on_one. destruct (df_group_minOccurs d); inversion H; subst. right. split; [tauto | reflexivity].
Qed.

Lemma group_moves : forall ls valid content d0 dir d' cl, listed_names_plain ls -> load_manager ls valid content d0 dir = (d', Ok cl) ->
  mv df_group_minOccurs (DInt 1) (application_that (touched False False True) ls content dir) d0 d'.
Proof.
  apply manager_mv; unfold app_attr, app_field, app_group.
  - on_one. destruct (df_attr_optional d); inversion H; subst. right. split; [tauto | reflexivity].
  - on_one. destruct (df_field_minOccurs d); inversion H; subst. right. split; [tauto | reflexivity].
  - on_one. destruct (df_group_minOccurs d); inversion H; subst. left. repeat split.
Qed.

Lemma touched_attribute : forall n, touched True False False n <-> has_attribute n.
Proof.
  intros n. split; (induction 1; [..]); try contradiction.
  - eapply ha_here; eauto.
  - eapply ha_field; eauto.
  - eapply ha_below; eauto.
  - eapply to_attr; eauto.
  - eapply to_fattr; eauto.
  - eapply to_below; eauto.
Qed.
Lemma touched_group : forall n, touched False False True n <-> has_group n.
Proof.
  intros n. split; [|intros [k H]; eapply to_group; eauto]. intros H. destruct H; try contradiction; eexists; eauto.
Qed.
Lemma application_iff : forall (P Q : xnode -> Prop) ls content dir, (forall n, P n <-> Q n) -> application_that P ls content dir <-> application_that Q ls content dir.
Proof. unfold application_that. intros P Q ls content dir H. split; intros (x & y & A & B & C); exists x, y; apply H in C; auto. Qed.
