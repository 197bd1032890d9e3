(** * Runs that differ only in the recorded minOccurs of NXDL groups *)

From Coq Require Import List NArith ZArith Bool String Lia Permutation.
From Verif Require Import PyBase PyFacts Regex Utf8 H5 Findings Nxdl Core Catalog ItemName AttributeCheck
  GroupChecks AppDef DefaultPlot Validate Trace CheckFacts GroupRun.
Import ListNotations.

Definition store (title name : pystr) (z : Z) (cl : classes) : classes :=
  match dget title cl with
  | Some d => match dget name (d_groups d) with
              | Some g => dset title (set_d_groups d (dset name (set_minOccurs z g) (d_groups d))) cl
              | None => cl
              end
  | None => cl
  end.
Lemma store_minOccurs_eq : forall t n z s, store_minOccurs t n z s = (set_classes s (store t n z (st_classes s)), Ok tt).
Proof. reflexivity. Qed.

Lemma strip_groups : forall d d', strip_def d = strip_def d' ->
  map (fun ng => (fst ng, strip_group (snd ng))) (d_groups d) = map (fun ng => (fst ng, strip_group (snd ng))) (d_groups d').
Proof. intros d d' H. exact (f_equal d_groups H). Qed.

Section Sim.
  Variable K : classes -> classes -> Prop.
  Hypothesis K_strip : forall a b, K a b -> strip_classes a = strip_classes b.
  Hypothesis K_store : forall t n z a b, K a b -> K (store t n z a) (store t n z b).

  Definition simS (s t : vstate) : Prop :=
    st_items s = st_items t /\ st_addr s = st_addr t /\ st_cp s = st_cp t /\ st_find s = st_find t /\ st_cache s = st_cache t
    /\ K (st_classes s) (st_classes t).
  Definition sim {A} (m m' : M A) : Prop := forall s t, simS s t -> snd (m s) = snd (m' t) /\ simS (fst (m s)) (fst (m' t)).

  Ltac un := match goal with H : simS ?s ?t |- _ => destruct H as [H1 [H2 [H3 [H4 [H5 H6]]]]] end.

  Lemma sim_ret : forall A (a : A), sim (ret a) (ret a).
  Proof. intros A a s t H. auto. Qed.
  Lemma sim_raise : forall A e, sim (@raise A e) (raise e).
  Proof. intros A a s t H. auto. Qed.
  Lemma sim_lift : forall A (r : res A), sim (lift r) (lift r).
  Proof. intros A a s t H. auto. Qed.
  Lemma sim_bind : forall A B (m m' : M A) (f f' : A -> M B), sim m m' -> (forall a, sim (f a) (f' a)) -> sim (bind m f) (bind m' f').
  Proof.
    intros A B m m' f f' Hm Hf s t H. unfold bind. destruct (Hm s t H) as [E S]. destruct (m s) as [s1 r], (m' t) as [t1 r']. simpl in *. subst r'.
    destruct r as [a|e]; [apply Hf; auto|auto].
  Qed.
  Lemma sim_bind_get : forall B (f f' : vstate -> M B), (forall s t, simS s t -> sim (f s) (f' t)) -> sim (bind get f) (bind get f').
  Proof. intros B f f' H s t Hs. unfold bind, get. apply H; auto. Qed.
  Lemma sim_item : forall i, sim (item i) (item i).
  Proof. intros i s t H. unfold item. pose proof H as H0. un. rewrite <- H1. destruct (nth_error _ _); auto. Qed.
  Lemma sim_new : forall it, sim (new_item it) (new_item it).
  Proof. intros i s t H. un. unfold new_item. simpl. rewrite <- H1. split; auto. unfold simS. simpl. auto 10. Qed.
  Lemma sim_address : forall a, sim (address_item a) (address_item a).
  Proof. intros i s t H. pose proof H as H0. un. unfold address_item. rewrite <- H2. destruct (aget _ _ _); auto. Qed.
  Lemma sim_classpath : forall k, sim (classpath_list k) (classpath_list k).
  Proof. intros i s t H. pose proof H as H0. un. unfold classpath_list. rewrite <- H3. auto. Qed.
  Lemma sim_last : forall k, sim (last_of_classpath k) (last_of_classpath k).
  Proof. intros i s t H. pose proof H as H0. un. unfold last_of_classpath. rewrite <- H3. destruct (dget _ _); auto. destruct (rev l); auto. Qed.
  Lemma sim_add_address : forall a i, sim (add_address a i) (add_address a i).
  Proof. intros a i s t H. un. unfold add_address. simpl. rewrite <- H2. split; auto. unfold simS. simpl. auto 10. Qed.
  Lemma sim_add_classpath : forall i k, sim (add_classpath i k) (add_classpath i k).
  Proof. intros i k s t H. un. unfold add_classpath. simpl. rewrite <- H3. split; auto. unfold simS. simpl. auto 10. Qed.
  Lemma sim_regexp : forall k p, sim (cached_regexp k p) (cached_regexp k p).
  Proof.
    intros k p s t H. pose proof H as H0. un. unfold cached_regexp. rewrite <- H5. destruct (dget k _); auto. destruct (re_compile p); auto.
    split; auto. unfold simS. simpl. auto 10.
  Qed.
  Lemma sim_record : forall i k st cm, sim (record_finding i k st cm) (record_finding i k st cm).
  Proof.
    intros i k st cm. unfold record_finding. apply sim_bind; [apply sim_item|]. intros it s t H. un. simpl. rewrite <- H1, <- H4.
    split; auto. unfold simS. simpl. auto 10.
  Qed.
  Lemma sim_store : forall a n z, sim (store_minOccurs a n z) (store_minOccurs a n z).
  Proof. intros a n z s t H. un. rewrite !store_minOccurs_eq. simpl. split; auto. unfold simS. simpl. repeat (split; auto). Qed.
  Lemma sim_for_each : forall A (f g : A -> M unit) l, (forall x, sim (f x) (g x)) -> sim (for_each f l) (for_each g l).
  Proof. intros A f g l H. induction l as [|x l IH]; [apply sim_ret|]. cbn [for_each]. apply sim_bind; auto. Qed.
  Lemma sim_for_each2 : forall A B (P : A -> B -> Prop) (f : A -> M unit) (g : B -> M unit) l r, (forall x y, P x y -> sim (f x) (g y)) -> Forall2 P l r ->
    sim (for_each f l) (for_each g r).
  Proof. intros A B P f g l r H F. induction F; [apply sim_ret|]. cbn [for_each]. apply sim_bind; auto. Qed.

  Ltac sim_step :=
    match goal with
    | |- sim (ret _) _ => apply sim_ret
    | |- sim (raise _) _ => apply sim_raise
    | |- sim (lift _) _ => apply sim_lift
    | |- sim (item _) _ => apply sim_item
    | |- sim (new_item _) _ => apply sim_new
    | |- sim (address_item _) _ => apply sim_address
    | |- sim (classpath_list _) _ => apply sim_classpath
    | |- sim (last_of_classpath _) _ => apply sim_last
    | |- sim (add_address _ _) _ => apply sim_add_address
    | |- sim (add_classpath _ _) _ => apply sim_add_classpath
    | |- sim (cached_regexp _ _) _ => apply sim_regexp
    | |- sim (record_finding _ _ _ _) _ => apply sim_record
    | |- sim (store_minOccurs _ _ _) _ => apply sim_store
    | H : (forall _, sim _ _) |- _ => solve [apply H]
    | |- sim (bind get _) _ => fail 1
    | |- sim (bind _ _) _ => apply sim_bind; [|intros]
    | |- sim (for_each _ _) _ => apply sim_for_each; intros
    | |- sim (match ?x with _ => _ end) (match ?x with _ => _ end) => destruct x
    | |- sim (let '(_, _) := ?x in _) _ => destruct x
    end.
  Ltac sm := repeat (sim_step; cbv beta).

  Lemma sim_register : forall it, sim (register it) (register it).
  Proof. intros. unfold register. sm. Qed.
  Lemma sim_get_subject : forall c p h, sim (get_subject c p h) (get_subject c p h).
  Proof. intros. unfold get_subject. sm; apply sim_register. Qed.
  Lemma sim_catalog : forall n c p h, sim (group_address_catalog n c p h) (group_address_catalog n c p h).
  Proof.
    induction n as [|n IH]; intros; cbn [group_address_catalog]; [sm|]. apply sim_bind; [apply sim_get_subject|intros]. sm; [apply IH|apply sim_get_subject].
  Qed.
  Lemma sim_first_match : forall c o pats, sim (first_match c o pats) (first_match c o pats).
  Proof. induction pats as [|[k p] pats IH]; cbn [first_match]; sm. apply IH. Qed.
  Lemma sim_match_key : forall c o, sim (validItemName_match_key c o) (validItemName_match_key c o).
  Proof. intros. unfold validItemName_match_key. apply sim_bind; [apply sim_first_match|intros; sm]. Qed.
  Lemma sim_match_name : forall c n, sim (match_key_name c n) (match_key_name c n).
  Proof. intros c [n|]; apply sim_match_key. Qed.
  Lemma sim_item_name : forall c i, sim (item_name_verify c i) (item_name_verify c i).
  Proof.
    intros. unfold item_name_verify, handle_NX_class, handle_any_attribute, handle_groups_and_fields.
    sm; first [apply sim_first_match | apply sim_match_name].
  Qed.
  Lemma sim_target_parts : forall c i l a, sim (target_parts c i a l) (target_parts c i a l).
  Proof. intros c i. induction l as [|p l IH]; intros a; cbn [target_parts]; sm; apply sim_match_key. Qed.

  Lemma K_get : forall a b n, K a b -> option_map strip_def (dget n a) = option_map strip_def (dget n b).
  Proof. intros. apply strip_get. auto. Qed.

  Lemma isBase_strip : forall d d', strip_def d = strip_def d' -> isBaseClassNXDL d = isBaseClassNXDL d'.
  Proof.
    intros d d' H. pose proof (strip_def_eq _ _ H) as [E1 [E2 _]]. unfold isBaseClassNXDL. rewrite E2.
    assert (G : option_map strip_group (dget (py "entry") (d_groups d)) = option_map strip_group (dget (py "entry") (d_groups d'))).
    { pose proof (strip_groups _ _ H) as HG. clear - HG. revert HG. generalize (d_groups d') as r'. generalize (d_groups d) as r.
      induction r as [|[k g] l IH]; intros [|[k' g'] l'] HG; simpl in HG; try discriminate; auto. inversion HG; subst. unfold dget in *. cbn [aget].
      destruct (str_eqb (py "entry") k'); [simpl; congruence|auto]. }
    destruct (str_eqb (d_category d') (py "base_classes")); auto. destruct (str_eqb (d_category d') (py "applications")); auto.
    destruct (str_eqb (d_category d') (py "contributed_definitions")); auto.
    destruct (dget (py "entry") (d_groups d)) as [g|], (dget (py "entry") (d_groups d')) as [g'|]; cbn [option_map] in G; try discriminate; auto.
    destruct g, g'. simpl in *. inversion G; subst. reflexivity.
  Qed.

  Lemma sim_nxclass : forall c i, sim (nxclass_handler c i) (nxclass_handler c i).
  Proof.
    intros. unfold nxclass_handler. sm. apply sim_bind_get. intros s t H. destruct a0 as [h|[]]; try apply sim_raise.
    pose proof (K_get _ _ s0 (proj2 (proj2 (proj2 (proj2 (proj2 H)))))) as G.
    destruct (dget s0 (st_classes s)) as [d|], (dget s0 (st_classes t)) as [d'|]; cbn [option_map] in G; try discriminate; [|sm].
    rewrite (isBase_strip d d') by congruence. sm.
  Qed.
  Lemma sim_attribute : forall c i, sim (attribute_verify c i) (attribute_verify c i).
  Proof.
    intros. unfold attribute_verify, signal_handler, target_handler, axes_handler, generic_handler, parent_item, axis_check.
    sm; first [apply sim_nxclass | apply sim_target_parts | apply sim_match_key].
  Qed.
  Lemma sim_check_item : forall c i, sim (check_item c i) (check_item c i).
  Proof. intros. unfold check_item. apply sim_bind; [apply sim_item_name|intros; apply sim_attribute]. Qed.

  Lemma sim_group_attribute : forall c i d d' kv, strip_def d = strip_def d' -> sim (group_attribute c i d kv) (group_attribute c i d' kv).
  Proof.
    intros c i d d' kv H. pose proof (strip_def_eq _ _ H) as [E1 [E2 [E3 _]]]. unfold group_attribute, child_exists. rewrite E1, E3. sm.
  Qed.

  Lemma strip_dmem : forall d d' n, strip_def d = strip_def d' -> dmem n (d_groups d) = dmem n (d_groups d').
  Proof.
    intros d d' n H. pose proof (strip_def_eq _ _ H) as [_ [_ [_ [_ [_ E]]]]].
    destruct (dmem n (d_groups d)) eqn:A, (dmem n (d_groups d')) eqn:B; auto; exfalso.
    - apply dmem_In in A. rewrite E in A. apply dmem_In in A. congruence.
    - apply dmem_In in B. rewrite <- E in B. apply dmem_In in B. congruence.
  Qed.
  Lemma sim_group_child : forall c h d d' n, strip_def d = strip_def d' -> sim (group_child c h d n) (group_child c h d' n).
  Proof.
    intros c h d d' n H. pose proof (strip_def_eq _ _ H) as [E1 [E2 [E3 [E4 _]]]]. unfold group_child. rewrite E1, E4, (strip_dmem _ _ _ H). sm.
  Qed.

  Definition same_group (x y : pystr * nxgroup) : Prop := fst x = fst y /\ g_attrs (snd x) = g_attrs (snd y).
  Lemma sim_base_group : forall c i it cls x y, same_group x y -> sim (base_group c i it cls x) (base_group c i it cls y).
  Proof. intros c i it cls [n g] [n' g'] [E1 E2]. simpl in *. subst n'. unfold base_group, minOccurs_of. simpl. rewrite E2. sm. Qed.

  Lemma insert_same : forall x y l r, same_group x y -> Forall2 same_group l r ->
    Forall2 same_group (sinsert (fun x y => str_leb (fst x) (fst y)) x l) (sinsert (fun x y => str_leb (fst x) (fst y)) y r).
  Proof.
    intros x y l r H F. induction F as [|a b l r Hab F IH]; cbn [sinsert]; [constructor; auto|]. rewrite (proj1 H), (proj1 Hab).
    destruct (str_leb _ _); constructor; auto.
  Qed.
  Lemma sorted_same : forall l r, Forall2 same_group l r -> Forall2 same_group (sorted_items l) (sorted_items r).
  Proof. unfold sorted_items, sorted_by. induction 1; cbn [ssort]; [constructor|]. apply insert_same; auto. Qed.
  Lemma strip_same : forall d d', strip_def d = strip_def d' -> Forall2 same_group (d_groups d) (d_groups d').
  Proof.
    intros d d' H. pose proof (strip_groups _ _ H) as HG. clear - HG. revert HG. generalize (d_groups d') as r'. generalize (d_groups d) as r.
    induction r as [|[k [n1 a1 f1 g1 l1 m1]] l IH]; intros [|[k' [n2 a2 f2 g2 l2 m2]] l'] HG; simpl in HG; try discriminate; constructor.
    - split; simpl; inversion HG; auto.
    - apply IH. inversion HG. auto.
  Qed.

  Lemma sim_base_items : forall c i cls d d', strip_def d = strip_def d' -> sim (base_class_items_verify c i cls d) (base_class_items_verify c i cls d').
  Proof.
    intros c i cls d d' H. pose proof (strip_def_eq _ _ H) as [_ [_ [_ [E4 _]]]]. unfold base_class_items_verify. apply sim_bind; [apply sim_item|intros it].
    apply sim_bind; [rewrite E4; apply sim_for_each; intros; unfold base_field; sm|intros _].
    eapply sim_for_each2; [|apply sorted_same; apply strip_same; exact H]. intros. apply sim_base_group. auto.
  Qed.

  Lemma used_strip : forall a b n, K a b -> usedAsBaseClass a n = usedAsBaseClass b n.
  Proof.
    intros a b n H. unfold usedAsBaseClass. pose proof (K_get _ _ n H) as G. destruct (dget n a) as [d|], (dget n b) as [d'|]; cbn [option_map] in G; try discriminate; auto.
    assert (S : strip_def d = strip_def d') by congruence. pose proof (strip_def_eq _ _ S) as [_ [E2 [_ [E4 [E5 E6]]]]].
    rewrite E2, E4, E5. apply (f_equal (@List.length _)) in E6. rewrite !map_length in E6. rewrite E6. reflexivity.
  Qed.

  Lemma sim_nx_attr : forall i n, sim (validate_NX_class_attribute i n) (validate_NX_class_attribute i n).
  Proof.
    intros i n. unfold validate_NX_class_attribute. apply sim_bind_get. intros s t H.
    pose proof (proj2 (proj2 (proj2 (proj2 (proj2 H))))) as HK. pose proof (K_get _ _ n HK) as G.
    assert (ED : dmem n (st_classes s) = dmem n (st_classes t)).
    { unfold dmem, amem. fold (dget n (st_classes s)). fold (dget n (st_classes t)). destruct (dget n (st_classes s)), (dget n (st_classes t)); cbn [option_map] in G; try discriminate; auto. }
    rewrite ED, (used_strip _ _ n HK). apply sim_bind; [apply sim_record|intros _].
    destruct (dmem n (st_classes t)); [|apply sim_ret]. apply sim_bind; [apply sim_lift|intros b]. unfold dgetitem.
    destruct (dget n (st_classes s)) as [d|], (dget n (st_classes t)) as [d'|]; cbn [option_map] in G; try discriminate.
    - assert (S : strip_def d = strip_def d') by congruence. pose proof (strip_def_eq _ _ S) as [_ [E2 _]].
      intros x y Hxy. unfold bind, lift. rewrite E2. apply sim_record. exact Hxy.
    - intros x y Hxy. unfold bind, lift. simpl. auto.
  Qed.

  Lemma sim_validate_group : forall c i, sim (validate_group c i) (validate_group c i).
  Proof.
    intros c i. unfold validate_group. apply sim_bind; [apply sim_item|intros it]. destruct (str_eqb (it_cp it) NON_NEXUS); [apply sim_record|].
    apply sim_bind; [apply sim_lift|intros n]. apply sim_bind; [apply sim_nx_attr|intros _]. apply sim_bind_get. intros s t H.
    pose proof (proj2 (proj2 (proj2 (proj2 (proj2 H))))) as HK. pose proof (K_get _ _ n HK) as G.
    destruct (dget n (st_classes s)) as [d|], (dget n (st_classes t)) as [d'|]; cbn [option_map] in G; try discriminate; [|apply sim_record].
    assert (S : strip_def d = strip_def d') by congruence.
    apply sim_bind; [unfold verify_group_attributes; sm; eapply sim_group_attribute; eauto|intros _].
    apply sim_bind; [unfold verify_group_children; sm; eapply sim_group_child; eauto|intros _].
    apply sim_bind; [apply sim_base_items; auto|intros _]. apply sim_record.
  Qed.
  Lemma sim_check_group : forall c i, sim (check_group c i) (check_group c i).
  Proof. intros. unfold check_group. sm. apply sim_validate_group. Qed.

  Lemma sim_ad_field : forall c i it n fs, sim (ad_field c i it n fs) (ad_field c i it n fs).
  Proof. intros. unfold ad_field. cbv zeta. sm. Qed.
  Lemma sim_app : forall c i, sim (application_definition_verify c i) (application_definition_verify c i).
  Proof.
    intros c i. unfold application_definition_verify. apply sim_bind; [apply sim_item|intros it]. apply sim_bind; [apply sim_lift|intros n]. apply sim_bind_get. intros s t H.
    pose proof (proj2 (proj2 (proj2 (proj2 (proj2 H))))) as HK. pose proof (K_get _ _ n HK) as G. cbv zeta.
    destruct (dget n (st_classes s)) as [d|], (dget n (st_classes t)) as [d'|]; cbn [option_map] in G; try discriminate; cbn [is_some].
    - assert (S : strip_def d = strip_def d') by congruence. pose proof (strip_def_eq _ _ S) as [_ [E2 _]]. rewrite E2.
      apply sim_bind; [apply sim_record|intros _]. apply sim_bind; [sm|intros _]. apply sim_bind; [apply sim_record|intros _].
      pose proof (strip_groups _ _ S) as HG.
      destruct (d_groups d) as [|[k g] l], (d_groups d') as [|[k' g'] l']; simpl in HG; try discriminate; [apply sim_raise|].
      destruct g, g'. inversion HG; subst. simpl. apply sim_for_each. intros. apply sim_ad_field.
    - apply sim_bind; [apply sim_record|intros _]. apply sim_ret.
  Qed.
  Lemma sim_check_definition : forall c i, sim (check_definition c i) (check_definition c i).
  Proof. intros. unfold check_definition. sm. apply sim_app. Qed.

  Lemma sim_v3_item : forall c i, sim (v3_item c i) (v3_item c i).
  Proof. intros. unfold v3_item. cbv zeta. sm. Qed.
  Lemma sim_v3_loop : forall c l a n, sim (v3_loop c a n l) (v3_loop c a n l).
  Proof.
    intros c. induction l as [|i l IH]; intros a n; cbn [v3_loop]; [sm|]. apply sim_bind; [apply sim_v3_item|]. intros r. sm; apply IH.
  Qed.
  Lemma sim_v2_collect : forall c l r, sim (v2_collect c r l) (v2_collect c r l).
  Proof.
    intros c. induction l as [|i l IH]; intros r; cbn [v2_collect]; [sm|]. apply sim_bind; [unfold v2_item, parent_item; cbv zeta; sm|]. intros. apply IH.
  Qed.
  Lemma sim_v2_decide : forall l a, sim (v2_decide a l) (v2_decide a l).
  Proof.
    induction l as [|[g [|i [|j x]]] l IH]; intros a; cbn [v2_decide]; unfold parent_item; sm; apply IH.
  Qed.
  Lemma sim_v2 : forall c, sim (default_plot_v2 c) (default_plot_v2 c).
  Proof.
    intros c. unfold default_plot_v2. apply sim_bind_get. intros s t H. destruct H as [H1 [H2 [H3 _]]]. rewrite H3.
    apply sim_bind; [apply sim_v2_collect|intros; apply sim_v2_decide].
  Qed.
  Lemma sim_methods : forall c, sim (try_methods [(py "v3", default_plot_v3 c); (py "v2", default_plot_v2 c); (py "v1", default_plot_v1 c)])
     (try_methods [(py "v3", default_plot_v3 c); (py "v2", default_plot_v2 c); (py "v1", default_plot_v1 c)]).
  Proof.
    intros c. cbn [try_methods]. apply sim_bind; [unfold default_plot_v3; sm; apply sim_v3_loop|intros a]. destruct a; [sm|].
    apply sim_bind; [apply sim_v2|intros a]. destruct a; [sm|]. unfold default_plot_v1. sm.
  Qed.
End Sim.
