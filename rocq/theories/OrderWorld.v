(** * What h5py answers does not depend on the order of members and attributes *)

From Coq Require Import List NArith ZArith Bool String Lia Permutation.
From Verif Require Import PyBase PyFacts Regex Utf8 H5 Findings Nxdl Core Catalog ItemName AttributeCheck
  GroupChecks AppDef DefaultPlot Validate Spec_Run Spec_Catalog PathFacts Spec_Order.
Import ListNotations.

Lemma dget_perm : forall V (l m : dict V), Permutation l m -> NoDup (map fst l) -> forall k, dget k l = dget k m.
Proof.
  intros V l m H. induction H as [|[x v] l m H IH|[x v] [y t] l|l m n H1 IH1 H2 IH2]; intros ND k; auto.
  - cbn [map] in ND. inversion ND; subst. unfold dget in *. cbn [aget]. destruct (str_eqb k x); auto.
  - cbn [map fst] in ND. inversion ND as [|? ? A B]; subst. unfold dget. cbn [aget]. destruct (str_eqb k y) eqn:E1, (str_eqb k x) eqn:E2; auto.
    apply str_eqb_eq in E1. apply str_eqb_eq in E2. subst. exfalso. apply A. left. reflexivity.
  - rewrite IH1 by auto. apply IH2. eapply Permutation_NoDup; [|exact ND]. apply Permutation_map. auto.
Qed.

Lemma dmem_perm : forall V (l m : dict V), Permutation l m -> NoDup (map fst l) -> forall k, dmem k l = dmem k m.
Proof.
  intros V l m H ND k. assert (X : forall d : dict V, dmem k d = match dget k d with Some _ => true | None => false end).
  { intros d. unfold dmem, amem, dget. destruct (aget str_eqb k d); reflexivity. }
  rewrite !X, (dget_perm _ _ _ H ND). reflexivity.
Qed.

Lemma reordered_nth : forall f f', reordered f f' -> forall o,
  match nth_error f o, nth_error f' o with Some a, Some b => reordered_object a b | None, None => True | _, _ => False end.
Proof.
  intros f f' H. induction H as [|a b f f' Hab H IH]; intros [|o]; simpl; auto. apply IH.
Qed.

Lemma reordered_length : forall f f', reordered f f' -> List.length f = List.length f'.
Proof. intros f f' H. induction H; simpl; auto. Qed.

Lemma reordered_sym : forall f f', reordered f f' -> reordered f' f.
Proof.
  intros f f' H. induction H as [|a b f f' [H1 H2] H IH]; constructor; auto. split; [apply Permutation_sym; auto|].
  destruct (ob_kind a), (ob_kind b); auto; try apply Permutation_sym; auto.
Qed.

Lemma reordered_members : forall f f', reordered f f' -> forall o, Permutation (members f o) (members f' o).
Proof.
  intros f f' H o. pose proof (reordered_nth _ _ H o) as X. unfold members. destruct (nth_error f o) as [a|], (nth_error f' o) as [b|]; try tauto; [|constructor].
  destruct X as [_ X]. destruct (ob_kind a), (ob_kind b); try tauto; constructor.
Qed.

Lemma reordered_attributes : forall f f', reordered f f' -> forall o, Permutation (attributes f o) (attributes f' o).
Proof.
  intros f f' H o. pose proof (reordered_nth _ _ H o) as X. unfold attributes. destruct (nth_error f o) as [a|], (nth_error f' o) as [b|]; try tauto; [|constructor].
  exact (proj1 X).
Qed.

Lemma reordered_plain : forall f f', reordered f f' -> plain_file f -> plain_file f'.
Proof. intros f f' H P o n l Hin. apply (P o). eapply Permutation_in; [apply Permutation_sym; apply reordered_members; exact H|exact Hin]. Qed.
Lemma reordered_at : forall f f', reordered f f' -> no_at_names f -> no_at_names f'.
Proof. intros f f' H P o n l Hin. apply (P o n l). eapply Permutation_in; [apply Permutation_sym; apply reordered_members; exact H|exact Hin]. Qed.
Lemma reordered_distinct : forall f f', reordered f f' -> distinct_names f -> distinct_names f'.
Proof.
  intros f f' H P o. destruct (P o) as [A B]. split; [eapply Permutation_NoDup; [|exact A]|eapply Permutation_NoDup; [|exact B]]; apply Permutation_map; [apply reordered_members|apply reordered_attributes]; auto.
Qed.

Lemma reordered_group : forall f f', reordered f f' -> forall o, is_group f o -> is_group f' o.
Proof.
  intros f f' H o [ob [l [A B]]]. pose proof (reordered_nth _ _ H o) as X. rewrite A in X. destruct (nth_error f' o) as [b|] eqn:E; [|tauto].
  destruct X as [_ X]. rewrite B in X. destruct (ob_kind b) eqn:Eb; try tauto. exists b. eauto.
Qed.

Lemma reordered_leads : forall f f', reordered f f' -> distinct_names f -> forall a p b, leads f a p b -> leads f' a p b.
Proof.
  intros f f' H D a p b L. induction L as [a|a n p o b G Lt L IH|a n p t o b G L1 IH1 L2 IH2].
  - constructor.
  - eapply le_hard; [|rewrite <- (reordered_length _ _ H); exact Lt|exact IH]. rewrite <- (dget_perm _ _ _ (reordered_members _ _ H a)); auto. apply D.
  - eapply le_soft; [|exact IH1|exact IH2]. rewrite <- (dget_perm _ _ _ (reordered_members _ _ H a)); auto. apply D.
Qed.

Lemma nexus_class_perm : forall E l m s, Permutation l m -> NoDup (map fst l) -> nexus_class E l s -> nexus_class E m s.
Proof. intros E l m s H ND [v [t [A B]]]. exists v, t. rewrite <- (dget_perm _ _ _ H ND). auto. Qed.

Lemma nexus_class_perm_iff : forall E l m, Permutation l m -> NoDup (map fst l) -> forall s, nexus_class E l s <-> nexus_class E m s.
Proof.
  intros E l m H ND s. split; [apply nexus_class_perm; auto|]. apply nexus_class_perm; [apply Permutation_sym; auto|].
  eapply Permutation_NoDup; [|exact ND]. apply Permutation_map. auto.
Qed.

Lemma child_class_perm : forall E (g g' : Prop) l m n pcp cp, Permutation l m -> NoDup (map fst l) -> (g <-> g') -> child_class E g l n pcp cp -> child_class E g' m n pcp cp.
Proof.
  intros E g g' l m n pcp cp H ND Hg X. pose proof (nexus_class_perm_iff E _ _ H ND) as I. destruct X as [A|cls A B C D|A B C D|A B C|A B].
  - apply cc_inherit. auto.
  - apply cc_group; auto; [tauto|]. apply I. auto.
  - apply cc_other; auto; [tauto|]. intros cls X. apply (D cls). apply I. auto.
  - apply cc_field; auto. tauto.
  - apply cc_slash; auto.
Qed.

Lemma reordered_class : forall f f', reordered f f' -> distinct_names f -> forall E p cp, class_path E f p cp -> class_path E f' p cp.
Proof.
  intros f f' H D E p cp C. induction C as [|p pcp n o cp C IH L CC]; [constructor|]. eapply cp_member; [exact IH|eapply reordered_leads; eauto|].
  eapply child_class_perm; [apply reordered_attributes; exact H|apply D| |exact CC]. split; [apply reordered_group; auto|].
  apply reordered_group. apply reordered_sym. auto.
Qed.

Section World.
  Variables (w w' : world) (file : pystr) (f f' : h5file).
  Hypothesis Hf : dget file w = Some (FHdf5 f).
  Hypothesis Hf' : dget file w' = Some (FHdf5 f').
  Hypothesis Hr : reordered f f'.
  Hypothesis Hplain : plain_file f.
  Hypothesis Hd : distinct_names f.

  Lemma obj_same : forall h, h_file h = file ->
    match obj_of w h, obj_of w' h with Some a, Some b => reordered_object a b | None, None => True | _, _ => False end.
  Proof. intros h E. unfold obj_of, get_obj. rewrite E, Hf, Hf'. apply reordered_nth. auto. Qed.
  Lemma get_obj_same : forall o, match get_obj w file o, get_obj w' file o with Some a, Some b => reordered_object a b | None, None => True | _, _ => False end.
  Proof. intros o. unfold get_obj. rewrite Hf, Hf'. apply reordered_nth. auto. Qed.
  Lemma links_perm : forall h, h_file h = file -> Permutation (links_of w h) (links_of w' h).
  Proof. intros h E. rewrite (links_members w file f Hf h E), (links_members w' file f' Hf' h E). apply reordered_members. auto. Qed.
  Lemma attrs_perm : forall h, h_file h = file -> Permutation (attrs_of w h) (attrs_of w' h).
  Proof. intros h E. rewrite (attrs_attributes w file f Hf h E), (attrs_attributes w' file f' Hf' h E). apply reordered_attributes. auto. Qed.
  Lemma links_nodup : forall h, h_file h = file -> NoDup (map fst (links_of w h)).
  Proof. intros h E. rewrite (links_members w file f Hf h E). apply Hd. Qed.
  Lemma attrs_nodup : forall h, h_file h = file -> NoDup (map fst (attrs_of w h)).
  Proof. intros h E. rewrite (attrs_attributes w file f Hf h E). apply Hd. Qed.
  Lemma link_same : forall h n, h_file h = file -> dget n (links_of w h) = dget n (links_of w' h).
  Proof. intros h n E. apply dget_perm; [apply links_perm|apply links_nodup]; auto. Qed.
  Lemma link_mem_same : forall h n, h_file h = file -> dmem n (links_of w h) = dmem n (links_of w' h).
  Proof. intros h n E. apply dmem_perm; [apply links_perm|apply links_nodup]; auto. Qed.
  Lemma attr_same : forall h n, h_file h = file -> dget n (attrs_of w h) = dget n (attrs_of w' h).
  Proof. intros h n E. apply dget_perm; [apply attrs_perm|apply attrs_nodup]; auto. Qed.
  Lemma isgroup_same : forall h, h_file h = file -> is_group_obj w h = is_group_obj w' h.
  Proof.
    intros h E. unfold is_group_obj. pose proof (obj_same h E) as X. destruct (obj_of w h) as [a|], (obj_of w' h) as [b|]; try tauto.
    destruct X as [_ X]. destruct (ob_kind a), (ob_kind b); tauto.
  Qed.
  Lemma group_same : forall h, h_file h = file -> isHdf5Group w h = isHdf5Group w' h.
  Proof. intros h E. unfold isHdf5Group. rewrite isgroup_same; auto. Qed.
  Lemma dataset_same : forall h, h_file h = file -> isHdf5Dataset w h = isHdf5Dataset w' h.
  Proof.
    intros h E. unfold isHdf5Dataset. pose proof (obj_same h E) as X. destruct (obj_of w h) as [a|], (obj_of w' h) as [b|]; try tauto.
    destruct X as [_ X]. destruct (ob_kind a), (ob_kind b); tauto.
  Qed.
  Lemma read_same : forall h, h_file h = file -> read_data w h = read_data w' h.
  Proof.
    intros h E. unfold read_data. pose proof (obj_same h E) as X. destruct (obj_of w h) as [a|], (obj_of w' h) as [b|]; try tauto.
    destruct X as [_ X]. destruct (ob_kind a), (ob_kind b); try tauto. congruence.
  Qed.

  Lemma no_ext : forall h n g p, h_file h = file -> dget n (links_of w h) <> Some (LExt g p).
  Proof. intros h n g p E X. rewrite (links_members w file f Hf h E) in X. apply dget_In in X. destruct (Hplain _ _ _ X) as [_ Y]. apply (Y g p). reflexivity. Qed.

  Lemma resolve_same : forall nl comps cur, h_file cur = file -> resolve nl w cur comps = resolve nl w' cur comps.
  Proof.
    induction nl as [|nl IHn]; intros comps; induction comps as [|x comps IH]; intros cur E; auto.
    - cbn [resolve]. rewrite <- (link_same cur x E). destruct (dget x (links_of w cur)) as [[o|p|g p]|] eqn:G; auto.
      + pose proof (get_obj_same o) as X. rewrite E. destruct (get_obj w file o), (get_obj w' file o); try tauto. apply (IH (mkH file o (child_path (h_name cur) x) false)). reflexivity.
    - cbn [resolve]. rewrite <- (link_same cur x E). destruct (dget x (links_of w cur)) as [[o|p|g p]|] eqn:G; auto.
      + pose proof (get_obj_same o) as X. rewrite E. destruct (get_obj w file o), (get_obj w' file o); try tauto. apply (IH (mkH file o (child_path (h_name cur) x) false)). reflexivity.
      + assert (E2 : h_file (if is_abs p then root_handle (h_file cur) else cur) = file) by (destruct (is_abs p); auto).
        rewrite <- (IHn (path_comps p) _ E2). destruct (resolve nl w _ (path_comps p)) as [t|e] eqn:Et; auto.
        apply (resolve_leads w file f Hf Hplain) in Et as [Ft _]; [|exact E2]. apply (IH (mkH (h_file t) (h_oid t) (child_path (h_name cur) x) false)). exact Ft.
      + exfalso. exact (no_ext _ _ _ _ E G).
  Qed.

  Lemma getitem_same : forall h n, h_file h = file -> getitem w h n = getitem w' h n.
  Proof. intros h n E. unfold getitem. destruct n; auto. apply resolve_same. destruct (is_abs _); auto. Qed.
  Lemma getopt_same : forall h n, h_file h = file -> getopt w h n = getopt w' h n.
  Proof. intros h n E. unfold getopt. rewrite getitem_same; auto. Qed.
  Lemma getitem_file : forall h n t, h_file h = file -> getitem w h n = Ok t -> h_file t = file.
  Proof.
    intros h n t E H. unfold getitem in H. destruct n; [discriminate|]. apply (resolve_leads w file f Hf Hplain) in H; [tauto|]. destruct (is_abs _); auto.
  Qed.
  Lemma getopt_file : forall h n t, h_file h = file -> getopt w h n = Ok (Some t) -> h_file t = file.
  Proof. intros h n t E H. unfold getopt in H. destruct (getitem w h n) as [t'|e] eqn:G; [|destruct e; discriminate]. injection H as ->. eapply getitem_file; eauto. Qed.

  Lemma path_valid_same : forall comps cur, h_file cur = file -> path_valid w cur comps = path_valid w' cur comps.
  Proof.
    induction comps as [|x comps IH]; intros cur E; auto. cbn [path_valid]. rewrite <- (link_mem_same cur x E). destruct comps as [|y comps]; auto.
    destruct (dmem x (links_of w cur)); auto. rewrite <- (resolve_same max_nlinks [x] cur E). destruct (resolve max_nlinks w cur [x]) as [t|e] eqn:Et; auto.
    apply (resolve_leads w file f Hf Hplain) in Et as [Ft _]; auto. rewrite <- (isgroup_same t Ft). destruct (is_group_obj w t); auto.
  Qed.
  Lemma contains_same : forall h n, h_file h = file -> contains w h n = contains w' h n.
  Proof. intros h n E. unfold contains. destruct n; auto. apply path_valid_same. destruct (is_abs _); auto. Qed.
  Lemma py_in_same : forall h x, h_file h = file -> py_in w h x = py_in w' h x.
  Proof.
    intros h x E. unfold py_in. pose proof (obj_same h E) as X. destruct (obj_of w h) as [a|], (obj_of w' h) as [b|]; try tauto.
    destruct X as [_ X]. destruct (ob_kind a), (ob_kind b); try tauto.
    - destruct x; auto. rewrite contains_same; auto.
    - subst. reflexivity.
  Qed.
  Lemma islink_same : forall h, h_file h = file -> isHdf5Link w h = isHdf5Link w' h.
  Proof.
    intros h E. unfold isHdf5Link. rewrite <- (resolve_same max_nlinks (dirname_comps (h_name h)) (root_handle (h_file h))) by auto.
    destruct (resolve max_nlinks w _ _) as [t|e] eqn:Et; auto. cbn [rbind]. apply (resolve_leads w file f Hf Hplain) in Et as [Ft _]; auto. rewrite (link_same _ _ Ft). reflexivity.
  Qed.
End World.
