(** * When cataloguing completes *)

From Coq Require Import List NArith ZArith Bool String Lia Permutation.
From Verif Require Import PyBase PyFacts Regex Utf8 H5 Findings Nxdl Core Catalog ItemName AttributeCheck
  GroupChecks AppDef DefaultPlot Validate Trace CheckFacts CatalogFacts Spec_Run Spec_Catalog PathFacts CatalogRun.
Import ListNotations.

Lemma chain_snoc : forall w k g n h h', chain w k g h -> member w h n h' -> chain w (S k) g h'.
Proof. induction 1; intros; econstructor; eauto. constructor. Qed.

Lemma chain_below : forall w k g h, chain w k g h -> below w g h.
Proof. induction 1 as [|k g n h h' [M1 M2] H IH]; [apply below_refl | eapply below_child; eauto]. Qed.

Lemma below_chain : forall w g h, below w g h -> exists k, chain w k g h.
Proof.
  induction 1 as [h|g n h1 h2 H1 H2 H3 [k IH]]; [exists 0; constructor|]. exists (S k). eapply ch_cons with (n := n); eauto. split; auto.
Qed.

Lemma attrs_loop_ok : forall i it l s, exists s', for_each (fun ka => let* _i := register (attr_item i it (snd ka) (Some (fst ka))) in ret tt) l s = (s', Ok tt).
Proof.
  induction l as [|[k v] l IH]; intros s; [eexists; reflexivity|].
  cbn [for_each fst snd]. unfold bind at 1. unfold bind at 1. rewrite register_state. cbn [ret]. apply IH.
Qed.

Lemma get_subject_ok : forall c parent h s, parent_ok c s parent h ->
  (forall op, option_map fst op = parent -> exists it, node_item (c_env c) (c_world c) op h = Ok it) ->
  exists s' i, get_subject c parent h s = (s', Ok i).
Proof.
  intros c parent h s HP HN. unfold get_subject.
  assert (Hm : exists op, (match parent with None => ret None | Some pi => let* pit := item pi in ret (Some (pi, pit)) end) s = (s, Ok op) /\ option_map fst op = parent).
  { destruct parent as [p|]; simpl in HP.
    - destruct HP as [pit [hp [name [Hc _]]]]. apply carrier_nth in Hc. exists (Some (p, pit)). split; auto. unfold bind, item. rewrite Hc. reflexivity.
    - exists None. auto. }
  destruct Hm as [op [Hm Hop]]. unfold bind at 1. rewrite Hm. destruct (HN op Hop) as [it Hit].
  unfold bind at 1. unfold lift. rewrite Hit. unfold bind at 1. rewrite register_state. unfold bind at 1.
  match goal with |- context [for_each ?F ?L ?S] => destruct (attrs_loop_ok (List.length (st_items s)) it L S) as [s' Hs] end.
  rewrite Hs. eexists; eexists; reflexivity.
Qed.

Section Term.
  Variable c : ctx.
  Variable file : pystr.
  Let w := c_world c.
  Hypothesis Hroot : c_root c = open_root file.
  Hypothesis Hopen : all_open w file.
  Hypothesis Hdesc : described (c_env c) w file.

  Lemma link_ok : forall h, reachable w file h -> exists b, isNeXusLink (c_env c) w h = Ok b.
  Proof.
    intros h Hr. unfold isNeXusLink. destruct (dget (py "target") (attrs_of w h)) as [v|] eqn:E; [|cbn [rbind]; eauto].
    apply dget_In in E. destruct (Hdesc _ _ _ Hr E (or_intror eq_refl)) as [[s Hs]|[l Hl]]; [rewrite Hs|rewrite Hl]; cbn [rbind]; eauto.
  Qed.

  Lemma identify_ok : forall h, reachable w file h -> identify_object_type (c_env c) w (ONode h) = Ok tt.
  Proof.
    intros h Hr. unfold identify_object_type. destruct (obj_of w h) as [ob|]; auto.
    destruct (link_ok _ Hr) as [b Hb]. destruct (ob_kind ob); auto; rewrite Hb; reflexivity.
  Qed.

  Lemma node_ok : forall op h, reachable w file h -> (op = None -> h = open_root file) -> exists it, node_item (c_env c) w op h = Ok it.
  Proof.
    intros op h Hr Hn. unfold node_item.
    assert (D : exists x, determine_NeXus_classpath (c_env c) w (option_map (fun p : nat * vitem => it_cp (snd p)) op) h
                 (if str_eqb (h_name h) slash then slash else last_part ch_slash (h_name h)) = Ok x).
    { unfold determine_NeXus_classpath. destruct (str_eqb (if str_eqb (h_name h) slash then slash else last_part ch_slash (h_name h)) slash) eqn:E; eauto.
      destruct op as [[p pit]|].
      - cbn [option_map snd]. destruct (str_eqb (it_cp pit) NON_NEXUS); eauto. destruct (endswith (it_cp pit) slash); eauto.
        destruct (isHdf5Group w h); eauto. destruct (dget (py "NX_class") (attrs_of w h)) as [v|] eqn:Ev; [|cbn [rbind]; eauto].
        apply dget_In in Ev. destruct (Hdesc _ _ _ Hr Ev (or_introl eq_refl)) as [[s Hs]|[l Hl]]; [rewrite Hs|rewrite Hl]; cbn [rbind]; eauto.
        destruct (startswith s (py "NX")); eauto.
      - rewrite (Hn eq_refl) in E. discriminate. }
    destruct D as [x ->]. cbn [rbind]. rewrite (identify_ok _ Hr). cbn [rbind]. eauto.
  Qed.

  Lemma catalog_completes : forall limit, shallow w file limit -> forall n k parent group s,
    cinv c s -> parent_ok c s parent group -> chain w k (open_root file) group ->
    (group = c_root c \/ isHdf5Group w group = true) -> (parent = None -> group = open_root file) -> limit <= k + n -> (group = c_root c -> k = 0 \/ h_isfile group = false) ->
    k < limit -> exists s', group_address_catalog n c parent group s = (s', Ok tt).
  Proof.
    intros limit Hs. induction n as [|n IH]; intros k parent group s HI HP Hch Hg Hpn Hk Hx Hlt; [lia|].
    rewrite catalog_unfold.
    assert (Hr : reachable w file group) by (exists k; auto).
    destruct (get_subject_ok c parent group s HP) as [s1 [i E1]].
    { intros op Hop. apply node_ok; auto. intros ->. simpl in Hop. auto. }
    unfold bind at 1. rewrite E1. destruct (get_subject_spec _ _ _ _ _ _ HI HP E1) as [HI1 [HG1 Hsub]].
    destruct (Hsub i eq_refl) as [it [Hi [Hobj [_ [_ [Hattrs [p [pit [Hlast Hcar]]]]]]]]].
    unfold bind at 1. unfold item at 1. rewrite Hi. unfold bind at 1. rewrite Hlast.
    assert (L : forall l s1, cinv c s1 -> carrier (st_items s1) p pit group ->
       (forall name, In name l -> In name (dkeys (links_of (c_world c) group))) ->
       exists s', for_each (step_member n c group p) l s1 = (s', Ok tt)).
    { clear s s1 i it E1 HI HP HI1 HG1 Hsub Hi Hobj Hattrs Hlast Hcar.
      induction l as [|name l IHl]; intros s1 HI1 Hcar Hl; [eexists; reflexivity|].
      cbn [for_each]. unfold bind at 1.
      assert (S : exists s2, step_member n c group p name s1 = (s2, Ok tt)).
      { unfold step_member. unfold bind at 1. unfold lift. destruct (Hopen group name Hr (Hl _ (or_introl eq_refl))) as [h1 Eg]. fold w. rewrite Eg.
        assert (HP1 : parent_ok c s1 (Some p) h1).
        { exists pit, group, name. split; auto. split; auto. split; auto. apply Hl. left. auto. }
        assert (Hc1 : chain w (S k) (open_root file) h1). { eapply chain_snoc; eauto. split; eauto. apply Hl. left. auto. }
        destruct (isHdf5Group w h1) eqn:Eh.
        - apply (IH (S k)); auto; [discriminate|lia| |].
          + intros _. right. eapply getitem_notfile; eauto.
          + eapply (proj2 Hs); eauto.
        - destruct (get_subject_ok c (Some p) h1 s1 HP1) as [s3 [i3 E3]].
          { intros op Hop. apply node_ok; [exists (S k); auto|]. intros ->. discriminate. }
          unfold bind at 1. rewrite E3. eexists; reflexivity. }
      destruct S as [s2 S]. rewrite S.
      assert (HH : cinv c s2 /\ grows s1 s2).
      { assert (For1 : for_each (step_member n c group p) [name] s1 = (s2, Ok tt)).
        { cbn [for_each]. unfold bind at 1. rewrite S. reflexivity. }
        unfold step_member in S. apply bind_ok in S as [h1 [sd [He S]]]. apply lift_ok in He as [-> He].
        assert (HP1 : parent_ok c s1 (Some p) h1).
        { exists pit, group, name. split; auto. split; auto. split; auto. apply Hl. left. auto. }
        fold w in S. destruct (isHdf5Group w h1) eqn:Eh.
        - destruct (catalog_spec _ _ _ _ _ _ _ HI1 HP1 (or_intror Eh) S) as [Q1 [Q2 _]]. auto.
        - apply bind_ok in S as [i3 [s3 [E3 S]]]. apply ret_ok in S as [-> _]. destruct (get_subject_spec _ _ _ _ _ _ HI1 HP1 E3) as [Q1 [Q2 _]]. auto. }
      destruct HH as [HI2 HG2]. apply IHl; auto. eapply carrier_grows; eauto. intros x Hx'. apply Hl. right. auto. }
    apply L; auto.
  Qed.

  Lemma build_completes : forall cl, shallow w file (c_reclimit c) -> exists s', build_address_catalog c (fresh_state cl) = (s', Ok tt).
  Proof.
    intros cl Hs. unfold build_address_catalog.
    apply (catalog_completes (c_reclimit c) Hs _ 0 None (c_root c)); auto; try (apply Hs).
    - apply fresh_cinv.
    - simpl. auto.
    - rewrite Hroot. constructor.
  Qed.
End Term.

(** ** and when it does not *)
Lemma catalog_depth : forall n c parent group s s', group_address_catalog n c parent group s = (s', Ok tt) ->
  forall k h, chain (c_world c) k group h -> isHdf5Group (c_world c) h = true \/ k = 0 -> k < n.
Proof.
  induction n as [|n IH]; intros c parent group s s' H k h Hc Hg; [inversion H|].
  rewrite catalog_unfold in H.
  apply bind_ok in H as [i [s1 [_ H]]]. apply bind_ok in H as [it [s2 [_ H]]]. apply bind_ok in H as [p [s3 [_ H]]].
  assert (L : forall l s s', for_each (step_member n c group p) l s = (s', Ok tt) -> forall nm, In nm l ->
     exists h1 sa sb, getitem (c_world c) group nm = Ok h1 /\ step_member n c group p nm sa = (sb, Ok tt)).
  { induction l as [|x l IHl]; intros sa sb Hl nm Hnm; [destruct Hnm|].
    cbn [for_each] in Hl. apply bind_ok in Hl as [[] [sc [Hx Hl]]]. destruct Hnm as [->|Hnm].
    - pose proof Hx as Hx'. unfold step_member in Hx. apply bind_ok in Hx as [h1 [sd [He _]]]. apply lift_ok in He as [_ He]. eauto 10.
    - eapply IHl; eauto. }
  inversion Hc as [x|k' g nm h1 h2 [M1 M2] Hc']; subst; [lia|].
  destruct (L _ _ _ H _ M1) as [h1' [sa [sb [X Hs]]]]. rewrite M2 in X. inversion X; subst h1'.
  unfold step_member in Hs. apply bind_ok in Hs as [h1' [sd [He Hs]]]. apply lift_ok in He as [_ He]. rewrite M2 in He. inversion He; subst h1'.
  destruct (isHdf5Group (c_world c) h1) eqn:Eg.
  - apply -> Nat.succ_lt_mono. eapply IH; eauto. destruct Hg; [auto|lia].
  - pose proof (chain_below _ _ _ _ Hc') as Hb. apply below_nongroup in Hb; auto; [|eapply getitem_notfile; eauto]. subst.
    destruct Hg; [congruence|lia].
Qed.

Lemma chain_group : forall w k g h, chain w (S k) g h -> exists h' n, chain w k g h' /\ member w h' n h.
Proof.
  induction k as [|k IH]; intros g h H.
  - inversion H as [|k' g' n h1 h2 M Hc]; subst. inversion Hc; subst. exists g, n. split; [constructor|auto].
  - inversion H as [|k' g' n h1 h2 M Hc]; subst. destruct (IH _ _ Hc) as [h' [n' [A B]]]. exists h', n'. split; [econstructor; eauto|auto].
Qed.

Lemma member_group : forall w g n h, member w g n h -> h_isfile g = false -> isHdf5Group w g = true.
Proof.
  intros w g n h [M1 M2] Hf. unfold isHdf5Group. rewrite Hf. simpl. rewrite andb_true_r. unfold links_of, is_group_obj in *.
  destruct (obj_of w g) as [ob|]; [|destruct M1]. destruct (ob_kind ob); auto; destruct M1.
Qed.

Lemma chain_notfile : forall w k g h, chain w (S k) g h -> h_isfile h = false.
Proof.
  intros w k g h H. destruct (chain_group _ _ _ _ H) as [h' [n [_ [_ M]]]]. eapply getitem_notfile; eauto.
Qed.

Lemma build_ok_conditions : forall c cl s file, c_root c = open_root file -> build_address_catalog c (fresh_state cl) = (s, Ok tt) ->
  all_open (c_world c) file /\ shallow (c_world c) file (c_reclimit c) /\ ~ endless (c_world c) file.
Proof.
  intros c cl s file Hroot H. unfold build_address_catalog in H.
  assert (A : shallow (c_world c) file (c_reclimit c)).
  { split.
    - eapply (catalog_depth _ _ _ _ _ _ H 0 (c_root c)); [constructor|auto].
    - intros k h Hc Hg. rewrite <- Hroot in Hc. eapply catalog_depth; eauto. }
  split; [|split; auto].
  - intros g n [k Hr] Hin. rewrite <- Hroot in Hr. apply chain_below in Hr. eapply catalog_total; eauto.
  - intros E. destruct A as [A1 A2]. destruct (E (S (S (c_reclimit c)))) as [h Hh].
    destruct (chain_group _ _ _ _ Hh) as [h' [n [B1 B2]]].
    specialize (A2 _ _ B1 (member_group _ _ _ _ B2 (chain_notfile _ _ _ _ B1))). lia.
Qed.

(** ** Files with hard links only *)
Section Hard.
  Variable w : world.
  Variable file : pystr.
  Variable f : h5file.
  Variable rank : nat -> nat.
  Hypothesis Hfile : dget file w = Some (FHdf5 f).
  Hypothesis Hrank : hard_ranked f rank.

  Lemma hard_open : forall g n, h_file g = file -> In n (dkeys (links_of w g)) ->
    exists h, getitem w g n = Ok h /\ h_file h = file /\ rank (h_oid h) < rank (h_oid g).
  Proof.
    intros g n Hg Hin. rewrite (links_members w file f Hfile _ Hg) in Hin.
    unfold dkeys in Hin. apply in_map_iff in Hin as [[n' l] [E Hin]]. simpl in E. subst n'.
    destruct (dget n (members f (h_oid g))) as [l'|] eqn:Ed.
    2: { exfalso. apply dget_None in Ed. apply Ed. apply in_map_iff. exists (n, l). auto. }
    pose proof (dget_In _ _ _ _ Ed) as Hin'. destruct (Hrank _ _ _ Hin') as [Hn [o [-> [Ho Hr]]]].
    unfold getitem. destruct (comps_name n Hn) as [E1 E2]. destruct n as [|x n]; [destruct Hn; congruence|]. rewrite E1, E2.
    assert (X : exists ob, get_obj w (h_file g) o = Some ob).
    { rewrite Hg. apply (get_obj_lt w file f Hfile). auto. }
    destruct X as [ob X].
    assert (Y : links_of w (mkH (h_file g) (h_oid g) (h_name g) false) = members f (h_oid g)).
    { exact (links_members w file f Hfile (mkH (h_file g) (h_oid g) (h_name g) false) Hg). }
    rewrite (resolve_hard max_nlinks w (mkH (h_file g) (h_oid g) (h_name g) false) (x :: n) o ob); [|rewrite Y; exact Ed|exact X].
    eexists; split; [reflexivity|]. simpl. auto.
  Qed.

  Lemma hard_chain : forall k g h, chain w k g h -> h_file g = file -> h_file h = file /\ rank (h_oid h) + k <= rank (h_oid g).
  Proof.
    induction 1 as [h|k g n h h' [M1 M2] H IH]; intros Hg; [split; auto; lia|].
    destruct (hard_open _ _ Hg M1) as [h1 [A1 [A2 A3]]]. rewrite M2 in A1. inversion A1; subst h1.
    destruct (IH A2) as [B1 B2]. split; auto. lia.
  Qed.

  Lemma hard_conditions : forall limit, rank 0 < limit -> all_open w file /\ shallow w file limit.
  Proof.
    intros limit Hl. split.
    - intros g n [k Hr] Hin. destruct (hard_chain _ _ _ Hr eq_refl) as [Hg _].
      destruct (hard_open _ _ Hg Hin) as [h [A _]]. eauto.
    - split; [lia|]. intros k h Hc _. destruct (hard_chain _ _ _ Hc eq_refl) as [_ X]. simpl in X. lia.
  Qed.
End Hard.
