(** * The group checks of a completed validation *)

From Coq Require Import List NArith ZArith Bool String Lia Permutation.
From Verif Require Import PyBase PyFacts Regex Utf8 H5 Findings Nxdl Core Catalog ItemName AttributeCheck
  GroupChecks AppDef DefaultPlot Validate Trace CheckFacts CatalogFacts Spec_Run Spec_Catalog Spec_Groups RunFacts AddrRecord.
Import ListNotations.

(** ** Classes up to minOccurs *)
Lemma strip_def_eq : forall d d', strip_def d = strip_def d' ->
  d_title d = d_title d' /\ d_category d = d_category d' /\ d_attrs d = d_attrs d' /\ d_fields d = d_fields d' /\ d_links d = d_links d'
  /\ map fst (d_groups d) = map fst (d_groups d').
Proof.
  intros [] [] H. unfold strip_def, set_d_groups in H. simpl in *. inversion H; subst. repeat (split; auto).
  match goal with H : map _ _ = map _ _ |- _ => apply (f_equal (map fst)) in H; rewrite !map_map in H; simpl in H; exact H end.
Qed.

Lemma strip_get : forall cl cl' k, strip_classes cl = strip_classes cl' -> option_map strip_def (dget k cl) = option_map strip_def (dget k cl').
Proof.
  intros cl cl' k H. unfold strip_classes in H. rewrite <- !(dget_map_snd _ _ strip_def). rewrite H. reflexivity.
Qed.

Lemma perm_map_fst_len : forall A B (l l' : list (A * B)), map fst l = map fst l' -> List.length l = List.length l'.
Proof. intros A B l l' H. rewrite <- (map_length fst l), <- (map_length fst l'), H. reflexivity. Qed.

(** ** Recording, with the address known *)
Definition addr_at (s : vstate) (i : nat) (a : option pystr) : Prop := exists it, nth_error (st_items s) i = Some it /\ it_addr it = a.

Lemma addr_at_ext : forall s s' i a, ext s s' -> addr_at s i a -> addr_at s' i a.
Proof. intros s s' i a X [it [H1 H2]]. destruct (ext_item _ _ _ _ X H1) as [it' [H3 H4]]. exists it'. split; auto. rewrite (skel_addr _ _ H4). auto. Qed.

(** a completed piece of code: what it recorded *)
Definition rec_run (s : vstate) (fs : list finding) (s' : vstate) : Prop := exists log, trace s log s' /\ recs log = fs.

Lemma rec_run_nil : forall s, rec_run s [] s.
Proof. intros. exists []. split; [apply trace_nil|reflexivity]. Qed.
Lemma rec_run_app : forall s f1 s1 f2 s2, rec_run s f1 s1 -> rec_run s1 f2 s2 -> rec_run s (f1 ++ f2) s2.
Proof. intros s f1 s1 f2 s2 [l1 [T1 <-]] [l2 [T2 <-]]. exists (l1 ++ l2). split; [eapply trace_app; eauto|apply recs_app]. Qed.
Lemma rec_run_cons : forall s f s1 f2 s2, rec_run s [f] s1 -> rec_run s1 f2 s2 -> rec_run s (f :: f2) s2.
Proof. intros. apply (rec_run_app s [f] s1 f2 s2); auto. Qed.
Lemma rec_run_ext : forall s fs s', rec_run s fs s' -> ext s s'.
Proof. intros s fs s' [l [T _]]. exists l. auto. Qed.

Lemma record_run : forall i k st cm s s' u a, record_finding i k st cm s = (s', Ok u) -> addr_at s i a ->
  rec_run s [mkF a k st cm] s' /\ st_classes s' = st_classes s.
Proof.
  intros i k st cm s s' u a H [it [Hi <-]]. apply record_ok in H as [it' [Hi' [T [_ HC]]]]. rewrite Hi in Hi'. inversion Hi'; subst it'.
  split; auto. eexists. split; [exact T|reflexivity].
Qed.

Lemma for_each_run : forall A (f : A -> M unit) (I : vstate -> Prop) (Q : A -> list finding -> Prop) l s s' u,
  (forall x s1 s2 u, In x l -> I s1 -> f x s1 = (s2, Ok u) -> I s2 /\ exists fs, rec_run s1 fs s2 /\ Q x fs) ->
  I s -> for_each f l s = (s', Ok u) ->
  I s' /\ exists fss, rec_run s (List.concat fss) s' /\ Forall2 Q l fss.
Proof.
  induction l as [|x l IH]; intros s s' u Hf HI H; cbn [for_each] in H.
  - apply ret_ok in H as [-> _]. split; auto. exists []. split; [apply rec_run_nil|constructor].
  - apply bind_ok in H as [u1 [s1 [H0 H]]]. destruct (Hf x _ _ _ (or_introl eq_refl) HI H0) as [HI1 [f1 [T1 Q1]]].
    destruct (IH _ _ _ (fun y s1 s2 u Hy => Hf y s1 s2 u (or_intror Hy)) HI1 H) as [HI2 [f2 [T2 Q2]]].
    split; auto. exists (f1 :: f2). split; [simpl; eapply rec_run_app; eauto|constructor; auto].
Qed.

Lemma singles : forall A (R : A -> finding -> Prop) l fss, Forall2 (fun x fs => exists f, fs = [f] /\ R x f) l fss -> Forall2 R l (List.concat fss).
Proof. induction 1 as [|x fs l fss [f [-> Hf]] H IH]; simpl; constructor; auto. Qed.

Section Visit.
  Variable c : ctx.
  Variable s0 : vstate.
  Hypothesis HI : cinv c s0.

  Lemma addr_item_at : forall s a i, ext s0 s -> In (a, i) (st_addr s) -> addr_at s i a.
  Proof.
    intros s a i [log T] H. rewrite (tr_addr _ _ _ T) in H. destruct (ci_addrof _ _ HI _ _ H) as [it [H1 H2]].
    eapply addr_at_ext; [exists log; exact T|]. exists it. auto.
  Qed.

  Lemma address_item_ok : forall a s s' i, address_item a s = (s', Ok i) -> s' = s /\ In (a, i) (st_addr s).
  Proof.
    intros a s s' i H. unfold address_item in H. destruct (aget ostr_eqb a (st_addr s)) as [j|] eqn:E; inversion H; subst.
    split; auto. eapply aget_In; [apply ostr_eqb_eq|eauto].
  Qed.

  Lemma member_in : forall w h v b, hobj_in w v (ONode h) = Ok b -> forall s, v = VStr s -> (b = true /\ has_item w h s) \/ (b = false /\ ~ has_item w h s).
  Proof. intros w h v b H s ->. simpl in H. unfold has_item. rewrite H. destruct b; [left|right]; split; auto. discriminate. Qed.

  Lemma with_slash_member : forall a n, member_address a n (with_slash a ++ n).
  Proof.
    intros a n. unfold with_slash. destruct (endswith a slash) eqn:E.
    - left. split; auto. apply endswith_spec in E. exact E.
    - right. split; [|rewrite <- app_assoc; reflexivity]. intros X. apply endswith_spec in X. change (py "/") with slash in X. congruence.
  Qed.
  Lemma with_slash_text : forall (b : bool) a x, with_slash ((if b then py "found" else py "not found") ++ py ": " ++ a) ++ x
    = (if b then py "found: " else py "not found: ") ++ with_slash a ++ x.
  Proof.
    intros b a x. unfold with_slash.
    assert (E : endswith ((if b then py "found" else py "not found") ++ py ": " ++ a) slash = endswith a slash).
    { apply eq_iff_eq_true. rewrite !endswith_spec. change slash with [47%N]. split; intros [r H].
      - destruct a as [|y a0]; [|destruct (exists_last (l := y :: a0)) as (a' & z & EA); [discriminate|rewrite EA in *]].
        + exfalso. rewrite app_nil_r in H. apply (f_equal (fun l => last l 0%N)) in H. rewrite last_last in H. destruct b; vm_compute in H; discriminate.
        + exists a'. rewrite !app_assoc in H. apply app_inj_tail in H as [_ ->]. reflexivity.
      - exists ((if b then py "found" else py "not found") ++ py ": " ++ r). rewrite H, !app_assoc. reflexivity. }
    rewrite E. destruct b, (endswith a slash); rewrite <- !app_assoc; reflexivity.
  Qed.

  Lemma child_exists_run : forall it h t v ai a s s' u, it_obj it = ONode h -> addr_at s ai a ->
    child_exists c t v it ai s = (s', Ok u) ->
    (exists x st cm addr p, v = VStr x /\ rec_run s [mkF a t st cm] s' /\ it_addr it = Some addr /\ member_address addr x p
       /\ ((st = OK /\ has_item (c_world c) h x /\ cm = py "found: " ++ p) \/ (st = ERROR /\ ~ has_item (c_world c) h x /\ cm = py "not found: " ++ p)))
    /\ st_classes s' = st_classes s.
  Proof.
    intros it h t v ai a s s' u Ho Ha H. unfold child_exists in H. rewrite Ho in H.
    apply bind_ok in H as [b [s1 [H1 H]]]. apply lift_ok in H1 as [-> H1].
    apply bind_ok in H as [ad [s2 [H2 H]]]. apply lift_ok in H2 as [-> H2].
    apply bind_ok in H as [cm [s3 [H3 H]]]. apply lift_ok in H3 as [-> H3].
    destruct (record_run _ _ _ _ _ _ _ _ H Ha) as [RR HC]. split; auto.
    destruct v as [x| | | | | | | | |]; cbn [concat_text] in H3; try discriminate. exists x, (TF_RESULT b), cm, ad.
    destruct (it_addr it) as [ad'|]; simpl in H2; inversion H2; subst ad'.
    assert (CM : cm = with_slash ((if b then py "found" else py "not found") ++ py ": " ++ ad) ++ x) by congruence.
    exists (with_slash ad ++ x). split; auto. split; auto. split; auto. split; [apply with_slash_member|]. rewrite with_slash_text in CM.
    destruct (member_in _ _ _ _ H1 _ eq_refl) as [[-> X]|[-> X]]; [left|right]; auto.
  Qed.

  Lemma group_attribute_run : forall i d kv it h s s' u, ext s0 s -> nth_error (st_items s) i = Some it -> it_obj it = ONode h ->
    group_attribute c i d kv s = (s', Ok u) ->
    (exists fs, rec_run s fs s' /\ attribute_report (c_env c) (c_world c) it h d kv fs) /\ st_classes s' = st_classes s.
  Proof.
    intros i d [k v] it h s s' u X Hi Ho H. unfold group_attribute in H. cbn [fst snd] in H.
    apply bind_ok in H as [it' [s1 [H1 H]]]. apply item_ok in H1 as [-> H1]. rewrite Hi in H1. inversion H1; subst it'. clear H1.
    apply bind_ok in H as [dv [s1 [H1 H]]]. apply lift_ok in H1 as [-> Hdv].
    apply bind_ok in H as [addr [s1 [H1 H]]]. apply lift_ok in H1 as [-> Haddr].
    apply bind_ok in H as [ai [s1 [H1 H]]]. apply address_item_ok in H1 as [-> Hai]. pose proof (addr_item_at _ _ _ X Hai) as At.
    apply bind_ok in H as [u1 [s1 [H1 H]]]. destruct (record_run _ _ _ _ _ _ _ _ H1 At) as [R1 C1]. clear H1.
    pose proof (addr_at_ext _ _ _ _ (rec_run_ext _ _ _ R1) At) as At1. set (a := Some (addr ++ [ch_at] ++ k)) in *.
    assert (HA : it_addr it = Some addr). { destruct (it_addr it); simpl in Haddr; inversion Haddr; auto. }
    match type of R1 with rec_run _ [mkF a _ OK ?cm] _ => assert (KT : known_text d k cm) end.
    { unfold known_text. destruct (str_eqb_spec k (py "NX_class")) as [->|N1].
      - left. split; auto. cbn [negb andb]. rewrite andb_false_r. reflexivity.
      - cbn [negb]. rewrite andb_true_r. destruct (dmem k (d_attrs d)) eqn:E; cbn [negb].
        + left. split; auto. left. apply dmem_In. auto.
        + right. split; [|split; auto]. intros Hin. apply (proj2 (dmem_In _ k (d_attrs d))) in Hin. congruence. }
    destruct (dget k (d_attrs d)) as [spec|] eqn:Ek.
    2: { apply ret_ok in H as [-> _]. split; auto. eexists. split; [exact R1|]. exists addr, dv. eexists. exists []. cbn [fst snd].
         split; auto. split; auto. split; [exact KT|]. split; auto. rewrite Ek. auto. }
    apply bind_ok in H as [u2 [s2 [H2 H]]].
    assert (EN : exists r1, rec_run s1 r1 s2 /\ enumeration_findings a spec dv r1 /\ st_classes s2 = st_classes s1).
    { destruct (na_enums spec) as [|e es] eqn:Ee.
      - apply ret_ok in H2 as [-> _]. exists []. split; [apply rec_run_nil|]. split; auto. left. auto.
      - apply bind_ok in H2 as [cm [s3 [H3 H2]]]. apply lift_ok in H3 as [-> H3]. destruct (record_run _ _ _ _ _ _ _ _ H2 At1) as [R2 C2].
        eexists. split; [exact R2|]. split; auto. right. split; [rewrite Ee; discriminate|]. destruct dv as [x| | | | | | | | |]; cbn [concat_text] in H3; try discriminate.
        assert (CM : cm = (if in_enums (VStr x) (e :: es) then py "found: " else py "not found: ") ++ x)
          by (match type of H3 with Ok ?t = Ok _ => assert (XX : cm = t) by congruence end; rewrite XX; destruct (in_enums (VStr x) (e :: es)); reflexivity).
        clear H3.
        exists x. eexists. eexists. split; auto. split; [reflexivity|]. rewrite Ee. destruct (in_enums (VStr x) (e :: es)) eqn:EE.
        + left. split; auto. split; auto. unfold in_enums in EE. apply existsb_exists in EE as [y [Hy EQ]]. apply str_eqb_eq in EQ. subst. auto.
        + right. split; auto. split; auto. intros Hin. assert (in_enums (VStr x) (e :: es) = true); [|congruence].
          unfold in_enums. apply existsb_exists. exists x. split; auto. apply str_eqb_refl. }
    destruct EN as [r1 [R2 [EN C2]]]. pose proof (addr_at_ext _ _ _ _ (rec_run_ext _ _ _ R2) At1) as At2.
    assert (VF : exists r2, rec_run s2 r2 s' /\ value_findings (c_world c) it h a k dv r2 /\ st_classes s' = st_classes s2).
    { set (isdef := str_eqb k (py "default") && (str_eqb (it_cp it) [] || str_eqb (it_cp it) (py "/NXentry") || str_eqb (it_cp it) (py "/NXentry/NXsubentry"))) in *.
      destruct isdef eqn:Ed.
      - unfold isdef in Ed. apply andb_true_iff in Ed as [E1 E2]. apply str_eqb_eq in E1. subst k.
        destruct (child_exists_run _ _ _ _ _ _ _ _ _ Ho At2 H) as [[x [st [cm [ad [p [-> [R3 Q]]]]]]] C3]. eexists. split; [exact R3|]. split; auto. left.
        split; [left; split; auto; apply orb_true_iff in E2 as [E2|E2]; [apply orb_true_iff in E2 as [E2|E2]|]; apply str_eqb_eq in E2; auto|].
        exists x, st, cm, ad, p. auto.
      - destruct (str_eqb_spec k (py "signal")) as [->|N1].
        + destruct (child_exists_run _ _ _ _ _ _ _ _ _ Ho At2 H) as [[x [st [cm [ad [p [-> [R3 Q]]]]]]] C3]. eexists. split; [exact R3|]. split; auto. left.
          split; [right; auto|]. exists x, st, cm, ad, p. auto.
        + destruct (str_eqb_spec k (py "target")) as [->|N2]; [inversion H|]. destruct (str_eqb_spec k (py "axes")) as [->|N3].
          * apply ret_ok in H as [-> _]. exists []. split; [apply rec_run_nil|]. split; auto. right. left. auto.
          * destruct (record_run _ _ _ _ _ _ _ _ H At2) as [R3 C3]. eexists. split; [exact R3|]. split; auto. right. right.
            split; [|split; [exact N3|split; [exact N2|reflexivity]]]. intros [[-> Y]|Y]; [|auto]. assert (isdef = true); [|congruence]. unfold isdef. rewrite str_eqb_refl. simpl andb.
            destruct Y as [->|[->| ->]]; reflexivity. }
    destruct VF as [r2 [R3 [VF C3]]]. split; [|congruence]. eexists. split; [eapply rec_run_cons; [exact R1|eapply rec_run_app; eauto]|].
    exists addr, dv. eexists. exists (r1 ++ r2). cbn [fst snd]. split; auto. split; auto. split; [exact KT|]. split; auto. rewrite Ek. exists r1, r2. auto.
  Qed.

  Lemma group_child_run : forall h d name s s' u, ext s0 s -> In name (dkeys (links_of (c_world c) h)) -> group_child c h d name s = (s', Ok u) ->
    (exists f, rec_run s [f] s' /\ child_finding (c_world c) h d name f) /\ st_classes s' = st_classes s.
  Proof.
    intros h d name s s' u X Hin H. unfold group_child in H.
    apply bind_ok in H as [obj [s1 [H1 H]]]. apply lift_ok in H1 as [-> Hobj].
    apply bind_ok in H as [ai [s1 [H1 H]]]. apply address_item_ok in H1 as [-> Hai]. pose proof (addr_item_at _ _ _ X Hai) as At.
    assert (Hm : member (c_world c) h name obj) by (split; auto).
    assert (DT : forall V (l : dict V) n cm, cm = (if dmem n l then py "defined: " else py "not defined: ") ++ d_title d ++ py "/" ++ n ->
      defined_text (In n (map fst l)) d n cm).
    { intros V l n cm ->. unfold defined_text. destruct (dmem n l) eqn:E; [left|right]; split; auto.
      - apply dmem_In. auto.
      - intros Y. apply (proj2 (dmem_In _ n l)) in Y. congruence. }
    destruct (isHdf5Dataset (c_world c) obj) eqn:E1; [|destruct (isHdf5Group (c_world c) obj) eqn:E2];
      destruct (record_run _ _ _ _ _ _ _ _ H At) as [RR CC]; (split; auto); eexists; (split; [exact RR|]).
    - apply cf_field; auto.
    - apply cf_group; auto.
    - apply cf_other; auto.
  Qed.

  Lemma base_field_run : forall i it h name s s' u, it_obj it = ONode h -> addr_at s i (it_addr it) -> base_field c i it name s = (s', Ok u) ->
    (exists f, rec_run s [f] s' /\ nxdl_field_finding (c_world c) h (it_addr it) name f) /\ st_classes s' = st_classes s.
  Proof.
    intros i it h name s s' u Ho At H. unfold base_field in H. rewrite Ho in H.
    apply bind_ok in H as [b [s1 [H1 H]]]. apply lift_ok in H1 as [-> H1].
    apply bind_ok in H as [ad [s1 [H2 H]]]. apply lift_ok in H2 as [-> H2].
    destruct (record_run _ _ _ _ _ _ _ _ H At) as [RR CC]. split; auto. eexists. split; [exact RR|]. unfold nxdl_field_finding. exists ad, (with_slash ad ++ name).
    destruct (it_addr it) as [ad'|]; simpl in H2; inversion H2; subst ad'. split; auto. split; [apply with_slash_member|]. rewrite with_slash_text.
    destruct (member_in _ _ _ _ H1 _ eq_refl) as [[-> Y]|[-> Y]]; auto.
  Qed.

  Lemma store_run : forall t n z s s' u, store_minOccurs t n z s = (s', Ok u) -> rec_run s [] s' /\ strip_classes (st_classes s') = strip_classes (st_classes s).
  Proof.
    intros t n z s s' u H. pose proof (strip_store t n z s) as E. rewrite H in E. split; auto. inversion H; subst.
    exists []. split; auto. constructor; simpl; auto. rewrite app_nil_r. reflexivity.
  Qed.

  Lemma base_group_run : forall i it h cls ng s s' u, it_obj it = ONode h -> addr_at s i (it_addr it) -> base_group c i it cls ng s = (s', Ok u) ->
    (exists f, rec_run s [f] s' /\ nxdl_group_finding (c_world c) h (it_addr it) (fst ng) f)
    /\ strip_classes (st_classes s') = strip_classes (st_classes s).
  Proof.
    intros i it h cls ng s s' u Ho At H. unfold base_group in H. rewrite Ho in H.
    apply bind_ok in H as [b [s1 [H1 H]]]. apply lift_ok in H1 as [-> H1].
    apply bind_ok in H as [ad [s1 [H2 H]]]. apply lift_ok in H2 as [-> H2].
    apply bind_ok in H as [u1 [s1 [H3 H]]]. destruct (record_run _ _ _ _ _ _ _ _ H3 At) as [RR CC].
    apply bind_ok in H as [z [s2 [H4 H]]]. apply lift_ok in H4 as [-> H4]. destruct (store_run _ _ _ _ _ _ H) as [RS CS]. split; [|congruence].
    eexists. split; [exact (rec_run_app _ [_] _ [] _ RR RS)|]. unfold nxdl_group_finding. exists ad. eexists.
    destruct (it_addr it) as [ad'|]; simpl in H2; inversion H2; subst ad'. split; auto. split; [reflexivity|].
    destruct (member_in _ _ _ _ H1 _ eq_refl) as [[-> Y]|[-> Y]]; auto.
  Qed.

  (** reports do not depend on minOccurs *)
  Lemma attribute_report_def : forall E w it h d d' kv fs, strip_def d = strip_def d' -> attribute_report E w it h d kv fs -> attribute_report E w it h d' kv fs.
  Proof.
    intros E w it h d d' kv fs H R. destruct (strip_def_eq _ _ H) as [E1 [E2 [E3 _]]]. unfold attribute_report, known_text in *. rewrite <- E1, <- E3. exact R.
  Qed.
  Lemma child_finding_def : forall w h d d' n f, strip_def d = strip_def d' -> child_finding w h d n f -> child_finding w h d' n f.
  Proof.
    intros w h d d' n f H R. destruct (strip_def_eq _ _ H) as [E1 [E2 [E3 [E4 [E5 E6]]]]].
    destruct R as [obj cm Hm Hd HT|obj cm Hm Hd HT|obj Hm Hd Hg]; [apply cf_field|apply cf_group|apply cf_other]; auto; unfold defined_text in *.
    - rewrite <- E1, <- E4. exact HT.
    - rewrite <- E1, <- E6. exact HT.
  Qed.

  Lemma class_of_group : forall i it h cls, nth_error (st_items s0) i = Some it -> it_obj it = ONode h ->
    isHdf5Group (c_world c) h || h_isfile h = true -> it_cp it <> NON_NEXUS -> group_class it = Ok cls ->
    has_class (c_env c) (c_world c) it h cls.
  Proof.
    intros i it h cls Hi Ho Hg Hn Hc. unfold group_class in Hc.
    assert (D : forall p, node_item (c_env c) (c_world c) p h = Ok it -> (p = None \/ h_isfile h = false) -> has_class (c_env c) (c_world c) it h cls).
    { intros p HN HF. unfold node_item in HN. destruct (determine_NeXus_classpath _ _ _ _ _) as [[cp nc]|] eqn:ED; [|discriminate]. cbn [rbind] in HN.
      destruct (identify_object_type _ _ _); [|discriminate]. cbn [rbind] in HN. inversion HN; subst it. clear HN. cbn [it_cp it_nxclass fst snd] in *.
      remember (if str_eqb (h_name h) slash then slash else last_part ch_slash (h_name h)) as nm eqn:Enm. clear Enm.
      unfold determine_NeXus_classpath in ED. destruct (str_eqb nm slash).
      { inversion ED; subst. left. split; auto. simpl in Hc. inversion Hc. reflexivity. }
      destruct p as [[pi pit]|]; cbn [option_map snd] in ED; [|discriminate]. destruct HF as [HF|HF]; [discriminate|].
      destruct (str_eqb (it_cp pit) NON_NEXUS); [inversion ED; subst; tauto|].
      destruct (endswith (it_cp pit) slash) eqn:Ee.
      { inversion ED; subst. destruct (startswith (it_cp pit) (py "/NX")); [discriminate|]. destruct (str_eqb_spec (it_cp pit) []) as [E0|]; [|discriminate].
        rewrite E0 in Ee. discriminate. }
      rewrite HF, orb_false_r in Hg. rewrite Hg in ED.
      destruct (dget (py "NX_class") (attrs_of (c_world c) h)) as [v|] eqn:Ev; [|cbn [rbind] in ED; inversion ED; subst; tauto].
      destruct (decode_byte_string (c_env c) v) as [dv|] eqn:Ed; [|discriminate]. cbn [rbind] in ED.
      destruct dv as [x| | | | | | | | |]; try (inversion ED; subst; tauto). destruct (startswith x "NX") eqn:Es; [|inversion ED; subst; tauto].
      inversion ED; subst. right. assert (NE : it_cp pit ++ slash ++ x <> []) by (destruct (it_cp pit); discriminate). split; [exact NE|]. split; [exact Hn|].
      assert (cls = x) as ->.
      { destruct (startswith (it_cp pit ++ ch_slash :: x) (py "/NX")); [simpl in Hc; inversion Hc; auto|].
        destruct (str_eqb_spec (it_cp pit ++ ch_slash :: x) []); [contradiction|discriminate]. }
      apply startswith_spec in Es as [t Et]. exists v, t. auto. }
    destruct (ci_origin _ _ HI _ _ Hi) as [H1 H2 H3|p pit hp h' name H1 H2 H3 H4 H5 H6|p pit h' k v H1 H2 H3 H4 H5].
    - destruct (node_item_spec _ _ _ _ _ H3) as [E _]. rewrite Ho in E. inversion E; subst. eapply D; eauto.
    - destruct (node_item_spec _ _ _ _ _ H6) as [E _]. rewrite Ho in E. inversion E; subst. eapply D; eauto. right. eapply getitem_notfile; eauto.
    - subst. rewrite (proj1 (attr_item_spec _ _ _ _)) in Ho. discriminate.
  Qed.

  Lemma has_class_skel : forall E w a b h cls, skel a = skel b -> has_class E w a h cls -> has_class E w b h cls.
  Proof. intros E w a b h cls H. apply skel_eq in H. unfold has_class. destruct H as [_ [_ [_ [_ [-> _]]]]]. auto. Qed.
  Lemma group_class_skel : forall a b, skel a = skel b -> group_class a = group_class b.
  Proof. intros a b H. apply skel_eq in H. unfold group_class. destruct H as [_ [_ [_ [_ [-> ->]]]]]. reflexivity. Qed.
  Lemma attribute_report_skel : forall E w a b h d kv fs, skel a = skel b -> attribute_report E w a h d kv fs -> attribute_report E w b h d kv fs.
  Proof.
    intros E w a b h d kv fs H. apply skel_eq in H. unfold attribute_report, value_findings, names_member. destruct H as [_ [_ [_ [-> [-> _]]]]]. auto.
  Qed.

  Lemma validate_group_run : forall i it h s s' u, ext s0 s -> i < List.length (st_items s0) -> nth_error (st_items s) i = Some it -> it_obj it = ONode h ->
    isHdf5Group (c_world c) h || h_isfile h = true ->
    validate_group c i s = (s', Ok u) ->
    (exists fs, rec_run s fs s' /\ group_report (c_env c) (c_world c) (st_classes s) it h fs) /\ strip_classes (st_classes s') = strip_classes (st_classes s).
  Proof.
    intros i it h s s' u X Hlt Hi Ho Hg H. unfold validate_group in H.
    apply bind_ok in H as [it' [s1 [H1 H]]]. apply item_ok in H1 as [-> H1]. rewrite Hi in H1. inversion H1; subst it'. clear H1.
    assert (At : addr_at s i (it_addr it)) by (exists it; auto).
    destruct (str_eqb_spec (it_cp it) NON_NEXUS) as [E0|N0].
    { destruct (record_run _ _ _ _ _ _ _ _ H At) as [RR CC]. split; [|congruence]. eexists. split; [exact RR|]. apply gr_other. exact E0. }
    apply bind_ok in H as [cls [s1 [H1 H]]]. apply lift_ok in H1 as [-> Hcls].
    assert (HC : has_class (c_env c) (c_world c) it h cls).
    { apply nth_error_Some in Hlt. destruct (nth_error (st_items s0) i) as [it0|] eqn:Ei; [|tauto].
      destruct (ext_item _ _ _ _ X Ei) as [it' [Hi' HS]]. rewrite Hi in Hi'. inversion Hi'; subst it'.
      apply (has_class_skel _ _ it0 it); auto. pose proof (skel_eq _ _ HS) as [_ [SO [_ [_ [SC _]]]]]. eapply class_of_group; eauto; try congruence.
      rewrite <- Hcls. apply group_class_skel. auto. }
    apply bind_ok in H as [u1 [s1 [H1 H]]]. unfold validate_NX_class_attribute in H1.
    apply bind_ok in H1 as [sx [s2 [G H1]]]. apply get_ok in G as [-> ->].
    apply bind_ok in H1 as [u2 [s2 [H2 H1]]]. destruct (record_run _ _ _ _ _ _ _ _ H2 At) as [R1 C1]. clear H2.
    pose proof (addr_at_ext _ _ _ _ (rec_run_ext _ _ _ R1) At) as At1.
    apply bind_ok in H as [sx [s3 [G H]]]. apply get_ok in G as [-> ->].
    destruct (dget cls (st_classes s)) as [d|] eqn:Ecls.
    2: { assert (Dm : dmem cls (st_classes s) = false) by (unfold dmem, amem; unfold dget in Ecls; rewrite Ecls; reflexivity).
         rewrite Dm in *. apply ret_ok in H1 as [-> _]. rewrite C1, Ecls in H. destruct (record_run _ _ _ _ _ _ _ _ H At1) as [R2 C2].
         split; [|congruence]. eexists. split; [exact (rec_run_cons _ _ _ _ _ R1 R2)|]. eapply gr_unknown; eauto. }
    assert (Dm : dmem cls (st_classes s) = true) by (unfold dmem, amem; unfold dget in Ecls; rewrite Ecls; reflexivity). rewrite Dm in *.
    apply bind_ok in H1 as [ab [s3 [H2 H1]]]. apply lift_ok in H2 as [-> Hab].
    apply bind_ok in H1 as [d' [s3 [H2 H1]]]. apply lift_ok in H2 as [-> Hd']. unfold dgetitem in Hd'. rewrite Ecls in Hd'. inversion Hd'; subst d'. clear Hd'.
    destruct (record_run _ _ _ _ _ _ _ _ H1 At1) as [R2 C2]. clear H1. pose proof (addr_at_ext _ _ _ _ (rec_run_ext _ _ _ R2) At1) as At2.
    rewrite C2, C1, Ecls in H.
    match type of R2 with rec_run _ [mkF _ _ _ ?cm] _ => assert (BT : base_class_text d cls cm) end.
    { unfold base_class_text. destruct (str_eqb_spec (d_category d) (py "base_classes")); [left|right]; auto. }
    assert (AB : TF_RESULT ab = if str_eqb (d_category d) (py "applications") then ERROR else OK).
    { unfold usedAsBaseClass in Hab. rewrite Ecls in Hab. destruct (str_eqb (d_category d) (py "applications")); [inversion Hab; reflexivity|].
      destruct (str_eqb (d_category d) (py "base_classes")); [inversion Hab; reflexivity|]. destruct (_ && _)%bool; inversion Hab. reflexivity. }
    rewrite AB in R2. pose proof (rec_run_cons _ _ _ _ _ R1 R2) as R12. pose proof (rec_run_ext _ _ _ R12) as X12.
    assert (C12 : st_classes s1 = st_classes s) by congruence.
    (* attributes *)
    apply bind_ok in H as [u3 [s3 [H3 H]]]. unfold verify_group_attributes in H3.
    apply bind_ok in H3 as [it' [s4 [G H3]]]. apply item_ok in G as [-> G]. destruct (ext_item _ _ _ _ X12 Hi) as [it1 [Hi1 S1]].
    rewrite Hi1 in G. inversion G; subst it'. clear G. pose proof (skel_eq _ _ S1) as [_ [SO1 _]].
    apply bind_ok in H3 as [ats [s4 [G H3]]]. apply lift_ok in G as [-> G]. rewrite SO1, Ho in G. simpl in G. inversion G; subst ats. clear G.
    destruct (for_each_run _ _ (fun sx => ext s1 sx /\ st_classes sx = st_classes s) (attribute_report (c_env c) (c_world c) it h d) _ _ _ _
      ltac:(intros kv sa sb ux _ [XA CA] HR; destruct (ext_item _ _ _ _ XA Hi1) as [ita [Hia Sa]]; pose proof (skel_eq _ _ Sa) as [_ [SOa _]];
        destruct (group_attribute_run i d kv ita h sa sb ux ltac:(eapply ext_trans; [exact X|eapply ext_trans; eauto]) Hia ltac:(congruence) HR) as [[fs [RR AR]] CC];
        split; [split; [eapply ext_trans; [exact XA|eapply rec_run_ext; eauto]|congruence]|];
        exists fs; split; [exact RR|eapply attribute_report_skel; [|exact AR]; congruence]) (conj (ext_refl _) C12) H3) as [[X3 C3] [attrs [R3 F3]]].
    clear H3.
    (* children *)
    apply bind_ok in H as [u4 [s4 [H4 H]]]. unfold verify_group_children in H4.
    apply bind_ok in H4 as [it' [s5 [G H4]]]. apply item_ok in G as [-> G]. destruct (ext_item _ _ _ _ X3 Hi1) as [it3 [Hi3 S3]].
    rewrite Hi3 in G. inversion G; subst it'. clear G. pose proof (skel_eq _ _ S3) as [_ [SO3 _]]. rewrite SO3, SO1, Ho in H4.
    destruct (for_each_run _ _ (fun sx => ext s3 sx /\ st_classes sx = st_classes s) (fun n fs => exists f, fs = [f] /\ child_finding (c_world c) h d n f) _ _ _ _
      ltac:(intros n sa sb ux Hn [XA CA] HR;
        destruct (group_child_run h d n sa sb ux ltac:(eapply ext_trans; [exact X|eapply ext_trans; [exact X12|eapply ext_trans; eauto]]) Hn HR) as [[f [RR CF]] CC];
        split; [split; [eapply ext_trans; [exact XA|eapply rec_run_ext; eauto]|congruence]|]; eauto) (conj (ext_refl _) C3) H4) as [[X4 C4] [chs [R4 F4]]].
    clear H4. apply singles in F4.
    (* NXDL fields and groups *)
    apply bind_ok in H as [u5 [s5 [H5 H]]]. unfold base_class_items_verify in H5.
    apply bind_ok in H5 as [it' [s6 [G H5]]]. apply item_ok in G as [-> G]. destruct (ext_item _ _ _ _ X4 Hi3) as [it4 [Hi4 S4]].
    rewrite Hi4 in G. inversion G; subst it'. clear G. assert (S4' : skel it4 = skel it) by congruence. pose proof (skel_eq _ _ S4') as [_ [SO4 [_ [SA4 _]]]].
    apply bind_ok in H5 as [u6 [s6 [H6 H5]]].
    assert (At4 : addr_at s4 i (it_addr it4)) by (exists it4; auto).
    destruct (for_each_run _ _ (fun sx => ext s4 sx /\ st_classes sx = st_classes s)
      (fun n fs => exists f, fs = [f] /\ nxdl_field_finding (c_world c) h (it_addr it4) n f) _ _ _ _
      ltac:(intros n sa sb ux Hn [XA CA] HR;
        destruct (base_field_run i it4 h n sa sb ux ltac:(congruence) (addr_at_ext _ _ _ _ XA At4) HR) as [[f [RR CF]] CC];
        split; [split; [eapply ext_trans; [exact XA|eapply rec_run_ext; eauto]|congruence]|]; eauto) (conj (ext_refl _) C4) H6) as [[X6 C6] [fls [R6 F6]]].
    clear H6. apply singles in F6.
    destruct (for_each_run _ _ (fun sx => ext s4 sx /\ strip_classes (st_classes sx) = strip_classes (st_classes s))
      (fun ng fs => exists f, fs = [f] /\ nxdl_group_finding (c_world c) h (it_addr it4) (fst ng) f) _ _ _ _
      ltac:(intros n sa sb ux Hn [XA CA] HR;
        destruct (base_group_run i it4 h cls n sa sb ux ltac:(congruence) (addr_at_ext _ _ _ _ XA At4) HR) as [[f [RR CF]] CC];
        split; [split; [eapply ext_trans; [exact XA|eapply rec_run_ext; eauto]|congruence]|]; eauto) (conj X6 (f_equal strip_classes C6)) H5) as [[X7 C7] [gls [R7 F7]]].
    clear H5. apply singles in F7.
    destruct (record_run _ _ _ _ _ _ _ _ H (addr_at_ext _ _ _ _ X7 At4)) as [R8 C8]. clear H. rewrite SA4 in *.
    split; [|congruence]. eexists. split.
    - eapply rec_run_app; [exact R12|]. eapply rec_run_app; [exact R3|]. eapply rec_run_app; [exact R4|]. eapply rec_run_app; [exact R6|].
      eapply rec_run_app; [exact R7|]. exact R8.
    - apply (gr_known _ _ _ _ _ cls d _ attrs _ _ _ (sorted_strs (dkeys (d_fields d))) (map fst (sorted_items (d_groups d))) (sorted_items (attrs_of (c_world c) h))); auto.
      + apply sorted_by_perm.
      + apply sorted_by_perm.
      + apply Permutation_map. apply sorted_by_perm.
      + clear - F7. remember (sorted_items (d_groups d)) as l. clear Heql. revert F7. generalize (List.concat gls). induction l; intros fs F; inversion F; subst; simpl; constructor; auto.
  Qed.
End Visit.
