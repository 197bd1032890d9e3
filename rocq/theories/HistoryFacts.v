(** * Validators used for several files *)

From Coq Require Import List NArith ZArith Bool String Lia Permutation.
From Verif Require Import PyBase PyFacts Regex Utf8 H5 Findings Nxdl Core Catalog ItemName AttributeCheck
  GroupChecks AppDef DefaultPlot Validate Trace CheckFacts CatalogFacts Spec_Run Spec_Catalog Spec_Groups RunFacts AddrRecord GroupRun GroupEnd SimFacts Spec_History.
Import ListNotations.

Lemma strip_store' : forall t n z cl, strip_classes (store t n z cl) = strip_classes cl.
Proof. intros t n z cl. exact (strip_store t n z (fresh_state cl)). Qed.

Definition K1 (a b : classes) : Prop := strip_classes a = strip_classes b.
Lemma K1_store : forall t n z a b, K1 a b -> K1 (store t n z a) (store t n z b).
Proof. intros. unfold K1. rewrite !strip_store'. exact H. Qed.

(** minOccurs of the group "data" of NXentry *)
Definition mo (cl : classes) : option (option Z) :=
  match dget (py "NXentry") cl with Some d => option_map g_minOccurs (dget (py "data") (d_groups d)) | None => None end.
Definition K2 (a b : classes) : Prop := strip_classes a = strip_classes b /\ mo a = mo b.

Definition present (cl : classes) (t n : pystr) : bool := match dget t cl with Some d => dmem n (d_groups d) | None => false end.

Lemma present_strip : forall a b t n, K1 a b -> present a t n = present b t n.
Proof.
  intros a b t n H. pose proof (strip_get _ _ t H) as G. unfold present. destruct (dget t a) as [d|], (dget t b) as [d'|]; cbn [option_map] in G; try discriminate; auto.
  apply strip_dmem. congruence.
Qed.

Lemma g_minOccurs_set : forall z g, g_minOccurs (set_minOccurs z g) = Some z.
Proof. intros z []. reflexivity. Qed.

Lemma mo_store_other : forall t n z cl, ~ (t = py "NXentry" /\ n = py "data") -> mo (store t n z cl) = mo cl.
Proof.
  intros t n z cl H. unfold store. destruct (dget t cl) as [d|] eqn:E; auto. destruct (dget n (d_groups d)) as [g|] eqn:E2; auto.
  unfold mo. destruct (str_eqb_spec t (py "NXentry")) as [->|N].
  - rewrite dget_dset_same, E. unfold set_d_groups. cbn [d_groups]. rewrite dget_dset_other; auto.
  - rewrite dget_dset_other; auto.
Qed.
Lemma mo_store_same : forall z cl, mo (store (py "NXentry") (py "data") z cl) = if present cl (py "NXentry") (py "data") then Some (Some z) else None.
Proof.
  intros z cl. unfold store, present. destruct (dget (py "NXentry") cl) as [d|] eqn:E; [|unfold mo; rewrite E; reflexivity].
  unfold dmem, amem. fold (dget (py "data") (d_groups d)). destruct (dget (py "data") (d_groups d)) as [g|] eqn:E2.
  - unfold mo. rewrite dget_dset_same. unfold set_d_groups. cbn [d_groups]. rewrite dget_dset_same. cbn [option_map is_some]. rewrite g_minOccurs_set. reflexivity.
  - unfold mo. rewrite E, E2. reflexivity.
Qed.
Lemma K2_establish : forall z a b, K1 a b -> K2 (store (py "NXentry") (py "data") z a) (store (py "NXentry") (py "data") z b).
Proof. intros z a b H. split; [apply K1_store; auto|]. rewrite !mo_store_same, (present_strip _ _ _ _ H). reflexivity. Qed.
Lemma K2_store : forall t n z a b, K2 a b -> K2 (store t n z a) (store t n z b).
Proof.
  intros t n z a b [H1 H2]. destruct (str_eqb_spec t (py "NXentry")) as [->|N1].
  - destruct (str_eqb_spec n (py "data")) as [->|N2]; [apply K2_establish; auto|]. split; [apply K1_store; auto|]. rewrite !mo_store_other by tauto. auto.
  - split; [apply K1_store; auto|]. rewrite !mo_store_other by tauto. auto.
Qed.
Lemma K2_absent : forall a b, K1 a b -> present a (py "NXentry") (py "data") = false -> K2 a b.
Proof.
  intros a b H P. split; auto. assert (Z : forall x, present x (py "NXentry") (py "data") = false -> mo x = None).
  { intros x Hx. unfold present in Hx. unfold mo. destruct (dget (py "NXentry") x) as [d|]; auto. unfold dmem, amem in Hx. fold (dget (py "data") (d_groups d)) in Hx.
    destruct (dget (py "data") (d_groups d)); [discriminate|reflexivity]. }
  rewrite (Z a P), (Z b); auto. rewrite <- (present_strip _ _ _ _ H). exact P.
Qed.
Lemma K2_status : forall a b, K2 a b -> no_plot_status a = no_plot_status b.
Proof.
  intros a b [H1 H2]. unfold no_plot_status, mo in *. pose proof (strip_get _ _ (py "NXentry") H1) as G. unfold dgetitem.
  destruct (dget (py "NXentry") a) as [d|], (dget (py "NXentry") b) as [d'|]; cbn [option_map] in G; try discriminate; auto. cbn [rbind].
  destruct (dget (py "data") (d_groups d)) as [g|], (dget (py "data") (d_groups d')) as [g'|]; cbn [option_map] in H2; try discriminate; auto. cbn [rbind].
  inversion H2 as [E]. rewrite E. reflexivity.
Qed.
(** with K1 only the status may differ *)
Lemma K1_status : forall a b, K1 a b -> (exists e, no_plot_status a = Exn e /\ no_plot_status b = Exn e)
  \/ exists x y, no_plot_status a = Ok x /\ no_plot_status b = Ok y /\ (x = NOTE \/ x = ERROR) /\ (y = NOTE \/ y = ERROR).
Proof.
  intros a b H. pose proof (present_strip _ _ (py "NXentry") (py "data") H) as P. pose proof (strip_get _ _ (py "NXentry") H) as G. unfold present in P. unfold no_plot_status, dgetitem.
  destruct (dget (py "NXentry") a) as [d|], (dget (py "NXentry") b) as [d'|]; cbn [option_map] in G; try discriminate; [|left; eexists; split; reflexivity]. cbn [rbind].
  unfold dmem, amem in P. fold (dget (py "data") (d_groups d)) in P. fold (dget (py "data") (d_groups d')) in P.
  destruct (dget (py "data") (d_groups d)) as [g|], (dget (py "data") (d_groups d')) as [g'|]; try discriminate; [|left; eexists; split; reflexivity]. cbn [rbind].
  right. eexists. eexists. split; [reflexivity|]. split; [reflexivity|]. split; destruct (Z.ltb _ _); auto.
Qed.

(** ** Everything before the default plot *)
Definition main_part (c : ctx) : M unit := build_address_catalog c ;;; step1 c ;;; step2 c ;;; step3 c.

Lemma validate_open_split : forall c s, validate_open c s = (main_part c ;;; default_plot_verify c) s.
Proof.
  intros c s. unfold validate_open, main_part, bind. destruct (build_address_catalog c s) as [s1 [?|?]]; auto. destruct (step1 c s1) as [s2 [?|?]]; auto.
  destruct (step2 c s2) as [s3 [?|?]]; auto.
Qed.

Section General.
  Variable K : classes -> classes -> Prop.
  Hypothesis K_strip : forall a b, K a b -> strip_classes a = strip_classes b.
  Hypothesis K_store : forall t n z a b, K a b -> K (store t n z a) (store t n z b).

  Lemma sim_step1 : forall c, sim K (step1 c) (step1 c).
  Proof.
    intros c. unfold step1. apply sim_bind_get. intros s t [_ [_ [E _]]]. rewrite E. apply sim_for_each. intros. apply sim_check_item; auto.
  Qed.
  Lemma sim_step2 : forall c, sim K (step2 c) (step2 c).
  Proof.
    intros c. unfold step2. apply sim_bind_get. intros s t [_ [E _]]. rewrite E. apply sim_for_each. intros. apply sim_check_group; auto.
  Qed.
  Lemma sim_step3 : forall c, sim K (step3 c) (step3 c).
  Proof.
    intros c. unfold step3. apply sim_bind_get. intros s t [_ [_ [E _]]]. rewrite E. apply sim_for_each. intros. apply sim_check_definition; auto.
  Qed.
  Lemma sim_main : forall c, sim K (main_part c) (main_part c).
  Proof.
    intros c. unfold main_part. apply sim_bind; [unfold build_address_catalog; apply sim_catalog|intros _]. apply sim_bind; [apply sim_step1|intros _].
    apply sim_bind; [apply sim_step2|intros _]. apply sim_step3.
  Qed.
End General.

(** the root entry of the address catalogue has address "/" *)
Lemma main_root : forall c cl s, main_part c (fresh_state cl) = (s, Ok tt) ->
  forall i, aget ostr_eqb (Some slash) (st_addr s) = Some i -> exists it, nth_error (st_items s) i = Some it /\ it_addr it = Some slash.
Proof.
  intros c cl s H i HA. unfold main_part in H. apply bind_ok in H as [u1 [s1 [H1 H]]]. destruct u1. destruct (build_spec _ _ _ _ H1) as [HI _].
  apply bind_ok in H as [u2 [s2 [H2 H]]]. apply bind_ok in H as [u3 [s3 [H3 H]]]. destruct u2, u3.
  unfold step1 in H2. apply bind_ok in H2 as [? [? [G H2]]]. apply get_ok in G as [-> ->].
  unfold step2 in H3. apply bind_ok in H3 as [? [? [G H3]]]. apply get_ok in G as [-> ->].
  unfold step3 in H. apply bind_ok in H as [? [? [G H]]]. apply get_ok in G as [-> ->].
  destruct (logs_run _ _ _ _ _ _ _ (step1_logs c _) H2) as [l1 [T1 _]]. destruct (logs_run _ _ _ _ _ _ _ (step2_logs c _) H3) as [l2 [T2 _]].
  destruct (logs_run _ _ _ _ _ _ _ (step3_logs c _) H) as [l3 [T3 _]].
  rewrite (tr_addr _ _ _ T3), (tr_addr _ _ _ T2), (tr_addr _ _ _ T1) in HA. apply aget_In in HA; [|intros; apply ostr_eqb_eq].
  destruct (ci_addrof _ _ HI _ _ HA) as [it0 [Hi0 Ha0]].
  destruct (ext_item s1 s i it0) as [it' [Hi' S]]; auto.
  { eapply ext_trans; [exists l1; exact T1|]. eapply ext_trans; [exists l2; exact T2|exists l3; exact T3]. }
  exists it'. split; auto. rewrite (skel_addr _ _ S). exact Ha0.
Qed.

Lemma record_find : forall i k st cm s s' r, record_finding i k st cm s = (s', r) ->
  (exists it, nth_error (st_items s) i = Some it /\ r = Ok tt /\ st_find s' = st_find s ++ [mkF (it_addr it) k st cm] /\ st_addr s' = st_addr s /\ st_cp s' = st_cp s /\ st_items s' = update_nth i (add_val (mkF (it_addr it) k st cm)) (st_items s))
  \/ (nth_error (st_items s) i = None /\ s' = s /\ r = Exn AssertionError).
Proof.
  intros i k st cm s s' r H. unfold record_finding, bind, item in H. destruct (nth_error (st_items s) i) as [it|] eqn:E; inversion H; subst; [left|right; auto].
  exists it. simpl. auto 10.
Qed.

Lemma same_item_refl : forall l, Forall2 same_item l l.
Proof. induction l; constructor; auto. reflexivity. Qed.
Lemma same_item_update : forall f g l i, Forall2 same_item (update_nth i (add_val f) l) (update_nth i (add_val g) l).
Proof. induction l as [|x l IH]; intros [|i]; simpl; constructor; auto; try reflexivity. apply same_item_refl. Qed.

Definition runs_alike (s t : vstate) (r r' : res unit) : Prop :=
  r = r' /\ Forall2 same_item (st_items s) (st_items t) /\ st_addr s = st_addr t /\ st_cp s = st_cp t /\ same_but_plot (st_find s) (st_find t).

Lemma open_alike : forall c cl cl' s r t r', K1 cl cl' -> validate_open c (fresh_state cl) = (s, r) -> validate_open c (fresh_state cl') = (t, r') -> runs_alike s t r r'.
Proof.
  intros c cl cl' s r t r' HK H H'. rewrite validate_open_split in H, H'.
  assert (S0 : simS K1 (fresh_state cl) (fresh_state cl')) by (unfold simS; simpl; auto 10).
  destruct (sim_main K1 (fun _ _ h => h) K1_store c _ _ S0) as [ER SM]. unfold bind in H, H'.
  destruct (main_part c (fresh_state cl)) as [s4 r4] eqn:Em. destruct (main_part c (fresh_state cl')) as [t4 q4] eqn:Em'. simpl in ER, SM. subst q4.
  assert (FIN : forall a b, simS K1 a b -> Forall2 same_item (st_items a) (st_items b) /\ st_addr a = st_addr b /\ st_cp a = st_cp b /\ same_but_plot (st_find a) (st_find b)).
  { intros a b [I [A [B [C _]]]]. rewrite I. repeat split; auto; [apply same_item_refl|]. left. auto. }
  destruct r4 as [[]|e]; [|inversion H; inversion H'; subst; destruct (FIN _ _ SM) as [? [? [? ?]]]; split; auto].
  unfold default_plot_verify in H, H'. unfold bind at 1 in H. unfold bind at 1 in H'.
  unfold address_item in H, H'. assert (EA : st_addr s4 = st_addr t4) by apply SM. rewrite <- EA in H'.
  destruct (aget ostr_eqb (Some slash) (st_addr s4)) as [ri|] eqn:Er; [|inversion H; inversion H'; subst; destruct (FIN _ _ SM) as [? [? [? ?]]]; split; auto].
  destruct (sim_methods K1 c _ _ SM) as [EM SM']. unfold bind at 1 in H. unfold bind at 1 in H'.
  destruct (try_methods _ s4) as [s5 r5] eqn:E5. destruct (try_methods _ t4) as [t5 q5] eqn:E5'. simpl in EM, SM'. subst q5.
  destruct r5 as [[[k a]|]|e]; [| |inversion H; inversion H'; subst; destruct (FIN _ _ SM') as [? [? [? ?]]]; split; auto].
  - destruct (sim_record K1 ri (py "NeXus default plot") OK (py "found by " ++ k ++ py ": " ++ a) _ _ SM') as [E6 S6]. rewrite H, H' in *. simpl in *. destruct (FIN _ _ S6) as [? [? [? ?]]]. split; auto.
  - unfold bind at 1 in H. unfold bind at 1 in H'. unfold get in H, H'. unfold bind at 1 in H. unfold bind at 1 in H'. unfold lift in H, H'.
    destruct (K1_status (st_classes s5) (st_classes t5)) as [[e [E1 E2]]|[x [y [E1 [E2 [Hx Hy]]]]]]; [apply SM'| |].
    + rewrite E1 in H. rewrite E2 in H'. inversion H; inversion H'; subst. destruct (FIN _ _ SM') as [? [? [? ?]]]. split; auto.
    + rewrite E1 in H. rewrite E2 in H'. pose proof SM' as [I1 [I2 [I3 [I4 _]]]].
      apply record_find in H. apply record_find in H'. rewrite <- I1 in H'. destruct H as [[it [Hi [-> [F1 [F2 [F3 F4]]]]]]|[Hi [-> ->]]]; destruct H' as [[it' [Hi' [-> [G1 [G2 [G3 G4]]]]]]|[Hi' [-> ->]]]; try congruence.
      * rewrite Hi in Hi'. inversion Hi'; subst it'. split; auto. split; [rewrite F4, G4, I1; apply same_item_update|]. split; [congruence|]. split; [congruence|]. right. exists (st_find s5), x, y. rewrite F1, G1, <- I4.
        assert (A : it_addr it = Some slash).
        { destruct (logs_run _ _ _ _ _ _ _ (try_methods_logs c) E5) as [lg [T _]]. destruct (main_root c cl s4 Em ri Er) as [it0 [E0 A0]].
          destruct (ext_item s4 s5 ri it0) as [it1 [Hi1 S1]]; [exists lg; exact T|exact E0|]. rewrite Hi in Hi1. inversion Hi1; subst it1. rewrite (skel_addr _ _ S1). exact A0. }
        rewrite A. auto.
      * destruct (FIN _ _ SM') as [? [? [? ?]]]. split; auto.
Qed.

(** ** A group of class NXentry makes the recorded minOccurs the same *)
Definition estab (m m' : M unit) : Prop := forall s t s', simS K1 s t -> m s = (s', Ok tt) -> exists t', m' t = (t', Ok tt) /\ simS K2 s' t'.

Lemma K2_strip : forall a b, K2 a b -> strip_classes a = strip_classes b.
Proof. intros a b [H _]. exact H. Qed.

Lemma estab_left : forall A (m m' : M A) f f', sim K1 m m' -> (forall a, estab (f a) (f' a)) -> estab (bind m f) (bind m' f').
Proof.
  intros A m m' f f' Hm Hf s t s' HS H. unfold bind in *. destruct (Hm s t HS) as [E S]. destruct (m s) as [s1 r], (m' t) as [t1 r']. simpl in *. subst r'.
  destruct r as [a|e]; [|discriminate]. eapply Hf; eauto.
Qed.
Lemma estab_right : forall (m m' : M unit) f f', estab m m' -> (forall a, sim K2 (f a) (f' a)) -> estab (bind m f) (bind m' f').
Proof.
  intros m m' f f' Hm Hf s t s' HS H. apply bind_ok in H as [[] [s1 [H1 H]]]. destruct (Hm s t s1 HS H1) as [t1 [E1 S1]]. unfold bind. rewrite E1.
  destruct (Hf tt s1 t1 S1) as [E2 S2]. rewrite H in E2, S2. simpl in *. destruct (f' tt t1) as [t2 r2]. simpl in *. subst r2. eauto.
Qed.
Lemma sim_estab : forall (m m' : M unit) s t s', sim K2 m m' -> simS K1 s t -> K2 (st_classes s) (st_classes t) -> m s = (s', Ok tt) -> exists t', m' t = (t', Ok tt) /\ simS K2 s' t'.
Proof.
  intros m m' s t s' Hm [S1 [S2 [S3 [S4 [S5 S6]]]]] HK H. destruct (Hm s t) as [E S]; [unfold simS; auto 10|]. rewrite H in E, S. simpl in *. destruct (m' t) as [t' r']. simpl in *. subst r'. eauto.
Qed.

Lemma estab_base_group : forall c i it x y, same_group x y -> fst x = py "data" -> estab (base_group c i it (py "NXentry") x) (base_group c i it (py "NXentry") y).
Proof.
  intros c i it [n g] [n' g'] [E1 E2] E. cbn [fst snd] in *. subst n' n. unfold base_group, minOccurs_of. cbn [fst snd]. rewrite E2.
  apply estab_left; [apply sim_lift|intros found]. apply estab_left; [apply sim_lift|intros addr]. apply estab_left; [apply sim_record|intros _].
  apply estab_left; [apply sim_lift|intros z]. intros s t s' HS H. rewrite store_minOccurs_eq in *. inversion H; subst s'. eexists. split; [reflexivity|].
  destruct HS as [S1 [S2 [S3 [S4 [S5 S6]]]]]. unfold simS. simpl. repeat split; auto; apply K2_establish; auto.
Qed.
Lemma estab_groups : forall c i it l r, Forall2 same_group l r -> In (py "data") (map fst l) ->
  estab (for_each (base_group c i it (py "NXentry")) l) (for_each (base_group c i it (py "NXentry")) r).
Proof.
  intros c i it l r F. induction F as [|x y l r Hxy F IH]; intros HI; [destruct HI|]. cbn [for_each].
  destruct (str_eqb_spec (fst x) (py "data")) as [E|N].
  - apply estab_right; [apply estab_base_group; auto|intros _]. eapply sim_for_each2; [|exact F]. intros. apply sim_base_group; auto using K2_store.
  - apply estab_left; [apply sim_base_group; auto using K1_store|intros _]. apply IH. destruct HI as [HI|HI]; [congruence|auto].
Qed.

Lemma estab_validate_group : forall c i it, it_cp it <> NON_NEXUS -> group_class it = Ok (py "NXentry") ->
  forall s t s', nth_error (st_items s) i = Some it -> simS K1 s t -> validate_group c i s = (s', Ok tt) -> exists t', validate_group c i t = (t', Ok tt) /\ simS K2 s' t'.
Proof.
  intros c i it HN HC s t s' Hi HS H.
  assert (R : forall x, nth_error (st_items x) i = Some it -> validate_group c i x =
    (validate_NX_class_attribute i (py "NXentry") ;;; let* s := get in
    match dget (py "NXentry") (st_classes s) with
    | None => record_finding i (py "NeXus base class") ERROR ((py "unknown NeXus base class: ") ++ (py "NXentry"))
    | Some d =>
        verify_group_attributes c i d ;;;
        verify_group_children c i d ;;;
        base_class_items_verify c i (py "NXentry") d ;;;
        record_finding i (py "NeXus base class") TODO ((py "NXentry") ++ (py ": more validations needed"))
    end) x).
  { intros x Hx. unfold validate_group at 1. unfold bind at 1. unfold item. rewrite Hx. destruct (str_eqb_spec (it_cp it) NON_NEXUS) as [E|_]; [tauto|].
    unfold bind at 1, lift. rewrite HC. reflexivity. }
  assert (Ht : nth_error (st_items t) i = Some it) by (rewrite <- (proj1 HS); exact Hi). rewrite (R s Hi) in H. rewrite (R t Ht).
  revert s t s' Hi HS H Ht. clear R.
  cut (estab (validate_NX_class_attribute i (py "NXentry") ;;; let* s := get in
    match dget (py "NXentry") (st_classes s) with
    | None => record_finding i (py "NeXus base class") ERROR ((py "unknown NeXus base class: ") ++ (py "NXentry"))
    | Some d =>
        verify_group_attributes c i d ;;;
        verify_group_children c i d ;;;
        base_class_items_verify c i (py "NXentry") d ;;;
        record_finding i (py "NeXus base class") TODO ((py "NXentry") ++ (py ": more validations needed"))
    end) (validate_NX_class_attribute i (py "NXentry") ;;; let* s := get in
    match dget (py "NXentry") (st_classes s) with
    | None => record_finding i (py "NeXus base class") ERROR ((py "unknown NeXus base class: ") ++ (py "NXentry"))
    | Some d =>
        verify_group_attributes c i d ;;;
        verify_group_children c i d ;;;
        base_class_items_verify c i (py "NXentry") d ;;;
        record_finding i (py "NeXus base class") TODO ((py "NXentry") ++ (py ": more validations needed"))
    end)).
  { intros HE s t s' _ HS H _. eapply HE; eauto. }
  apply estab_left; [apply sim_nx_attr; auto using K1_store|intros _].
  intros s t s' HS H. unfold bind at 1, get in H. unfold bind at 1, get.
  pose proof (proj2 (proj2 (proj2 (proj2 (proj2 HS))))) as HK. pose proof (strip_get _ _ (py "NXentry") HK) as G.
  destruct (present (st_classes s) (py "NXentry") (py "data")) eqn:EP.
  - unfold present in EP. destruct (dget (py "NXentry") (st_classes s)) as [d|]; [|discriminate]. destruct (dget (py "NXentry") (st_classes t)) as [d'|]; [|discriminate].
    assert (S : strip_def d = strip_def d') by (cbn [option_map] in G; congruence). revert s t s' HS H HK G. 
    cut (estab (verify_group_attributes c i d ;;; verify_group_children c i d ;;; base_class_items_verify c i (py "NXentry") d ;;;
        record_finding i (py "NeXus base class") TODO ((py "NXentry") ++ (py ": more validations needed")))
      (verify_group_attributes c i d' ;;; verify_group_children c i d' ;;; base_class_items_verify c i (py "NXentry") d' ;;;
        record_finding i (py "NeXus base class") TODO ((py "NXentry") ++ (py ": more validations needed")))).
    { intros HE s t s' HS H _ _. eapply HE; eauto. }
    apply estab_left; [|intros _].
    { unfold verify_group_attributes. apply sim_bind; [apply sim_item|intros it1]. apply sim_bind; [apply sim_lift|intros l]. apply sim_for_each. intros. apply sim_group_attribute; auto. }
    apply estab_left; [|intros _].
    { unfold verify_group_children. apply sim_bind; [apply sim_item|intros it1]. destruct (it_obj it1); [|apply sim_raise]. apply sim_for_each. intros. apply sim_group_child; auto. }
    apply estab_right; [|intros; apply sim_record]. unfold base_class_items_verify. apply estab_left; [apply sim_item|intros it1].
    pose proof (strip_def_eq _ _ S) as [_ [_ [_ [E4 _]]]]. apply estab_left.
    { rewrite E4. apply sim_for_each. intros n. unfold base_field. apply sim_bind; [apply sim_lift|intros b]. apply sim_bind; [apply sim_lift|intros]. apply sim_record. }
    intros _. apply estab_groups; [apply sorted_same, strip_same; exact S|]. apply dmem_In in EP.
    eapply Permutation_in; [|exact EP]. apply Permutation_map. apply Permutation_sym, sorted_by_perm.
  - pose proof (K2_absent _ _ HK EP) as EK. eapply sim_estab; [|exact HS|exact EK|exact H].
    destruct (dget (py "NXentry") (st_classes s)) as [d|], (dget (py "NXentry") (st_classes t)) as [d'|]; cbn [option_map] in G; try discriminate; [|apply sim_record].
    assert (S : strip_def d = strip_def d') by congruence.
    apply sim_bind; [|intros _].
    { unfold verify_group_attributes. apply sim_bind; [apply sim_item|intros it1]. apply sim_bind; [apply sim_lift|intros l]. apply sim_for_each. intros. apply sim_group_attribute; auto. }
    apply sim_bind; [|intros _].
    { unfold verify_group_children. apply sim_bind; [apply sim_item|intros it1]. destruct (it_obj it1); [|apply sim_raise]. apply sim_for_each. intros. apply sim_group_child; auto. }
    apply sim_bind; [apply sim_base_items; auto using K2_store|intros _]. apply sim_record.
Qed.

Lemma estab_for_each : forall c i it l, it_cp it <> NON_NEXUS -> group_class it = Ok (py "NXentry") ->
  hobj_isgroup (c_world c) (it_obj it) || hobj_isfile (it_obj it) = true -> In i l ->
  forall s t s', (exists it', nth_error (st_items s) i = Some it' /\ skel it' = skel it) -> simS K1 s t -> for_each (check_group c) l s = (s', Ok tt) ->
  exists t', for_each (check_group c) l t = (t', Ok tt) /\ simS K2 s' t'.
Proof.
  intros c i it l HN HC HG. induction l as [|j l IH]; intros HI s t s' HIT HS H; [destruct HI|]. cbn [for_each] in *. apply bind_ok in H as [[] [s1 [H1 H]]].
  assert (FIN : forall t1, check_group c j t = (t1, Ok tt) -> simS K2 s1 t1 -> exists t', (check_group c j ;;; for_each (check_group c) l) t = (t', Ok tt) /\ simS K2 s' t').
  { intros t1 E1 S1. destruct (sim_for_each K2 _ (check_group c) (check_group c) l (fun x => sim_check_group K2 K2_strip K2_store c x) _ _ S1) as [E2 S2].
    rewrite H in E2, S2. unfold bind. rewrite E1. destruct (for_each (check_group c) l t1) as [t' r']. simpl in *. subst r'. eauto. }
  destruct (Nat.eq_dec j i) as [->|NE].
  - destruct HIT as [it' [Hi' S']]. pose proof (skel_eq _ _ S') as [_ [SO [_ [_ [SC _]]]]].
    destruct (estab_validate_group c i it') with (s := s) (t := t) (s' := s1) as [t1 [E1 S1]]; auto; try congruence.
    + rewrite (group_class_skel _ _ S'). exact HC.
    + unfold check_group, bind, item in H1. rewrite Hi' in H1. rewrite SO, HG in H1. exact H1.
    + apply (FIN t1); auto. unfold check_group, bind, item. rewrite <- (proj1 HS), Hi', SO, HG. exact E1.
  - destruct HI as [HI|HI]; [congruence|]. destruct (sim_check_group K1 (fun _ _ h => h) K1_store c j _ _ HS) as [E1 S1]. rewrite H1 in E1, S1. simpl in *.
    unfold bind. destruct (check_group c j t) as [t1 r1]. simpl in *. subst r1. eapply IH; [exact HI| |exact S1|exact H].
    destruct HIT as [it' [Hi' S']]. destruct (logs_run _ _ _ _ _ _ _ (check_group_logs c j) H1) as [lg [T _]]. destruct (trace_item _ _ _ _ _ T Hi') as [it2 [Hi2 S2]]. exists it2. split; auto. congruence.
Qed.

Lemma open_equal : forall c cl cl' s, K1 cl cl' -> validate_open c (fresh_state cl) = (s, Ok tt) ->
  forall i it h, In (it_addr it, i) (st_addr s) -> nth_error (st_items s) i = Some it -> it_obj it = ONode h -> is_group_obj (c_world c) h = true ->
  has_class (c_env c) (c_world c) it h (py "NXentry") ->
  exists t, validate_open c (fresh_state cl') = (t, Ok tt) /\ simS K2 s t.
Proof.
  intros c cl cl' s HK H i it h HA Hi Ho Hg HC. destruct (open_decompose _ _ _ H) as [s1 [s2 [s3 [s4 [l1 [l2 [l3 [l4 R]]]]]]]].
  destruct R. assert (S0 : simS K1 (fresh_state cl) (fresh_state cl')) by (unfold simS; simpl; auto 10).
  assert (SK : forall A (m : M A) a b a' x, sim K1 m m -> simS K1 a b -> m a = (a', Ok x) -> exists b', m b = (b', Ok x) /\ simS K1 a' b').
  { intros A m a b a' x Hm Hab E. destruct (Hm a b Hab) as [E1 E2]. rewrite E in E1, E2. simpl in *. destruct (m b) as [b' r']. simpl in *. subst r'. eauto. }
  assert (SK2 : forall A (m : M A) a b a' x, sim K2 m m -> simS K2 a b -> m a = (a', Ok x) -> exists b', m b = (b', Ok x) /\ simS K2 a' b').
  { intros A m a b a' x Hm Hab E. destruct (Hm a b Hab) as [E1 E2]. rewrite E in E1, E2. simpl in *. destruct (m b) as [b' r']. simpl in *. subst r'. eauto. }
  destruct (SK _ (build_address_catalog c) _ (fresh_state cl') _ _ (sim_catalog K1 _ _ _ _) S0 ro_build) as [t1 [B1 S1]].
  destruct (SK _ (for_each (check_item c) (List.concat (dvals (st_cp s1)))) _ t1 _ _ (sim_for_each K1 _ _ _ _ (fun x => sim_check_item K1 (fun _ _ h => h) c x)) S1 ro_step1) as [t2 [B2 S2]].
  assert (X : ext s1 s). { eapply ext_trans; [exists l1; exact ro_t1|]. eapply ext_trans; [exists l2; exact ro_t2|]. eapply ext_trans; [exists l3; exact ro_t3|exists l4; exact ro_t4]. }
  assert (HA1 : In (it_addr it, i) (st_addr s1)). { rewrite (tr_addr _ _ _ ro_t4), (tr_addr _ _ _ ro_t3), (tr_addr _ _ _ ro_t2), (tr_addr _ _ _ ro_t1) in HA. exact HA. }
  destruct (ci_addrof _ _ ro_inv _ _ HA1) as [it0 [Hi0 Ha0]]. destruct (ext_item _ _ _ _ X Hi0) as [itx [Hix SX]]. rewrite Hi in Hix. inversion Hix; subst itx.
  pose proof (skel_eq _ _ SX) as [_ [SO [_ [_ [SC _]]]]].
  assert (HG : hobj_isgroup (c_world c) (it_obj it0) || hobj_isfile (it_obj it0) = true).
  { rewrite <- SO, Ho. unfold hobj_isgroup, hobj_isfile, isHdf5Group, isHdf5FileObject. rewrite Hg. destruct (h_isfile h); reflexivity. }
  assert (HN : it_cp it0 <> NON_NEXUS) by (rewrite <- SC; eapply has_class_nexus; eauto).
  assert (EGC : group_class it0 = Ok (py "NXentry")).
  { destruct (in_split i (dvals (st_addr s2))) as [pre [post EP]].
    { rewrite (tr_addr _ _ _ ro_t1). unfold dvals. change i with (snd (it_addr it, i)). apply in_map. exact HA1. }
    rewrite EP in ro_step2. rewrite for_each_app in ro_step2. apply bind_ok in ro_step2 as [[] [sa [Ha Hb]]]. cbn [for_each] in Hb. apply bind_ok in Hb as [[] [sb [Hb _]]].
    destruct (logs_run _ _ _ _ _ _ _ (step2_logs c pre) Ha) as [lg [T _]].
    destruct (trace_item _ _ _ _ _ ro_t1 Hi0) as [ia [Hia Sa]]. destruct (trace_item _ _ _ _ _ T Hia) as [ib [Hib Sb]]. assert (SB : skel ib = skel it0) by congruence.
    pose proof (skel_eq _ _ SB) as [_ [SO2 [_ [_ [SC2 _]]]]].
    unfold check_group, bind, item in Hb. rewrite Hib, SO2, HG in Hb. unfold validate_group, bind, item in Hb. rewrite Hib in Hb.
    destruct (str_eqb_spec (it_cp ib) NON_NEXUS) as [E|_]; [congruence|]. unfold lift in Hb. destruct (group_class ib) as [cls|] eqn:EC; [|discriminate].
    rewrite <- (group_class_skel _ _ SB), EC. f_equal. rewrite (group_class_skel _ _ SB) in EC.
    eapply has_class_fun; [|exact HC]. eapply (has_class_skel _ _ it0 it); [congruence|]. eapply class_of_group; eauto; try congruence.
    unfold hobj_isgroup, hobj_isfile in HG. rewrite <- SO, Ho in HG. exact HG. }
  destruct (estab_for_each c i it0 (dvals (st_addr s2)) HN EGC HG) with (s := s2) (t := t2) (s' := s3) as [t3 [B3 S3]]; auto.
  { rewrite (tr_addr _ _ _ ro_t1). unfold dvals. change i with (snd (it_addr it, i)). apply in_map. exact HA1. }
  { apply (trace_item _ _ _ _ _ ro_t1 Hi0). }
  destruct (SK2 _ (for_each (check_definition c) (definitions_of s3)) _ t3 _ _ (sim_for_each K2 _ _ _ _ (fun x => sim_check_definition K2 K2_strip c x)) S3 ro_step3) as [t4 [B4 S4]].
  assert (SP : sim K2 (default_plot_verify c) (default_plot_verify c)).
  { unfold default_plot_verify. apply sim_bind; [apply sim_address|intros o]. apply sim_bind; [apply sim_methods|intros [[k a]|]]; [apply sim_record|].
    apply sim_bind_get. intros x y Hxy. rewrite (K2_status _ _ (proj2 (proj2 (proj2 (proj2 (proj2 Hxy)))))). apply sim_bind; [apply sim_lift|intros; apply sim_record]. }
  destruct (SK2 _ _ _ t4 _ _ SP S4 ro_step4) as [t5 [B5 S5]]. exists t5. split; auto.
  unfold validate_open, bind at 1. rewrite B1. unfold step1, bind at 1. unfold bind at 1, get. destruct S1 as [_ [_ [C1 _]]]. rewrite <- C1, B2.
  unfold step2, bind at 1. unfold bind at 1, get. destruct S2 as [_ [C2 _]]. rewrite <- C2, B3. unfold step3, bind at 1. unfold bind at 1, get.
  destruct S3 as [_ [_ [C3 _]]]. unfold definitions_of in B4. rewrite <- C3, B4. exact B5.
Qed.

(** ** Histories *)
Lemma open_strip : forall c cl, strip_classes (st_classes (fst (validate_open c (fresh_state cl)))) = strip_classes cl.
Proof.
  intros c cl. set (K := fun a b : classes => strip_classes a = strip_classes b /\ strip_classes a = strip_classes cl).
  assert (KS : forall t n z a b, K a b -> K (store t n z a) (store t n z b)). { intros t n z a b [H1 H2]. unfold K. rewrite !strip_store'. auto. }
  assert (KT : forall a b, K a b -> strip_classes a = strip_classes b) by (intros a b [H _]; exact H).
  assert (S0 : simS K (fresh_state cl) (fresh_state cl)) by (unfold simS; simpl; unfold K; auto 10).
  rewrite validate_open_split. destruct (sim_main K KT KS c _ _ S0) as [_ S1]. unfold bind.
  destruct (main_part c (fresh_state cl)) as [s1 [[]|e]]; simpl in *; [|apply S1].
  destruct (default_plot_verify c s1) as [s2 r2] eqn:E. destruct (logs_run _ _ _ _ _ _ _ (default_plot_verify_logs c) E) as [lg [_ [_ [_ R]]]]. simpl. rewrite R. apply S1.
Qed.

Lemma after_strip : forall u cl calls, K1 (st_classes (v_st (after u cl calls))) cl.
Proof.
  intros u cl calls. unfold after. assert (G : forall v, K1 (st_classes (v_st v)) cl -> K1 (st_classes (v_st (fold_left (do_call u) calls v))) cl).
  { induction calls as [|c calls IH]; simpl; auto. intros v Hv. apply IH. destruct c as [w f|]; [|exact Hv]. simpl. unfold validate.
    destruct (dget f w) as [[x|]|]; auto. destruct (validate_open (mk_ctx u w f) (fresh_state (st_classes (v_st v)))) as [s r] eqn:E. simpl.
    pose proof (open_strip (mk_ctx u w f) (st_classes (v_st v))) as P. rewrite E in P. simpl in P. unfold K1 in *. congruence. }
  apply G. reflexivity.
Qed.
