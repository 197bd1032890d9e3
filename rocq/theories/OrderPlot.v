(** * Two validations of files that differ in order only: default plots *)

From Coq Require Import List NArith ZArith Bool String Lia Permutation.
From Verif Require Import PyBase PyFacts Regex Utf8 H5 Findings Nxdl Core Catalog ItemName AttributeCheck
  GroupChecks AppDef DefaultPlot Validate Trace CheckFacts CatalogFacts NameFacts CacheFacts Spec_Run Spec_Catalog PathFacts RunFacts NameRun StepOne CatalogRun CatalogEnd AddressFacts
  Spec_Groups Spec_AppDef Spec_Plot Spec_Verdict PlotFacts PlotLink VerdictFacts Spec_Order OrderWorld OrderFacts OrderRun.
From Verif Require OrderSim WholeFacts AddrRecord.
Import ListNotations.

Lemma signal_not_other : forall d, d ++ py "@signal" <> non_nexus.
Proof.
  intros d X. apply (f_equal (has_char ch_at)) in X. rewrite has_char_app in X. change (has_char ch_at (py "@signal")) with true in X. rewrite orb_true_r in X. vm_compute in X. discriminate.
Qed.
Lemma path_not_other : signal_path <> non_nexus.
Proof. exact (signal_not_other (py "/NXentry/NXdata")). Qed.

(** ** One validation *)
Section One.
  Variables (u : setup) (w : world) (v : validator) (fname : pystr) (v' : validator) (f : h5file).
  Hypothesis Hv : validate u w v fname = (v', Ok tt).
  Hypothesis Hf : dget fname w = Some (FHdf5 f).
  Hypothesis Hplain : plain_file f.

  Lemma cp_facts : NoDup (map fst (st_cp (v_st v'))) /\ (forall k l i, In (k, l) (st_cp (v_st v')) -> In i l -> exists it, listed v' i it /\ it_cp it = k)
    /\ NoDup (all_items v').
  Proof.
    destruct (validate_decompose _ _ _ _ _ Hv) as [_ [_ [_ [s1 [s2 [s3 [s4 [l1 [l2 [l3 [l4 X]]]]]]]]]]]. pose proof (ro_inv _ _ _ _ _ _ _ _ _ _ _ X) as HI.
    assert (EC : st_cp (v_st v') = st_cp s1) by (rewrite (tr_cp _ _ _ (ro_t4 _ _ _ _ _ _ _ _ _ _ _ X)), (tr_cp _ _ _ (ro_t3 _ _ _ _ _ _ _ _ _ _ _ X)), (tr_cp _ _ _ (ro_t2 _ _ _ _ _ _ _ _ _ _ _ X)), (tr_cp _ _ _ (ro_t1 _ _ _ _ _ _ _ _ _ _ _ X)); auto).
    unfold all_items. rewrite EC. split; [apply (ci_cpkeys _ _ HI)|]. split.
    - intros k l i A B. destruct (ci_cpof _ _ HI _ _ _ A B) as [it0 [C D]]. destruct (listed_end _ _ _ _ _ _ _ _ _ _ _ X _ _ C) as [it' [F G]]. exists it'. split; auto.
      destruct (skel_eq _ _ G) as [_ [_ [_ [_ [Z _]]]]]. congruence.
    - apply (Permutation_NoDup (Permutation_sym (ci_cpperm _ _ HI))). apply seq_NoDup.
  Qed.

  Lemma listed_cp : forall cp i it, listed_at v' cp i it <-> listed v' i it /\ it_cp it = cp.
  Proof.
    intros cp i it. destruct cp_facts as [A [B _]]. split.
    - intros [C [l [D F]]]. split; [split; [auto|exists cp, l; auto]|]. destruct (B _ _ _ D F) as [it' [[G _] I]]. congruence.
    - intros [[C [k [l [D F]]]] G]. destruct (B _ _ _ D F) as [it' [[I _] J]]. split; auto. exists l. split; auto. replace cp with k; auto. congruence.
  Qed.

  Lemma all_listed : forall i, In i (all_items v') <-> exists it, listed v' i it.
  Proof.
    intros i. destruct cp_facts as [A [B _]]. unfold all_items. rewrite in_concat. split.
    - intros [l [C D]]. apply in_map_iff in C as [[k l'] [E C]]. simpl in E. subst l'. destruct (B _ _ _ C D) as [it [F _]]. eauto.
    - intros [it [_ [k [l [C D]]]]]. exists l. split; auto. apply in_map_iff. exists (k, l). auto.
  Qed.

  Lemma at_listed : forall a it, catalogued_at v' a it -> exists i, listed v' i it /\ it_addr it = Some a.
  Proof.
    intros a it [i [A B]]. destruct (validate_decompose _ _ _ _ _ Hv) as [_ [_ [_ [s1 [s2 [s3 [s4 [l1 [l2 [l3 [l4 X]]]]]]]]]]]. destruct (entries _ _ _ _ _ _ _ _ _ _ _ _ _ X) as [C _].
    destruct (C _ _ A) as [it' [D F]]. exists i. assert (it' = it) by (destruct D as [D _]; congruence). subst it'. auto.
  Qed.

  Lemma item_nonempty : forall i it, listed v' i it -> it_cp it <> non_nexus -> it_addr it <> None.
  Proof. intros i it L N X. apply (addr_kind u w v fname v' f Hv Hf Hplain _ _ L) in X as [_ X]. auto. Qed.

  Lemma parent_cp : forall i it p pit, listed v' i it -> it_cp it <> non_nexus -> it_parent it = Some p -> nth_error (st_items (v_st v')) p = Some pit ->
    listed v' p pit /\ it_cp pit <> non_nexus.
  Proof.
    intros i it p pit L N P X. destruct (kinds u w v fname v' f Hv Hf Hplain _ _ L) as [[h [q K]]|[val [j [jt [h [k K]]]]]].
    - destruct q as [|n0 q0]; [destruct (na_root _ _ _ _ _ _ _ _ K eq_refl) as [_ Z]; congruence|].
      destruct (na_parent _ _ _ _ _ _ _ _ K ltac:(discriminate)) as [j [J1 [J2|[jt [g [q [n [J2 [J3 [J4 [J5 J6]]]]]]]]]]]; [contradiction|]. assert (j = p) by congruence. subst j.
      assert (jt = pit) by (destruct J2 as [J2 _]; congruence). subst jt. split; auto. intros C.
      destruct (node_kind u w v fname v' f Hv Hf Hplain _ _ _ J2 J3) as [q' M].
      assert (q' = q). { apply path_text_inj; [exact (na_names _ _ _ _ _ _ _ _ M)|auto|]. pose proof (na_addr _ _ _ _ _ _ _ _ M). congruence. } subst q'.
      pose proof (na_cp _ _ _ _ _ _ _ _ K) as CP. pose proof (na_cp _ _ _ _ _ _ _ _ M) as CQ. rewrite J4 in CP. inversion CP as [Z|q' pcp n' o cp C1 C2 C3 Z1 Z2]; [destruct q; discriminate|].
      apply app_inj_tail in Z1 as [-> ->]. assert (pcp = non_nexus) by (rewrite <- C; eapply class_path_fun; eauto). inversion C3; subst; try congruence.
    - assert (j = p) by (pose proof (va_parent _ _ _ _ _ _ _ _ K); congruence). subst j. pose proof (va_listed _ _ _ _ _ _ _ _ K) as M.
      assert (jt = pit) by (destruct M as [M _]; congruence). subst jt. split; auto. intros C. apply N. rewrite (va_cp _ _ _ _ _ _ _ _ K), C, str_eqb_refl. reflexivity.
  Qed.
End One.

(** ** From the first validation to the second *)
Section Half.
  Variables (u : setup) (w w' : world) (v : validator) (fname : pystr) (v1 v2 : validator) (f f' : h5file).
  Hypothesis H1 : validate u w v fname = (v1, Ok tt).
  Hypothesis H2 : validate u w' v fname = (v2, Ok tt).
  Hypothesis Hf : dget fname w = Some (FHdf5 f).
  Hypothesis Hf' : dget fname w' = Some (FHdf5 f').
  Hypothesis Hr : reordered f f'.
  Hypothesis Hplain : plain_file f.
  Hypothesis Hd : distinct_names f.
  Hypothesis Hat : no_at_names f.
  Local Notation E := (u_env u).

  Let Hplain' : plain_file f' := reordered_plain _ _ Hr Hplain.
  Let fwd := twins u w w' v fname v1 v2 f f' H1 H2 Hf Hf' Hr Hplain Hd.
  Let uniq2 := unique2 u w' v fname v2 f f' H2 Hf' Hr Hplain Hd Hat.

  Lemma at_fwd : forall a it, catalogued_at v1 a it -> exists it', catalogued_at v2 a it' /\ twin it it'.
  Proof.
    intros a it C. destruct (at_listed u w v fname v1 H1 _ _ C) as [i [L Ea]]. destruct (fwd _ _ L) as [j [jt [M T]]]. exists jt. split; auto.
    destruct (validate_decompose _ _ _ _ _ H2) as [_ [_ [_ [s1 [s2 [s3 [s4 [l1 [l2 [l3 [l4 X]]]]]]]]]]]. destruct (entries _ _ _ _ _ _ _ _ _ _ _ _ _ X) as [A1 [A2 _]].
    pose proof (A2 _ _ M) as K. rewrite (tw_addr _ _ T), Ea in K. apply in_map_iff in K as [[b k] [Eb K]]. simpl in Eb. subst b. destruct (A1 _ _ K) as [kt [L' Ek]].
    assert (k = j). { eapply uniq2; eauto; [rewrite (tw_addr _ _ T)|]; congruence. } subst k. exists j. split; auto. apply M.
  Qed.

  Lemma node_file : forall a it h, catalogued_at v1 a it -> it_obj it = ONode h -> h_file h = fname.
  Proof.
    intros a it h C Ho. destruct (at_listed u w v fname v1 H1 _ _ C) as [i [L _]]. pose proof (obj_in_file u w v fname v1 f H1 Hf Hplain _ _ L) as X. rewrite Ho in X. exact X.
  Qed.

  Lemma points_fwd : forall h k t, h_file h = fname -> points_to E w h k t -> points_to E w' h k t.
  Proof. intros h k t Hh [p [s [A B]]]. exists p, s. rewrite <- (attr_same w w' fname f f' Hf Hf' Hr Hd h k Hh). auto. Qed.

  Lemma has_fwd : forall h t, h_file h = fname -> has_item w h t -> has_item w' h t.
  Proof. intros h t Hh X. unfold has_item in *. rewrite <- (py_in_same w w' fname f f' Hf Hf' Hr Hplain Hd h (VStr t) Hh). auto. Qed.

  Lemma signal_of_fwd : forall it it' e d hd, twin it it' -> signal_of v1 it e d hd -> signal_of v2 it' e d hd /\ h_file hd = fname.
  Proof.
    intros it it' e d hd T [A [B [C [D [F [dit [G I]]]]]]]. split.
    - repeat (split; [assumption|]). split; [rewrite (tw_addr _ _ T); auto|]. destruct (at_fwd _ _ G) as [dit' [J K]]. exists dit'. split; auto. rewrite (tw_obj _ _ K). auto.
    - eapply node_file; eauto.
  Qed.

  Lemma exists_fwd : forall it it' t, twin it it' -> signal_exists E w v1 it t -> signal_exists E w' v2 it' t.
  Proof.
    intros it it' t T [e [d [hd [A [B C]]]]]. destruct (signal_of_fwd _ _ _ _ _ T A) as [A' Hh]. exists e, d, hd. split; auto. split; [apply points_fwd; auto|apply has_fwd; auto].
  Qed.

  Lemma plots_fwd : forall it it' t, twin it it' -> signal_plots E w v1 it t -> signal_plots E w' v2 it' t.
  Proof.
    intros it it' t T [A [sit [h [B [C D]]]]]. split; [eapply exists_fwd; eauto|]. destruct (at_fwd _ _ B) as [sit' [B' T']]. exists sit', h. split; auto. split; [rewrite (tw_obj _ _ T'); auto|].
    rewrite <- (dataset_same w w' fname f f' Hf Hf' Hr h (node_file _ _ _ B C)). auto.
  Qed.

  Lemma default_fwd : forall a t, default_names E w v1 a t -> default_names E w' v2 a t.
  Proof.
    intros a t [it [h [A [B [C D]]]]]. destruct (at_fwd _ _ A) as [it' [A' T]]. pose proof (node_file _ _ _ A B) as Hh. exists it', h. split; auto. split; [rewrite (tw_obj _ _ T); auto|].
    split; [apply points_fwd; auto|apply has_fwd; auto].
  Qed.

  Lemma chain_fwd : forall it it', twin it it' -> default_chain E w v1 it -> default_chain E w' v2 it'.
  Proof. intros it it' T [e [d [hd [A [B C]]]]]. destruct (signal_of_fwd _ _ _ _ _ T A) as [A' _]. exists e, d, hd. split; auto. split; apply default_fwd; auto. Qed.

  Lemma listed_fwd : forall cp i it, listed_at v1 cp i it -> exists i' it', listed_at v2 cp i' it' /\ twin it it'.
  Proof.
    intros cp i it L. apply (listed_cp u w v fname v1 H1) in L as [L C]. destruct (fwd _ _ L) as [j [jt [M T]]]. exists j, jt. split; auto. apply (listed_cp u w' v fname v2 H2). split; auto. rewrite (tw_cp _ _ T). auto.
  Qed.

  Lemma chain_plot_fwd : forall i it, chain_plot E w v1 i it -> exists i' it', chain_plot E w' v2 i' it' /\ twin it it'.
  Proof.
    intros i it [A [[t B] C]]. destruct (listed_fwd _ _ _ A) as [j [jt [A' T]]]. exists j, jt. split; auto. split; auto. split; [exists t; eapply plots_fwd; eauto|eapply chain_fwd; eauto].
  Qed.

  Lemma field_fwd : forall i it pit gp, signal_field w v1 i it pit gp -> exists i' it' pit' gp', signal_field w' v2 i' it' pit' gp' /\ twin it it' /\ twin pit pit' /\ twin gp gp'.
  Proof.
    intros i it pit gp [[cp [L [d Ed]]] [[p [g [P1 [P2 [P3 P4]]]]] [[h [O1 O2]] S]]]. pose proof L as L0. apply (listed_cp u w v fname v1 H1) in L0 as [L0 C0].
    assert (N : it_cp it <> non_nexus) by (rewrite C0, Ed; apply signal_not_other).
    destruct (listed_fwd _ _ _ L) as [i' [it' [L' T]]]. pose proof L' as L2. apply (listed_cp u w' v fname v2 H2) in L2 as [L2 C2].
    destruct (parent_cp u w v fname v1 f H1 Hf Hplain _ _ _ _ L0 N P1 P2) as [LP NP].
    destruct (twin_parents u w w' v fname v1 v2 f f' H1 H2 Hf Hf' Hr Hplain Hd Hat _ _ _ _ _ L0 L2 T N P1) as [p' [pt [pt' [Q1 [Q2 [Q3 Q4]]]]]].
    assert (pt = pit) by (destruct Q2 as [Q2 _]; congruence). subst pt.
    destruct (twin_parents u w w' v fname v1 v2 f f' H1 H2 Hf Hf' Hr Hplain Hd Hat _ _ _ _ _ LP Q3 Q4 NP P3) as [g' [gt [gt' [R1 [R2 [R3 R4]]]]]].
    assert (gt = gp) by (destruct R2 as [R2 _]; congruence). subst gt.
    exists i', it', pt', gt'. split; [|auto]. split; [exists cp; split; [auto|exists d; auto]|].
    split; [exists p', g'; split; [auto|]; split; [apply Q3|]; split; [auto|apply R3]|]. split.
    - exists h. split; [rewrite (tw_obj _ _ Q4); auto|]. pose proof (obj_in_file u w v fname v1 f H1 Hf Hplain _ _ LP) as X. rewrite O1 in X. rewrite <- (dataset_same w w' fname f f' Hf Hf' Hr h X). auto.
    - rewrite (tw_obj _ _ T). auto.
  Qed.

  Lemma other_fwd : forall i it, other_signal w v1 i it -> exists i' it', other_signal w' v2 i' it' /\ twin it it'.
  Proof.
    intros i it [[cp [L [d Ed]]] [[p [pit [h [P1 [P2 [P3 P4]]]]]] S]]. pose proof L as L0. apply (listed_cp u w v fname v1 H1) in L0 as [L0 C0].
    assert (N : it_cp it <> non_nexus) by (rewrite C0, Ed; apply signal_not_other).
    destruct (listed_fwd _ _ _ L) as [i' [it' [L' T]]]. pose proof L' as L2. apply (listed_cp u w' v fname v2 H2) in L2 as [L2 C2].
    destruct (twin_parents u w w' v fname v1 v2 f f' H1 H2 Hf Hf' Hr Hplain Hd Hat _ _ _ _ _ L0 L2 T N P1) as [p' [pt [pt' [Q1 [Q2 [Q3 Q4]]]]]].
    assert (pt = pit) by (destruct Q2 as [Q2 _]; congruence). subst pt. exists i', it'. split; auto. split; [exists cp; split; [auto|exists d; auto]|]. split; [|rewrite (tw_obj _ _ T); auto].
    exists p', pt', h. split; [auto|]. split; [apply Q3|]. split; [rewrite (tw_obj _ _ Q4); auto|].
    pose proof (obj_in_file u w v fname v1 f H1 Hf Hplain _ _ Q2) as X. rewrite P3 in X. rewrite <- (dataset_same w w' fname f f' Hf Hf' Hr h X). auto.
  Qed.

  Lemma file_has_fwd : forall cls, file_has E w v1 cls -> file_has E w' v2 cls.
  Proof.
    intros cls [i [it [h [[A [B [C D]]] G]]]]. assert (X : exists a, it_addr it = Some a).
    { destruct (validate_decompose _ _ _ _ _ H1) as [_ [_ [_ [s1 [s2 [s3 [s4 [l1 [l2 [l3 [l4 X]]]]]]]]]]]. destruct (entries _ _ _ _ _ _ _ _ _ _ _ _ _ X) as [A1 _]. destruct (A1 _ _ A) as [it0 [L _]].
      assert (it0 = it) by (destruct L as [L _]; congruence). subst it0. destruct (it_addr it) as [a|] eqn:Ea; eauto. apply (addr_kind u w v fname v1 f H1 Hf Hplain _ _ L) in Ea as [[x Ex] _]. congruence. }
    destruct X as [a Ea]. rewrite Ea in A. assert (CA : catalogued_at v1 a it) by (exists i; auto). destruct (at_fwd _ _ CA) as [it' [[j [K1 K2]] T]]. pose proof (node_file _ _ _ CA C) as Hh.
    exists j, it', h. split; [split; [rewrite (tw_addr _ _ T), Ea; auto|]; split; [auto|]; split; [rewrite (tw_obj _ _ T); auto|rewrite <- (isgroup_same w w' fname f f' Hf Hf' Hr h Hh); auto]|].
    eapply class_iff; [exact Hf|exact Hf'|exact Hr|exact Hd|exact T|exact Hh|exact G] || (eapply (class_iff E w w' fname f f'); eauto).
  Qed.
End Half.

(** ** Lists *)
Lemma filter_perm : forall A (p : A -> bool) l m, Permutation l m -> Permutation (filter p l) (filter p m).
Proof.
  intros A p l m H. induction H as [|x l m H IH|x y l|l m n H1 IH1 H2 IH2]; cbn [filter]; auto.
  - destruct (p x); auto.
  - destruct (p y), (p x); auto. constructor.
  - etransitivity; eauto.
Qed.

Lemma filter_both : forall A (p q : A -> bool) l, filter (fun x => p x && q x) l = filter p (filter q l).
Proof. intros A p q l. induction l as [|x l IH]; cbn [filter]; auto. destruct (q x) eqn:Eq; cbn [filter]; destruct (p x); cbn [andb]; rewrite ?IH; auto. Qed.

Lemma perm_by_test : forall l m : list finding, (forall t, Permutation (filter (fun f => str_eqb (f_test f) t) l) (filter (fun f => str_eqb (f_test f) t) m)) -> Permutation l m.
Proof. intros l m H. apply perm_by_key. intros a t. rewrite !(filter_both _ (fun f => ostr_eqb (f_addr f) a)). apply filter_perm. auto. Qed.

(** what is reported about the elements that matter *)
Lemma F2_drop : forall A B (P : A -> list B -> Prop) (keep : A -> bool) l fs, Forall2 P l fs -> (forall x y, keep x = false -> P x y -> y = []) ->
  exists gs, Forall2 P (filter keep l) gs /\ List.concat fs = List.concat gs.
Proof.
  intros A B P keep l fs H K. induction H as [|x y l fs Hxy H [gs [G1 G2]]]; [exists []; simpl; auto|]. cbn [filter]. destruct (keep x) eqn:Ek.
  - exists (y :: gs). split; auto. cbn [List.concat]. rewrite G2. auto.
  - rewrite (K _ _ Ek Hxy). exists gs. auto.
Qed.

(** ** Both ways *)
Section Both.
  Variables (u : setup) (w w' : world) (v : validator) (fname : pystr) (v1 v2 : validator) (f f' : h5file).
  Hypothesis H1 : validate u w v fname = (v1, Ok tt).
  Hypothesis H2 : validate u w' v fname = (v2, Ok tt).
  Hypothesis Hf : dget fname w = Some (FHdf5 f).
  Hypothesis Hf' : dget fname w' = Some (FHdf5 f').
  Hypothesis Hr : reordered f f'.
  Hypothesis Hplain : plain_file f.
  Hypothesis Hd : distinct_names f.
  Hypothesis Hat : no_at_names f.
  Local Notation E := (u_env u).

  Let Hplain' : plain_file f' := reordered_plain _ _ Hr Hplain.
  Let Hd' : distinct_names f' := reordered_distinct _ _ Hr Hd.
  Let Hat' : no_at_names f' := reordered_at _ _ Hr Hat.
  Let Hr' : reordered f' f := reordered_sym _ _ Hr.
  Let fwd := twins u w w' v fname v1 v2 f f' H1 H2 Hf Hf' Hr Hplain Hd.
  Let bwd := twins u w' w v fname v2 v1 f' f H2 H1 Hf' Hf Hr' Hplain' Hd'.
  Let uniq2 := unique2 u w' v fname v2 f f' H2 Hf' Hr Hplain Hd Hat.
  Let uniq1 := unique2 u w v fname v1 f' f H1 Hf Hr' Hplain' Hd' Hat'.
  Let listed_b := listed_fwd u w' w v fname v2 v1 f' f H2 H1 Hf' Hf Hr' Hplain' Hd'.
  Let field_f := field_fwd u w w' v fname v1 v2 f f' H1 H2 Hf Hf' Hr Hplain Hd Hat.
  Let field_b := field_fwd u w' w v fname v2 v1 f' f H2 H1 Hf' Hf Hr' Hplain' Hd' Hat'.
  Let other_f := other_fwd u w w' v fname v1 v2 f f' H1 H2 Hf Hf' Hr Hplain Hd Hat.
  Let exists_f := exists_fwd u w w' v fname v1 v2 f f' H1 H2 Hf Hf' Hr Hplain Hd Hat.
  Let plots_f := plots_fwd u w w' v fname v1 v2 f f' H1 H2 Hf Hf' Hr Hplain Hd Hat.
  Let chain_f := chain_plot_fwd u w w' v fname v1 v2 f f' H1 H2 Hf Hf' Hr Hplain Hd Hat.
  Let chain_b := chain_plot_fwd u w' w v fname v2 v1 f' f H2 H1 Hf' Hf Hr' Hplain' Hd' Hat'.

  (** the same item in both *)
  Definition pair_of (i j : nat) : Prop := exists it jt, listed v1 i it /\ listed v2 j jt /\ twin it jt /\ it_addr it <> None.

  Lemma pair_right : forall i j j', pair_of i j -> pair_of i j' -> j = j'.
  Proof.
    intros i j j' [it [jt [L [M [T N]]]]] [it' [jt' [L' [M' [T' N']]]]]. assert (it' = it) by (destruct L as [L _]; destruct L' as [L' _]; congruence). subst it'.
    eapply uniq2; eauto; rewrite (tw_addr _ _ T); auto. rewrite (tw_addr _ _ T'). reflexivity.
  Qed.
  Lemma pair_left : forall i i' j, pair_of i j -> pair_of i' j -> i = i'.
  Proof.
    intros i i' j [it [jt [L [M [T N]]]]] [it' [jt' [L' [M' [T' N']]]]]. assert (jt' = jt) by (destruct M as [M _]; destruct M' as [M' _]; congruence). subst jt'.
    eapply uniq1; eauto. rewrite <- (tw_addr _ _ T), <- (tw_addr _ _ T'). reflexivity.
  Qed.

  Lemma pair_made : forall cp i it j jt, listed_at v1 cp i it -> listed v2 j jt -> twin it jt -> cp <> non_nexus -> pair_of i j.
  Proof.
    intros cp i it j jt A M T N. apply (listed_cp u w v fname v1 H1) in A as [L C]. exists it, jt. repeat (split; [assumption|]). apply (item_nonempty u w v fname v1 f H1 Hf Hplain _ _ L). congruence.
  Qed.

  Lemma listed_of : forall W V, validate u W v fname = (V, Ok tt) -> forall cp i it, listed_at V cp i it -> listed V i it.
  Proof. intros W V HV cp i it A. apply (listed_cp u W v fname V HV) in A. tauto. Qed.

  Lemma field_pair : forall i it pit gp i' it' pit' gp', signal_field w v1 i it pit gp -> signal_field w' v2 i' it' pit' gp' -> twin it it' -> pair_of i i'.
  Proof.
    intros i it pit gp i' it' pit' gp' [[cp [A [d Ed]]] _] [[cp' [B _]] _] T. eapply pair_made; [exact A|eapply listed_of; [exact H2|exact B]|exact T|]. rewrite Ed. apply signal_not_other.
  Qed.

  Lemma field_at : forall i j it pit gp, pair_of i j -> signal_field w v1 i it pit gp -> exists it' pit' gp', signal_field w' v2 j it' pit' gp' /\ twin it it' /\ twin pit pit' /\ twin gp gp'.
  Proof.
    intros i j it pit gp P S. destruct (field_f _ _ _ _ S) as [i' [it' [pit' [gp' [A [B [C D]]]]]]]. assert (i' = j) by (eapply pair_right; [eapply field_pair; eauto|exact P]). subst i'.
    exists it', pit', gp'. auto.
  Qed.

  Lemma other_at : forall i j it, pair_of i j -> other_signal w v1 i it -> exists it', other_signal w' v2 j it' /\ twin it it'.
  Proof.
    intros i j it P S. destruct (other_f _ _ S) as [i' [it' [A B]]]. assert (i' = j).
    { eapply pair_right; [|exact P]. destruct S as [[cp [S1 [d Ed]]] _]. destruct A as [[cp' [A1 _]] _]. eapply pair_made; [exact S1|eapply listed_of; [exact H2|exact A1]|exact B|]. rewrite Ed. apply signal_not_other. }
    subst i'. exists it'. auto.
  Qed.

  Lemma only_at : forall i j it pit gp, pair_of i j -> only_signal_field w v1 i it pit gp -> exists it' pit' gp', only_signal_field w' v2 j it' pit' gp' /\ twin it it' /\ twin pit pit'.
  Proof.
    intros i j it pit gp P [S O]. destruct (field_at _ _ _ _ _ P S) as [it' [pit' [gp' [A [B [C D]]]]]]. exists it', pit', gp'. split; [|auto]. split; auto.
    intros k kt pkt gk K Ek. destruct (field_b _ _ _ _ K) as [k' [kt' [pkt' [gk' [F [G [I J]]]]]]]. assert (k' = i). { eapply O; eauto. rewrite (tw_addr _ _ J), Ek, (tw_addr _ _ D). auto. } subst k'.
    eapply pair_right; [|exact P]. eapply field_pair; [exact F|exact K|]. apply twin_sym. auto.
  Qed.

  Lemma only_fwd : forall i it pit gp, only_signal_field w v1 i it pit gp -> exists j it' pit' gp', only_signal_field w' v2 j it' pit' gp' /\ pair_of i j /\ twin pit pit'.
  Proof.
    intros i it pit gp S. destruct (field_f _ _ _ _ (proj1 S)) as [j [it' [pit' [gp' [A [B [C D]]]]]]]. assert (P : pair_of i j) by (eapply field_pair; [exact (proj1 S)|exact A|auto]).
    destruct (only_at _ _ _ _ _ P S) as [a [b [c [F [G I]]]]]. exists j, a, b, c. auto.
  Qed.

  Lemma several_fwd : forall a, several_signal_fields w v1 a -> several_signal_fields w' v2 a.
  Proof.
    intros a [i [it [pit [gp [j [jt [pjt [gj [N [A [B [C D]]]]]]]]]]]]. destruct (field_f _ _ _ _ A) as [i' [it' [pit' [gp' [A1 [A2 [A3 A4]]]]]]]. destruct (field_f _ _ _ _ B) as [j' [jt' [pjt' [gj' [B1 [B2 [B3 B4]]]]]]].
    exists i', it', pit', gp', j', jt', pjt', gj'. split; [|rewrite (tw_addr _ _ A4), (tw_addr _ _ B4); auto]. intros ->. apply N. eapply pair_left; [eapply field_pair; [exact A|exact A1|exact A2]|eapply field_pair; [exact B|exact B1|exact B2]].
  Qed.

  Definition all_exist (W : world) (V : validator) : Prop := forall i it, listed_at V signal_path i it -> exists t, signal_exists E W V it t.

  Lemma all_exist_fwd : all_exist w v1 -> all_exist w' v2.
  Proof. intros A i it L. destruct (listed_b _ _ _ L) as [j [jt [M T]]]. destruct (A _ _ M) as [t X]. exists t. eapply exists_f; [|exact X]. apply twin_sym. auto. Qed.

  Lemma v3_fwd : v3_found E w v1 -> v3_found E w' v2.
  Proof.
    intros [A [i [it [t [B C]]]]]. split; [apply all_exist_fwd; exact A|]. destruct (listed_fwd u w w' v fname v1 v2 f f' H1 H2 Hf Hf' Hr Hplain Hd _ _ _ B) as [j [jt [M T]]]. exists j, jt, t. split; auto. eapply plots_f; eauto.
  Qed.

  Lemma v2_fwd : v2_found w v1 -> v2_found w' v2.
  Proof. intros [i [it [pit [gp S]]]]. destruct (only_fwd _ _ _ _ S) as [j [a [b [c [X _]]]]]. exists j, a, b, c. auto. Qed.

  Lemma chain_pair : forall i it i' it', chain_plot E w v1 i it -> chain_plot E w' v2 i' it' -> twin it it' -> pair_of i i'.
  Proof. intros i it i' it' [A _] [B _] T. eapply pair_made; [exact A|eapply listed_of; [exact H2|exact B]|exact T|exact path_not_other]. Qed.

  Lemma only_chain_fwd : forall i it, only_chain_plot E w v1 i it -> exists j jt, only_chain_plot E w' v2 j jt /\ twin it jt.
  Proof.
    intros i it [A O]. destruct (chain_f _ _ A) as [j [jt [B T]]]. exists j, jt. split; auto. split; auto. intros k kt K. destruct (chain_b _ _ K) as [k' [kt' [K' T']]].
    assert (k' = i) by (eapply O; eauto). subst k'. eapply pair_right; [eapply chain_pair; [exact K'|exact K|apply twin_sym; auto]|eapply chain_pair; [exact A|exact B|auto]].
  Qed.

  Lemma item_report_fun : forall i j a b, pair_of i j -> v2_item_report w v1 i a -> v2_item_report w' v2 j b -> (a = [] -> b = []) /\ (a <> [] -> a = b).
  Proof.
    intros i j a b P [it pit gp ad S Ea|it ad S Ea|S1 S2] B.
    - split; [discriminate|]. intros _. destruct (field_at _ _ _ _ _ P S) as [it' [pit' [gp' [A [T _]]]]]. destruct B as [jt pjt gj bd S' Eb|jt bd S' Eb|S1 S2].
      + assert (jt = it') by (destruct S' as [[c1 [[X _] _]] _]; destruct A as [[c2 [[Y _] _]] _]; congruence). subst jt. pose proof (tw_addr _ _ T). assert (bd = ad) by congruence. subst bd. reflexivity.
      + destruct S' as [[c1 [[X _] _]] [_ S']]. destruct A as [[c2 [[Y _] _]] [_ [_ A]]]. exfalso. apply S'. congruence.
      + exfalso. eapply S1; eauto.
    - split; [discriminate|]. intros _. destruct (other_at _ _ _ P S) as [it' [A T]]. destruct B as [jt pjt gj bd S' Eb|jt bd S' Eb|S1 S2].
      + destruct S' as [[c1 [[X _] _]] [_ [_ S']]]. destruct A as [[c2 [[Y _] _]] [_ A]]. exfalso. apply A. congruence.
      + assert (jt = it') by (destruct S' as [[c1 [[X _] _]] _]; destruct A as [[c2 [[Y _] _]] _]; congruence). subst jt. pose proof (tw_addr _ _ T). assert (bd = ad) by congruence. subst bd. rewrite (tw_obj _ _ T). reflexivity.
      + exfalso. eapply S2; eauto.
    - split; [|congruence]. intros _. destruct P as [it [jt [L [M [T N]]]]]. destruct B as [it' pit gp ad S Ea|it' ad S Ea|? ?]; auto; exfalso.
      + destruct (field_b _ _ _ _ S) as [k [kt [pkt [gk [K [T' _]]]]]]. assert (k = i). { eapply pair_left with (j := j); [eapply field_pair; [exact K|exact S|apply twin_sym; auto]|exists it, jt; auto]. } subst k. eapply S1; eauto.
      + destruct (other_fwd u w' w v fname v2 v1 f' f H2 H1 Hf' Hf Hr' Hplain' Hd' Hat' _ _ S) as [k [kt [K T']]]. assert (k = i).
        { eapply pair_left with (j := j); [|exists it, jt; auto]. destruct K as [[cp [S3 [d Ed]]] _]. destruct S as [[cp' [A1 _]] _]. eapply pair_made; [exact S3|eapply listed_of; [exact H2|exact A1]|apply twin_sym; exact T'|]. rewrite Ed. apply signal_not_other. }
        subst k. eapply S2; eauto.
  Qed.

  Lemma plot_report_fun : forall i j a b, pair_of i j -> v2_plot_report w v1 i a -> v2_plot_report w' v2 j b -> a <> [] -> a = b.
  Proof.
    intros i j a b P [it pit gp ad S Ea|S1] B; [|congruence]. intros _. destruct (only_at _ _ _ _ _ P S) as [it' [pit' [gp' [A [T _]]]]]. destruct B as [jt pjt gj bd S' Eb|S1].
    - assert (jt = it') by (destruct S' as [[[c1 [[X _] _]] _] _]; destruct A as [[[c2 [[Y _] _]] _] _]; congruence). subst jt. pose proof (tw_addr _ _ T). assert (bd = ad) by congruence. subst bd. reflexivity.
    - exfalso. eapply S1; eauto.
  Qed.
End Both.

(** ** The findings about default plots *)
Definition addressed (V : validator) (i : nat) : bool :=
  match nth_error (st_items (v_st V)) i with Some it => match it_addr it with Some _ => true | None => false end | None => false end.

(** the findings about one listed @signal, when all of them name something *)
Definition signal_report (E : env) (W : world) (V : validator) (i : nat) (fs : list finding) : Prop :=
  exists it, nth_error (st_items (v_st V)) i = Some it
    /\ (((exists t, signal_plots E W V it t) /\ it_addr it <> None /\ fs = [mkF (it_addr it) v3_test OK (py "correct default plot setup in /NXentry/NXdata")])
        \/ ((forall t, ~ signal_plots E W V it t) /\ fs = [])).

Lemma v3_report_items : forall E W V l fs, v3_report E W V l fs -> (forall i it, In i l -> nth_error (st_items (v_st V)) i = Some it -> (exists t, signal_exists E W V it t) /\ it_addr it <> None) ->
  exists gss, Forall2 (signal_report E W V) l gss /\ fs = List.concat gss.
Proof.
  intros E W V l fs H. induction H as [|i l it A B|i l it fs A B C H IH|i l it fs A B H IH]; intros X.
  - exists []. auto.
  - destruct (X i it (or_introl eq_refl) A) as [[t Y] _]. destruct (B _ Y).
  - destruct (IH (fun i it Hi => X i it (or_intror Hi))) as [gss [G1 G2]]. exists ([] :: gss). split; auto. constructor; auto. exists it. auto.
  - destruct (IH (fun i it Hi => X i it (or_intror Hi))) as [gss [G1 G2]]. exists ([mkF (it_addr it) v3_test OK (py "correct default plot setup in /NXentry/NXdata")] :: gss). split; [|cbn [List.concat app]; congruence].
    constructor; auto. exists it. split; auto. left. split; auto. split; auto. apply (X i it (or_introl eq_refl) A).
Qed.

Section Final.
  Variables (u : setup) (w w' : world) (v : validator) (fname : pystr) (v1 v2 : validator) (f f' : h5file).
  Hypothesis H1 : validate u w v fname = (v1, Ok tt).
  Hypothesis H2 : validate u w' v fname = (v2, Ok tt).
  Hypothesis Hf : dget fname w = Some (FHdf5 f).
  Hypothesis Hf' : dget fname w' = Some (FHdf5 f').
  Hypothesis Hr : reordered f f'.
  Hypothesis Hplain : plain_file f.
  Hypothesis Hd : distinct_names f.
  Hypothesis Hat : no_at_names f.
  Local Notation E := (u_env u).

  Let Hplain' : plain_file f' := reordered_plain _ _ Hr Hplain.
  Let Hd' : distinct_names f' := reordered_distinct _ _ Hr Hd.
  Let Hat' : no_at_names f' := reordered_at _ _ Hr Hat.
  Let Hr' : reordered f' f := reordered_sym _ _ Hr.
  Let fwd := twins u w w' v fname v1 v2 f f' H1 H2 Hf Hf' Hr Hplain Hd.
  Let bwd := twins u w' w v fname v2 v1 f' f H2 H1 Hf' Hf Hr' Hplain' Hd'.
  Local Notation both L := (L u w w' v fname v1 v2 f f' H1 H2 Hf Hf' Hr Hplain Hd Hat).
  Local Notation back L := (L u w' w v fname v2 v1 f' f H2 H1 Hf' Hf Hr' Hplain' Hd' Hat').
  Local Notation pairs := (pair_of v1 v2).

  Lemma pair_sym : forall i j, pairs i j -> pair_of v2 v1 j i.
  Proof. intros i j [it [jt [L [M [T N]]]]]. exists jt, it. split; auto. split; auto. split; [apply twin_sym; auto|]. rewrite (tw_addr _ _ T). auto. Qed.

  Lemma addressed_some : forall V i it, listed V i it -> addressed V i = true <-> it_addr it <> None.
  Proof. intros V i it [L _]. unfold addressed. rewrite L. destruct (it_addr it); split; congruence. Qed.

  (** what is reported about the items with an address *)
  Lemma items_matched : forall (P Q : nat -> list finding -> Prop) (l m : list nat) fs gs, NoDup l -> NoDup m ->
    (forall i j, pairs i j -> In i l <-> In j m) -> (forall i, In i l -> exists it, listed v1 i it) -> (forall i, In i m -> exists it, listed v2 i it) ->
    (forall i x, addressed v1 i = false -> P i x -> x = []) -> (forall i x, addressed v2 i = false -> Q i x -> x = []) ->
    (forall i j x y, pairs i j -> P i x -> Q j y -> x = y) -> Forall2 P l fs -> Forall2 Q m gs -> Permutation (List.concat fs) (List.concat gs).
  Proof.
    intros P Q l m fs gs Nl Nm HP Ll Lm PN QN PQ F G. destruct (F2_drop _ _ P (addressed v1) l fs F PN) as [fs' [F' ->]]. destruct (F2_drop _ _ Q (addressed v2) m gs G QN) as [gs' [G' ->]].
    refine (matched _ _ _ pairs P Q _ _ fs' gs' (NoDup_filter _ Nl) (NoDup_filter _ Nm) _ _ _ _ F' G' _).
    - intros i Hi. apply filter_In in Hi as [Hi A]. destruct (Ll _ Hi) as [it L]. destruct (fwd _ _ L) as [j [jt [M T]]]. apply (addressed_some _ _ _ L) in A.
      assert (X : pairs i j) by (exists it, jt; auto). exists j. split; auto. apply filter_In. split; [apply (HP i j X); auto|]. apply (addressed_some _ _ _ M). rewrite (tw_addr _ _ T). auto.
    - intros j Hj. apply filter_In in Hj as [Hj A]. destruct (Lm _ Hj) as [jt M]. destruct (bwd _ _ M) as [i [it [L T]]]. apply (addressed_some _ _ _ M) in A.
      assert (B : it_addr it <> None) by (rewrite (tw_addr _ _ T); auto). assert (X : pairs i j) by (exists it, jt; split; auto; split; auto; split; auto; apply twin_sym; auto).
      exists i. split; auto. apply filter_In. split; [apply (HP i j X); auto|]. apply (addressed_some _ _ _ L). auto.
    - intros i i' j _ _. apply (pair_left u w v fname v1 v2 f f' H1 Hf Hr Hplain Hd Hat).
    - intros i j j' _ _. apply (pair_right u w' v fname v1 v2 f f' H2 Hf' Hr Hplain Hd Hat).
    - intros i j x y _ _ X Px Qy. rewrite (PQ _ _ _ _ X Px Qy). auto.
  Qed.

  Lemma all_matched : forall (P Q : nat -> list finding -> Prop) fs gs,
    (forall i x, addressed v1 i = false -> P i x -> x = []) -> (forall i x, addressed v2 i = false -> Q i x -> x = []) ->
    (forall i j x y, pairs i j -> P i x -> Q j y -> x = y) -> Forall2 P (all_items v1) fs -> Forall2 Q (all_items v2) gs -> Permutation (List.concat fs) (List.concat gs).
  Proof.
    intros P Q fs gs PN QN PQ F G. refine (items_matched P Q _ _ fs gs _ _ _ _ _ PN QN PQ F G).
    - apply (cp_facts u w v fname v1 H1).
    - apply (cp_facts u w' v fname v2 H2).
    - intros i j [it [jt [L [M _]]]]. rewrite (all_listed u w v fname v1 H1), (all_listed u w' v fname v2 H2). split; eauto.
    - intros i. apply (all_listed u w v fname v1 H1).
    - intros i. apply (all_listed u w' v fname v2 H2).
  Qed.

  Lemma item_report_none : forall W V i x, addressed V i = false -> v2_item_report W V i x -> x = [].
  Proof.
    intros W V i x A [it pit gp a S Ea|it a S Ea|S1 S2]; auto; exfalso; destruct S as [[cp [[X _] _]] _]; unfold addressed in A; rewrite X, Ea in A; discriminate.
  Qed.
  Lemma plot_report_none : forall W V i x, addressed V i = false -> v2_plot_report W V i x -> x = [].
  Proof. intros W V i x A [it pit gp a S Ea|S1]; auto; exfalso. destruct S as [[[cp [[X _] _]] _] _]. unfold addressed in A. rewrite X, Ea in A. discriminate. Qed.

  Lemma v3_iff : v3_found E w v1 <-> v3_found E w' v2.
  Proof. split; [apply (both v3_fwd)|apply (back v3_fwd)]. Qed.
  Lemma v2_iff : v2_found w v1 <-> v2_found w' v2.
  Proof. split; [apply (both v2_fwd)|apply (back v2_fwd)]. Qed.

  Lemma v3_dec : forall W V, validate u W v fname = (V, Ok tt) -> v3_found E W V \/ ~ v3_found E W V.
  Proof. intros W V HV. destruct (verdict_final u W v fname V HV) as [g [_ [a A B|a A B C|st A B C]]]; auto. Qed.

  (** *** version 2 *)
  Lemma several_perm : forall l m, Forall several_finding l -> Forall several_finding m -> NoDup (map f_addr l) -> NoDup (map f_addr m) ->
    (forall a, In a (map f_addr l) <-> In a (map f_addr m)) -> Permutation l m.
  Proof.
    intros l m Fl Fm Nl Nm X. apply NoDup_Permutation; [exact (NoDup_map_inv _ _ Nl)|exact (NoDup_map_inv _ _ Nm)|].
    assert (Y : forall l m, Forall several_finding l -> Forall several_finding m -> (forall a, In a (map f_addr l) -> In a (map f_addr m)) -> forall x, In x l -> In x m).
    { intros k n Fk Fn Z x Hx. assert (A : In (f_addr x) (map f_addr n)) by (apply Z; apply in_map; auto). apply in_map_iff in A as [y [Ey Hy]]. rewrite Forall_forall in Fk, Fn.
      destruct (Fk _ Hx) as [a Ex]. destruct (Fn _ Hy) as [b Eb]. rewrite Ex, Eb in Ey. cbn [f_addr] in Ey. assert (b = a) by congruence. subst b. rewrite Ex, <- Eb. auto. }
    intros x. split; [apply (Y l m)|apply (Y m l)]; auto; intros a; apply X.
  Qed.

  Lemma of_tests_in : forall V ts t, existsb (str_eqb t) ts = true -> of_test V t = filter (fun g => str_eqb (f_test g) t) (of_tests V ts).
  Proof.
    intros V ts t H. unfold of_test, of_tests. rewrite <- filter_both. apply filter_ext_in. intros g _. destruct (str_eqb (f_test g) t) eqn:Eg; cbn [andb]; auto. apply str_eqb_eq in Eg. rewrite Eg. auto.
  Qed.

  Lemma v2_perm : forall t, In t [signal_1_test; signal_not_1_test; v2_test; several_test] -> Permutation (of_test v1 t) (of_test v2 t).
  Proof.
    intros t Ht. assert (Ht' : existsb (str_eqb t) [signal_1_test; signal_not_1_test; v2_test; several_test] = true).
    { apply existsb_exists. exists t. split; auto. apply str_eqb_refl. }
    destruct (v3_dec w v1 H1) as [F|F].
    - rewrite !(of_tests_in _ _ _ Ht'). rewrite (v2_findings_none u w v fname v1 H1 F), (v2_findings_none u w' v fname v2 H2 (proj1 v3_iff F)). auto.
    - assert (F' : ~ v3_found E w' v2) by (rewrite <- v3_iff; auto).
      destruct (v2_findings u w v fname v1 H1 F) as [[g1 [A1 B1]] [[p1 [C1 D1]] [S1 [N1 L1]]]]. destruct (v2_findings u w' v fname v2 H2 F') as [[g2 [A2 B2]] [[p2 [C2 D2]] [S2 [N2 L2]]]].
      assert (P12 : Permutation (of_tests v1 [signal_1_test; signal_not_1_test]) (of_tests v2 [signal_1_test; signal_not_1_test])).
      { rewrite B1, B2. refine (all_matched _ _ g1 g2 (item_report_none w v1) (item_report_none w' v2) _ A1 A2).
        intros i j x y P X Y. destruct (both item_report_fun i j x y P X Y) as [U V]. destruct x as [|z x]; [rewrite U; auto|apply V; discriminate]. }
      destruct Ht as [<-|[<-|[<-|[<-|[]]]]].
      + rewrite !(of_tests_in _ [signal_1_test; signal_not_1_test] signal_1_test) by reflexivity. apply filter_perm. auto.
      + rewrite !(of_tests_in _ [signal_1_test; signal_not_1_test] signal_not_1_test) by reflexivity. apply filter_perm. auto.
      + rewrite D1, D2. refine (all_matched _ _ p1 p2 (plot_report_none w v1) (plot_report_none w' v2) _ C1 C2).
        intros i j x y P X Y. destruct x as [|z x]; [|apply (both plot_report_fun i j _ _ P X Y); discriminate]. destruct y as [|z y]; auto.
        symmetry. apply (back plot_report_fun j i _ _ (pair_sym _ _ P) Y X). discriminate.
      + apply several_perm; auto. intros a. rewrite L1, L2. split; [apply (both several_fwd)|apply (back several_fwd)].
  Qed.

  (** *** version 3 *)
  Lemma niac_same : of_test v1 niac_test = of_test v2 niac_test.
  Proof.
    pose proof (niac_findings u w v fname v1 H1) as A. pose proof (niac_findings u w' v fname v2 H2) as B.
    remember (of_test v1 niac_test) as x eqn:Ex. remember (of_test v2 niac_test) as y eqn:Ey. clear Ex Ey.
    destruct A as [i it A1 A2|j jt A1 A2|A1].
    - destruct (both only_chain_fwd _ _ A2) as [j [jt [B2 T]]]. pose proof (both all_exist_fwd A1) as X. destruct B as [k kt B1 B3|k kt B1 B3|B1].
      + assert (k = j) by exact (proj2 B2 k kt (proj1 B3)). subst k. assert (kt = jt) by (destruct B3 as [[[Y _] _] _]; destruct B2 as [[[Z _] _] _]; congruence). subst kt. rewrite (tw_addr _ _ T). auto.
      + exfalso. destruct (X _ _ B1) as [t Z]. exact (B3 _ Z).
      + exfalso. exact (B1 _ _ B2).
    - destruct B as [k kt B1 B3|k kt B1 B3|B1]; auto. exfalso. destruct (back all_exist_fwd B1 _ _ A1) as [t Z]. exact (A2 _ Z).
    - destruct B as [k kt B1 B3|k kt B1 B3|B1]; auto. exfalso. destruct (back only_chain_fwd _ _ B3) as [j [jt [B2 T]]]. exact (A1 _ _ B2).
  Qed.

  Lemma v3_list : forall W V, validate u W v fname = (V, Ok tt) -> v3_report E W V (items_at V signal_path) (of_test V v3_test)
    /\ NoDup (items_at V signal_path) /\ forall i, In i (items_at V signal_path) <-> exists it, listed V i it /\ it_cp it = signal_path.
  Proof.
    intros W V HV. destruct (validate_decompose _ _ _ _ _ HV) as [_ [_ [_ [s1 [s2 [s3 [s4 [l1 [l2 [l3 [l4 X]]]]]]]]]]]. split; [|eapply items_at_spec; exact X].
    destruct (v3_findings u W v fname V HV) as [A B]. unfold items_at. destruct (dget signal_path (st_cp (v_st V))) as [l|] eqn:El.
    - apply A. apply dget_In. auto.
    - rewrite B; [constructor|]. intros Y. apply in_map_iff in Y as [[k l] [Ek Y]]. simpl in Ek. subst k. rewrite (WholeFacts.In_dget _ _ _ (proj1 (cp_facts u W v fname V HV)) Y) in El. discriminate.
  Qed.

  Lemma signal_same : forall i j x y, pairs i j -> signal_report E w v1 i x -> signal_report E w' v2 j y -> x = y.
  Proof.
    intros i j x y [it [jt [L [M [T N]]]]] [it' [A B]] [jt' [C D]]. assert (it' = it) by (destruct L as [L _]; congruence). subst it'. assert (jt' = jt) by (destruct M as [M _]; congruence). subst jt'.
    rewrite (tw_addr _ _ T) in D. destruct B as [[[t B] [_ ->]]|[B ->]], D as [[[s D] [_ ->]]|[D ->]]; auto; exfalso.
    - apply (D t). eapply (both plots_fwd); eauto.
    - apply (B s). eapply (back plots_fwd); [apply twin_sym; eauto|eauto].
  Qed.

  Lemma signal_none : forall W V i x, addressed V i = false -> signal_report E W V i x -> x = [].
  Proof. intros W V i x A [it [B [[_ [C _]]|[_ C]]]]; auto. exfalso. unfold addressed in A. rewrite B in A. destruct (it_addr it); congruence. Qed.

  Lemma v3_perm : all_exist u w v1 -> Permutation (of_test v1 v3_test) (of_test v2 v3_test).
  Proof.
    intros X. pose proof (both all_exist_fwd X) as X'. destruct (v3_list w v1 H1) as [R1 [N1 S1]]. destruct (v3_list w' v2 H2) as [R2 [N2 S2]].
    assert (Y : forall W V F, validate u W v fname = (V, Ok tt) -> dget fname W = Some (FHdf5 F) -> plain_file F -> (forall i, In i (items_at V signal_path) <-> exists it, listed V i it /\ it_cp it = signal_path) -> all_exist u W V ->
      forall i it, In i (items_at V signal_path) -> nth_error (st_items (v_st V)) i = Some it -> (exists t, signal_exists E W V it t) /\ it_addr it <> None).
    { intros W V F HV HW HP S A i it Hi Hn. apply S in Hi as [it' [L C]]. assert (it' = it) by (destruct L as [L _]; congruence). subst it'. split; [apply (A i it); apply (listed_cp u W v fname V HV); auto|].
      apply (item_nonempty u W v fname V F HV HW HP _ _ L). rewrite C. exact path_not_other. }
    destruct (v3_report_items _ _ _ _ _ R1 (Y _ _ _ H1 Hf Hplain S1 X)) as [g1 [G1 ->]]. destruct (v3_report_items _ _ _ _ _ R2 (Y _ _ _ H2 Hf' Hplain' S2 X')) as [g2 [G2 ->]].
    refine (items_matched (fun i g => signal_report E w v1 i g) (fun i g => signal_report E w' v2 i g) _ _ g1 g2 N1 N2 _ _ _ (signal_none w v1) (signal_none w' v2) signal_same G1 G2).
    - intros i j [it [jt [L [M [T N]]]]]. rewrite S1, S2. split; intros [kt [K C]].
      + exists jt. split; auto. rewrite (tw_cp _ _ T). assert (kt = it) by (destruct K as [K _]; destruct L as [L _]; congruence). subst kt. auto.
      + exists it. split; auto. rewrite <- (tw_cp _ _ T). assert (kt = jt) by (destruct K as [K _]; destruct M as [M _]; congruence). subst kt. auto.
    - intros i Hi. apply S1 in Hi as [it [L _]]. eauto.
    - intros i Hi. apply S2 in Hi as [it [L _]]. eauto.
  Qed.

  (** *** The verdict *)
  Lemma file_has_iff : forall cls, file_has E w v1 cls <-> file_has E w' v2 cls.
  Proof. intros cls. split; [apply (both file_has_fwd)|apply (back file_has_fwd)]. Qed.

  Lemma needs_iff : forall d g, dget (py "NXentry") (st_classes (v_st v)) = Some d -> NoDup (map fst (d_groups d)) -> dget (py "data") (d_groups d) = Some g ->
    needs_data (st_classes (v_st v1)) <-> needs_data (st_classes (v_st v2)).
  Proof.
    intros d g HD ND HG. destruct (run_minimum u w v fname v1 H1 d g HD ND HG) as [d1 [g1 [A1 [B1 C1]]]]. destruct (run_minimum u w' v fname v2 H2 d g HD ND HG) as [d2 [g2 [A2 [B2 C2]]]].
    assert (X : g_minOccurs g1 = g_minOccurs g2).
    { destruct C1 as [[F1 [z [Z1 M1]]]|[F1 M1]], C2 as [[F2 [z' [Z2 M2]]]|[F2 M2]]; try congruence; exfalso; [apply F2|apply F1]; apply file_has_iff; auto. }
    unfold needs_data. split; intros [d0 [g0 [A [B C]]]]; [exists d2, g2|exists d1, g1]; split; auto; split; auto.
    - assert (g0 = g1) by congruence. subst g0. rewrite <- X. auto.
    - assert (g0 = g2) by congruence. subst g0. rewrite X. auto.
  Qed.

  Lemma verdict_same : forall d g, dget (py "NXentry") (st_classes (v_st v)) = Some d -> NoDup (map fst (d_groups d)) -> dget (py "data") (d_groups d) = Some g ->
    exists x y, of_test v1 verdict_test = [x] /\ of_test v2 verdict_test = [y] /\ f_addr x = f_addr y /\ f_status x = f_status y.
  Proof.
    intros d g HD ND HG. destruct (verdict_final u w v fname v1 H1) as [x [A B]]. destruct (verdict_final u w' v fname v2 H2) as [y [C D]]. exists x, y. split; auto. split; auto.
    pose proof v3_iff. pose proof v2_iff. pose proof (needs_iff d g HD ND HG).
    destruct B as [a B1 B2|a B1 B2 B3|st B1 B2 B3], D as [b D1 D2|b D1 D2 D3|st' D1 D2 D3]; cbn [f_addr f_status]; try tauto.
    destruct B3 as [[-> B3]|[-> B3]], D3 as [[-> D3]|[-> D3]]; tauto.
  Qed.

  (** *** All findings *)
  Lemma test_perm : forall t, t <> verdict_test -> t <> v3_test -> Permutation (of_test v1 t) (of_test v2 t).
  Proof.
    intros t N1 N2. destruct (startswith t (py "NeXus default plot")) eqn:St.
    - destruct (plot_key t) eqn:Kt.
      + unfold plot_key in Kt. repeat (apply orb_true_iff in Kt as [Kt|Kt]); apply str_eqb_eq in Kt; subst t.
        * exfalso. apply N2. reflexivity.
        * change (py "NeXus default plot v3 NIAC2014") with niac_test. rewrite niac_same. auto.
        * apply v2_perm. left. reflexivity.
        * apply v2_perm. right. left. reflexivity.
        * apply v2_perm. right. right. left. reflexivity.
        * apply v2_perm. right. right. right. left. reflexivity.
      + assert (Z : forall W V, validate u W v fname = (V, Ok tt) -> of_test V t = []); [|rewrite (Z _ _ H1), (Z _ _ H2); auto].
        intros W V HV. destruct (validate_decompose _ _ _ _ _ HV) as [_ [_ [_ [s1 [s2 [s3 [s4 [l1 [l2 [l3 [l4 X]]]]]]]]]]]. unfold of_test.
        rewrite (tr_find _ _ _ (ro_t4 _ _ _ _ _ _ _ _ _ _ _ X)), (tr_find _ _ _ (ro_t3 _ _ _ _ _ _ _ _ _ _ _ X)), (tr_find _ _ _ (ro_t2 _ _ _ _ _ _ _ _ _ _ _ X)), (tr_find _ _ _ (ro_t1 _ _ _ _ _ _ _ _ _ _ _ X)), (ro_find _ _ _ _ _ _ _ _ _ _ _ X).
        assert (NO : forall K l, Forall (fun g => K (f_test g) = true) l -> K t = false -> filter (fun g => str_eqb (f_test g) t) l = []).
        { intros K l HF HK. apply filter_none. eapply Forall_impl; [|exact HF]. cbv beta. intros g Hg. destruct (str_eqb (f_test g) t) eqn:Eg; auto. apply str_eqb_eq in Eg. congruence. }
        rewrite !filter_app. rewrite (NO _ _ (recs_keys _ _ (with_key_new_of _ _ (ro_k1 _ _ _ _ _ _ _ _ _ _ _ X)))), (NO _ _ (recs_keys _ _ (with_key_new_of _ _ (ro_k2 _ _ _ _ _ _ _ _ _ _ _ X)))),
          (NO _ _ (recs_keys _ _ (ro_k3 _ _ _ _ _ _ _ _ _ _ _ X))), (NO _ _ (recs_keys _ _ (with_key_new_of _ _ (ro_k4 _ _ _ _ _ _ _ _ _ _ _ X)))); auto.
        * unfold step4_key. rewrite Kt. cbn [orb]. destruct (is_key "NeXus default plot" t) eqn:Ek; auto. apply str_eqb_eq in Ek. exfalso. apply N1. exact Ek.
        * destruct (app_key t) eqn:Ek; auto. apply app_plain in Ek. congruence.
        * destruct (group_key t) eqn:Ek; auto. apply group_plain in Ek. congruence.
        * destruct (name_key t || attr_key t) eqn:Ek; auto. apply key1_plain in Ek. congruence.
    - pose proof (filter_perm _ (fun g => str_eqb (f_test g) t) _ _ (both same_findings)) as P. unfold other_findings in P. rewrite <- !filter_both in P.
      assert (X : forall V, of_test V t = filter (fun g => str_eqb (f_test g) t && negb (startswith (f_test g) (py "NeXus default plot"))) (st_find (v_st V))); [|rewrite !X; auto].
      intros V. apply filter_ext_in. intros g _. destruct (str_eqb (f_test g) t) eqn:Eg; auto. apply str_eqb_eq in Eg. rewrite Eg, St. reflexivity.
  Qed.

  Lemma part_perm : forall A (p : A -> bool) l, Permutation l (filter p l ++ filter (fun x => negb (p x)) l).
  Proof.
    intros A p l. induction l as [|x l IH]; cbn [filter]; auto. destruct (p x); cbn [negb]; [cbn [app]; constructor; auto|]. apply Permutation_cons_app. auto.
  Qed.

  Lemma settled_perm : Permutation (settled_findings v1) (settled_findings v2).
  Proof.
    apply perm_by_test. intros t. unfold settled_findings. rewrite <- !filter_both. cbn [existsb].
    destruct (str_eqb t verdict_test) eqn:E1; [|destruct (str_eqb t v3_test) eqn:E2].
    - assert (Z : forall l, filter (fun x : finding => str_eqb (f_test x) t && negb (str_eqb (f_test x) (py "NeXus default plot") || (str_eqb (f_test x) (py "NeXus default plot v3, NXdata@signal") || false))) l = []); [|rewrite !Z; auto].
      intros l. apply filter_none. apply Forall_forall. intros g _. destruct (str_eqb (f_test g) t) eqn:Eg; auto. apply str_eqb_eq in Eg. rewrite Eg. change (py "NeXus default plot") with verdict_test. rewrite E1. reflexivity.
    - assert (Z : forall l, filter (fun x : finding => str_eqb (f_test x) t && negb (str_eqb (f_test x) (py "NeXus default plot") || (str_eqb (f_test x) (py "NeXus default plot v3, NXdata@signal") || false))) l = []); [|rewrite !Z; auto].
      intros l. apply filter_none. apply Forall_forall. intros g _. destruct (str_eqb (f_test g) t) eqn:Eg; auto. apply str_eqb_eq in Eg. rewrite Eg. change (py "NeXus default plot v3, NXdata@signal") with v3_test. rewrite E2. cbn [orb]. rewrite orb_true_r. reflexivity.
    - assert (Z : forall V, filter (fun x : finding => str_eqb (f_test x) t && negb (str_eqb (f_test x) (py "NeXus default plot") || (str_eqb (f_test x) (py "NeXus default plot v3, NXdata@signal") || false))) (st_find (v_st V)) = of_test V t).
      { intros V. apply filter_ext_in. intros g _. destruct (str_eqb (f_test g) t) eqn:Eg; auto. apply str_eqb_eq in Eg. rewrite Eg. change (py "NeXus default plot v3, NXdata@signal") with v3_test. change (py "NeXus default plot") with verdict_test. rewrite E1, E2. reflexivity. }
      rewrite !Z. apply test_perm; intros ->; rewrite str_eqb_refl in *; discriminate.
  Qed.

  (** the findings in three parts *)
  Lemma three : forall V, Permutation (st_find (v_st V)) (of_test V verdict_test ++ of_test V v3_test ++ settled_findings V).
  Proof.
    intros V. rewrite (part_perm _ (fun g => str_eqb (f_test g) verdict_test) (st_find (v_st V))) at 1. apply Permutation_app_head.
    rewrite (part_perm _ (fun g => str_eqb (f_test g) v3_test) (filter _ _)). rewrite <- !filter_both. unfold of_test, settled_findings.
    match goal with |- Permutation (?a ++ ?b) (?c ++ ?d) => replace a with c; [replace b with d; [auto|]|] end.
    - apply filter_ext_in. intros g _. cbn [existsb]. change (py "NeXus default plot v3, NXdata@signal") with v3_test. change (py "NeXus default plot") with verdict_test.
      destruct (str_eqb (f_test g) verdict_test), (str_eqb (f_test g) v3_test); reflexivity.
    - apply filter_ext_in. intros g _. destruct (str_eqb (f_test g) v3_test) eqn:Eg; auto. apply str_eqb_eq in Eg. rewrite Eg. reflexivity.
  Qed.

  Lemma entries_perm : all_exist u w v1 -> forall d g, dget (py "NXentry") (st_classes (v_st v)) = Some d -> NoDup (map fst (d_groups d)) -> dget (py "data") (d_groups d) = Some g ->
    Permutation (map but_comment (st_find (v_st v1))) (map but_comment (st_find (v_st v2))).
  Proof.
    intros X d g HD ND HG. rewrite (three v1), (three v2). destruct (verdict_same d g HD ND HG) as [x [y [A [B [C D]]]]]. rewrite A, B. cbn [app map]. replace (but_comment y) with (but_comment x).
    - constructor. apply Permutation_map. apply Permutation_app; [apply v3_perm; auto|apply settled_perm].
    - assert (T : forall V z, of_test V verdict_test = [z] -> f_test z = verdict_test). { intros V z Hz. assert (I : In z (of_test V verdict_test)) by (rewrite Hz; left; auto). apply filter_In in I as [_ I]. apply str_eqb_eq in I. auto. }
      unfold but_comment. rewrite C, D, (T _ _ A), (T _ _ B). reflexivity.
  Qed.

  (** *** One @signal *)
  Hypothesis One : one_signal v1.

  Lemma one_index : forall i it j jt, listed v1 i it -> listed v1 j jt -> (exists d, it_cp it = d ++ py "@signal") -> (exists d, it_cp jt = d ++ py "@signal") -> i = j.
  Proof.
    intros i it j jt L M C D. assert (NA : forall k kt, listed v1 k kt -> (exists d, it_cp kt = d ++ py "@signal") -> it_addr kt <> None).
    { intros k kt K [d' Ed]. apply (item_nonempty u w v fname v1 f H1 Hf Hplain _ _ K). rewrite Ed. apply signal_not_other. }
    pose proof (NA _ _ L C) as NL. pose proof (NA _ _ M D) as NM. destruct (it_addr it) as [a|] eqn:Ea; [|congruence]. destruct (it_addr jt) as [b|] eqn:Eb; [|congruence].
    assert (a = b) by (eapply One; [exists i, it; eauto|exists j, jt; eauto|exact C|exact D]). subst b.
    eapply (unique2 u w v fname v1 f' f H1 Hf Hr' Hplain' Hd' Hat'); eauto; congruence.
  Qed.

  (** a @signal in one is the @signal in the other *)
  Lemma one_pair : forall i it j jt, listed v1 i it -> listed v2 j jt -> (exists d, it_cp it = d ++ py "@signal") -> (exists d, it_cp jt = d ++ py "@signal") -> twin it jt /\ pairs i j.
  Proof.
    intros i it j jt L M C [d Ed]. destruct (bwd _ _ M) as [k [kt [K T]]]. assert (k = i). { eapply one_index; eauto. rewrite (tw_cp _ _ T). eauto. } subst k.
    assert (kt = it) by (destruct K as [K _]; destruct L as [L _]; congruence). subst kt. apply twin_sym in T. split; auto. exists it, jt. split; auto. split; auto. split; auto.
    rewrite <- (tw_addr _ _ T). apply (item_nonempty u w' v fname v2 f' H2 Hf' Hplain' _ _ M). rewrite Ed. apply signal_not_other.
  Qed.

  Lemma sig_cp : forall W V, validate u W v fname = (V, Ok tt) -> forall cp i it, listed_at V cp i it -> (exists d, cp = d ++ py "@signal") -> listed V i it /\ exists d, it_cp it = d ++ py "@signal".
  Proof. intros W V HV cp i it L C. apply (listed_cp u W v fname V HV) in L as [L Ec]. rewrite Ec. auto. Qed.
  Lemma path_signal : exists d, signal_path = d ++ py "@signal".
  Proof. exists (py "/NXentry/NXdata"). reflexivity. Qed.

  Lemma plots_fun : forall it s t, signal_plots E w' v2 it s -> signal_plots E w' v2 it t -> s = t.
  Proof.
    intros it s t [A _] [B _]. destruct (validate_decompose _ _ _ _ _ H2) as [_ [_ [_ [s1 [s2 [s3 [s4 [l1 [l2 [l3 [l4 X]]]]]]]]]]]. pose proof (ro_inv _ _ _ _ _ _ _ _ _ _ _ X) as HI.
    eapply (signal_exists_fun _ s1 (v_st v2)); [exact HI| |exact A|exact B].
    eapply AddrRecord.ext_trans; [exists l1; apply (ro_t1 _ _ _ _ _ _ _ _ _ _ _ X)|]. eapply AddrRecord.ext_trans; [exists l2; apply (ro_t2 _ _ _ _ _ _ _ _ _ _ _ X)|]. eapply AddrRecord.ext_trans; [exists l3; apply (ro_t3 _ _ _ _ _ _ _ _ _ _ _ X)|]. exists l4; apply (ro_t4 _ _ _ _ _ _ _ _ _ _ _ X).
  Qed.

  Lemma one_v3_address : forall a b, v3_address E w v1 a -> v3_address E w' v2 b -> a = b.
  Proof.
    intros a b [i it a1 A1 A2|l l1 i l2 it a1 A1 A2 A3 A4 A5 A6] B.
    - destruct (both only_chain_fwd _ _ A1) as [j [jt [A T]]]. destruct B as [k kt b1 B1 B2|m m1 k m2 kt b1 B1 B2 B3 B4 B5 B6]; [|exfalso; exact (B1 _ _ A)].
      assert (k = j) by exact (proj2 A k kt (proj1 B1)). subst k. assert (kt = jt) by (destruct B1 as [[[Y _] _] _]; destruct A as [[[Z _] _] _]; congruence). subst kt. pose proof (tw_addr _ _ T). congruence.
    - destruct B as [k kt b1 B1 B2|m m1 k m2 kt b1 B1 B2 B3 B4 B5 B6]; [exfalso; destruct (back only_chain_fwd _ _ B1) as [j [jt [A T]]]; exact (A1 _ _ A)|].
      assert (La : listed_at v1 signal_path i it) by (split; auto; exists l; split; auto; rewrite A3; apply in_elt).
      assert (Lb : listed_at v2 signal_path k kt) by (split; auto; exists m; split; auto; rewrite B3; apply in_elt).
      destruct (sig_cp _ _ H1 _ _ _ La path_signal) as [LA CA]. destruct (sig_cp _ _ H2 _ _ _ Lb path_signal) as [LB CB].
      destruct (one_pair _ _ _ _ LA LB CA CB) as [T _]. eapply plots_fun; [|exact B5]. eapply (both plots_fwd); eauto.
  Qed.

  Lemma one_v2_address : forall a b, v2_address w v1 a -> v2_address w' v2 b -> a = b.
  Proof.
    intros a b [l1 [i [l2 [it [pit [gp [A1 [A2 [A3 A4]]]]]]]]] [m1 [j [m2 [jt [pjt [gj [B1 [B2 [B3 B4]]]]]]]]].
    pose proof A2 as [[[cp [La [d Ed]]] _] _]. pose proof B2 as [[[cp' [Lb [d' Ed']]] _] _].
    destruct (sig_cp _ _ H1 _ _ _ La ltac:(eauto)) as [LA CA]. destruct (sig_cp _ _ H2 _ _ _ Lb ltac:(eauto)) as [LB CB].
    destruct (one_pair _ _ _ _ LA LB CA CB) as [T P]. destruct (both field_at _ _ _ _ _ P (proj1 A2)) as [it' [pit' [gp' [A [T1 [T2 T3]]]]]].
    assert (pit' = pjt).
    { destruct A as [[c1 [[X1 _] _]] [[p1 [g1 [P1 [P2 _]]]] _]]. destruct B2 as [[[c2 [[X2 _] _]] [[p2 [g2 [P3 [P4 _]]]] _]] _]. congruence. }
    subst pit'. pose proof (tw_addr _ _ T2). congruence.
  Qed.

  Lemma one_verdict : forall d g, dget (py "NXentry") (st_classes (v_st v)) = Some d -> NoDup (map fst (d_groups d)) -> dget (py "data") (d_groups d) = Some g ->
    of_test v1 verdict_test = of_test v2 verdict_test.
  Proof.
    intros d g HD ND HG. destruct (verdict_final u w v fname v1 H1) as [x [A B]]. destruct (verdict_final u w' v fname v2 H2) as [y [C D]]. rewrite A, C. f_equal.
    pose proof v3_iff. pose proof v2_iff. pose proof (needs_iff d g HD ND HG).
    destruct B as [a B1 B2|a B1 B2 B3|st B1 B2 B3], D as [b D1 D2|b D1 D2 D3|st' D1 D2 D3]; try tauto.
    - rewrite (one_v3_address _ _ B2 D2). reflexivity.
    - rewrite (one_v2_address _ _ B3 D3). reflexivity.
    - destruct B3 as [[-> B3]|[-> B3]], D3 as [[-> D3]|[-> D3]]; tauto.
  Qed.

  Lemma one_v3 : of_test v1 v3_test = of_test v2 v3_test.
  Proof.
    destruct (v3_list w v1 H1) as [R1 [N1 S1]]. destruct (v3_list w' v2 H2) as [R2 [N2 S2]].
    assert (C2 : forall j jt, listed v2 j jt -> it_cp jt = signal_path -> exists i it, listed v1 i it /\ it_cp it = signal_path /\ twin it jt).
    { intros j jt M C. destruct (bwd _ _ M) as [i [it [L T]]]. exists i, it. split; auto. split; [rewrite (tw_cp _ _ T); auto|apply twin_sym; auto]. }
    assert (Sg : forall it, it_cp it = signal_path -> exists d, it_cp it = d ++ py "@signal") by (intros it C; rewrite C; exact path_signal).
    destruct (items_at v1 signal_path) as [|i l].
    - destruct (items_at v2 signal_path) as [|j m]; [inversion R1; inversion R2; congruence|]. exfalso. destruct (proj1 (S2 j) (or_introl eq_refl)) as [jt [M C]]. destruct (C2 _ _ M C) as [i [it [L [Ci _]]]].
      apply (proj2 (S1 i)). eauto.
    - destruct (proj1 (S1 i) (or_introl eq_refl)) as [it [L C]].
      assert (l = []). { destruct l as [|k l]; auto. exfalso. destruct (proj1 (S1 k) (or_intror (or_introl eq_refl))) as [kt [K Ck]]. assert (k = i) by (eapply one_index; eauto). subst k. inversion N1 as [|? ? Z _]. apply Z. left. auto. }
      subst l. destruct (fwd _ _ L) as [j [jt [M T]]]. assert (Cj : it_cp jt = signal_path) by (rewrite (tw_cp _ _ T); auto).
      assert (items_at v2 signal_path = [j]).
      { assert (X : forall k, In k (items_at v2 signal_path) -> k = j).
        { intros k Hk. apply S2 in Hk as [kt [K Ck]]. destruct (one_pair _ _ _ _ L K (Sg _ C) (Sg _ Ck)) as [_ P1]. destruct (one_pair _ _ _ _ L M (Sg _ C) (Sg _ Cj)) as [_ P2].
          exact (pair_right u w' v fname v1 v2 f f' H2 Hf' Hr Hplain Hd Hat _ _ _ P1 P2). }
        assert (Hj : In j (items_at v2 signal_path)) by (apply S2; eauto). destruct (items_at v2 signal_path) as [|a [|b m]]; [destruct Hj| |].
        - f_equal. apply X. left. auto.
        - exfalso. assert (a = b) by (rewrite (X a), (X b); simpl; auto). subst b. inversion N2 as [|? ? Z _]. apply Z. left. auto. }
      rewrite H in *. assert (It : nth_error (st_items (v_st v1)) i = Some it) by apply L. assert (Jt : nth_error (st_items (v_st v2)) j = Some jt) by apply M. pose proof (tw_addr _ _ T) as Ta.
      assert (EF : forall t, signal_exists E w v1 it t -> signal_exists E w' v2 jt t) by (intros t; eapply (both exists_fwd); eauto).
      assert (EB : forall t, signal_exists E w' v2 jt t -> signal_exists E w v1 it t) by (intros t; eapply (back exists_fwd); apply twin_sym; eauto).
      assert (PF : forall t, signal_plots E w v1 it t -> signal_plots E w' v2 jt t) by (intros t; eapply (both plots_fwd); eauto).
      assert (PB : forall t, signal_plots E w' v2 jt t -> signal_plots E w v1 it t) by (intros t; eapply (back plots_fwd); apply twin_sym; eauto).
      inversion R1 as [|i1 k1 it1 A1 A2|i1 k1 it1 fs1 A1 A2 A3 A4|i1 k1 it1 fs1 A1 A2 A4]; subst; inversion R2 as [|i2 k2 it2 B1 B2|i2 k2 it2 fs2 B1 B2 B3 B4|i2 k2 it2 fs2 B1 B2 B4]; subst;
        assert (it1 = it) by congruence; assert (it2 = jt) by congruence; subst it1 it2; try (inversion A4); try (inversion B4); try congruence; exfalso.
      + destruct B2 as [t Z]. exact (A2 _ (EB _ Z)).
      + destruct B2 as [t Z]. exact (A2 _ (EB _ (proj1 Z))).
      + destruct A2 as [t Z]. exact (B2 _ (EF _ Z)).
      + destruct B2 as [t Z]. exact (A3 _ (PB _ Z)).
      + destruct A2 as [t Z]. exact (B2 _ (EF _ (proj1 Z))).
      + destruct A2 as [t Z]. exact (B3 _ (PF _ Z)).
  Qed.

  Theorem one_perm : forall d g, dget (py "NXentry") (st_classes (v_st v)) = Some d -> NoDup (map fst (d_groups d)) -> dget (py "data") (d_groups d) = Some g ->
    Permutation (st_find (v_st v1)) (st_find (v_st v2)).
  Proof. intros d g HD ND HG. rewrite (three v1), (three v2). rewrite (one_verdict d g HD ND HG), one_v3, settled_perm. auto. Qed.
End Final.
