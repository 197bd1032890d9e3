(** * Two validations of files that differ in order only: all findings but those about default plots *)

From Coq Require Import List NArith ZArith Bool String Lia Permutation.
From Verif Require Import PyBase PyFacts Regex Utf8 H5 Findings Nxdl Core Catalog ItemName AttributeCheck
  GroupChecks AppDef DefaultPlot Validate Trace CheckFacts CatalogFacts NameFacts CacheFacts Spec_Run Spec_Catalog PathFacts RunFacts NameRun StepOne CatalogRun CatalogEnd AddressFacts
  Spec_Groups Spec_Attributes Spec_AppDef AppFacts AppRun GroupEnd Spec_Order OrderWorld OrderFacts.
From Verif Require OrderSim WholeFacts AddrRecord.
Import ListNotations.

(** ** Lists *)
Lemma F2_fun : forall A B (P Q : A -> B -> Prop) l a b, Forall2 P l a -> Forall2 Q l b -> (forall x y z, In x l -> P x y -> Q x z -> y = z) -> a = b.
Proof.
  intros A B P Q l a b H. revert b. induction H as [|x y l a Hxy H IH]; intros b HQ HF; inversion HQ; subst; auto. f_equal; [eapply HF; simpl; eauto|].
  apply IH; auto. intros; eapply HF; simpl; eauto.
Qed.

Lemma F2_perm : forall A B (P Q : A -> B -> Prop) l m a b, Permutation l m -> Forall2 P l a -> Forall2 Q m b ->
  (forall x y z, In x l -> P x y -> Q x z -> y = z) -> Permutation a b.
Proof.
  intros A B P Q l m a b HP H1 H2 HF. destruct (Permutation_Forall2 HP H1) as [a' [X Y]]. rewrite X. replace b with a'; auto.
  eapply F2_fun; [exact Y|exact H2|]. intros x y z Hx. apply HF. apply (Permutation_in x (Permutation_sym HP)). auto.
Qed.

Lemma concat_perm : forall A (l m : list (list A)), Permutation l m -> Permutation (List.concat l) (List.concat m).
Proof.
  intros A l m H. induction H; simpl; auto.
  - apply Permutation_app_head. auto.
  - rewrite !app_assoc. apply Permutation_app_tail. apply Permutation_app_comm.
  - etransitivity; eauto.
Qed.

(** lists matched one to one by [T], with what is reported about each *)
Lemma matched : forall A B C (T : A -> B -> Prop) (P : A -> list C -> Prop) (Q : B -> list C -> Prop) (l : list A) (m : list B) fs gs,
  NoDup l -> NoDup m -> (forall x, In x l -> exists y, In y m /\ T x y) -> (forall y, In y m -> exists x, In x l /\ T x y) ->
  (forall x x' y, In x l -> In x' l -> T x y -> T x' y -> x = x') -> (forall x y y', In y m -> In y' m -> T x y -> T x y' -> y = y') ->
  Forall2 P l fs -> Forall2 Q m gs -> (forall x y a b, In x l -> In y m -> T x y -> P x a -> Q y b -> Permutation a b) ->
  Permutation (List.concat fs) (List.concat gs).
Proof.
  intros A B C T P Q l m fs gs Nl. revert m fs gs. induction Nl as [|x l Hx Nl IH]; intros m fs gs Nm F1 F2 I1 I2 HP HQ HR.
  - inversion HP; subst. destruct m as [|y m]; [inversion HQ; subst; auto|]. destruct (F2 y (or_introl eq_refl)) as [z [[] _]].
  - inversion HP as [|x0 a l0 fs' Pa HP']; subst. destruct (F1 x (or_introl eq_refl)) as [y [Hy Ty]]. apply in_split in Hy as [m1 [m2 ->]].
    apply Forall2_app_inv_l in HQ as [g1 [g2 [Q1 [Q2 ->]]]]. inversion Q2 as [|y0 b m0 g2' Qb Q2']; subst.
    rewrite concat_app. simpl. rewrite (HR x y a b); simpl; auto; [|apply in_or_app; right; left; auto].
    rewrite Permutation_app_swap_app. apply Permutation_app_head. rewrite <- concat_app. pose proof (NoDup_remove_1 _ _ _ Nm) as Nm'. pose proof (NoDup_remove_2 _ _ _ Nm) as Ny.
    assert (INC : forall z, In z (m1 ++ m2) -> In z (m1 ++ y :: m2)) by (intros z Hz; apply in_app_iff in Hz; apply in_app_iff; simpl; tauto).
    apply (IH (m1 ++ m2)); auto.
    + intros x' Hx'. destruct (F1 x' (or_intror Hx')) as [y' [Hy' T']]. exists y'. split; auto. apply in_app_iff in Hy'. apply in_app_iff. destruct Hy' as [Z|[Z|Z]]; auto. subst y'.
      exfalso. apply Hx. rewrite (I1 x x' y); simpl; auto.
    + intros y' Hy'. destruct (F2 y' (INC _ Hy')) as [x' [[<-|Hx'] T']]; [|eauto]. exfalso. apply Ny. rewrite (I2 x y y'); auto. apply in_or_app; right; left; auto.
    + intros; eapply I1; simpl; eauto.
    + intros z y1 y2 Hy1 Hy2. apply I2; auto.
    + apply Forall2_app; auto.
    + intros; eapply HR; simpl; eauto.
Qed.

(** findings are the same in number if they are so for each address and test *)
Lemma perm_by_key : forall l m : list finding, (forall a t, Permutation (filter (fun f => ostr_eqb (f_addr f) a && str_eqb (f_test f) t) l) (filter (fun f => ostr_eqb (f_addr f) a && str_eqb (f_test f) t) m)) ->
  Permutation l m.
Proof.
  assert (K : forall x : finding, ostr_eqb (f_addr x) (f_addr x) && str_eqb (f_test x) (f_test x) = true) by (intros x; rewrite (proj2 (ostr_eqb_eq _ _) eq_refl), str_eqb_refl; reflexivity).
  induction l as [|x l IH]; intros m H.
  - destruct m as [|y m]; auto. specialize (H (f_addr y) (f_test y)). simpl in H. rewrite K in H. apply Permutation_nil in H. discriminate.
  - assert (Hx : In x m).
    { specialize (H (f_addr x) (f_test x)). simpl in H. rewrite K in H. assert (Y : In x (x :: filter (fun f => ostr_eqb (f_addr f) (f_addr x) && str_eqb (f_test f) (f_test x)) l)) by (left; auto).
      apply (Permutation_in _ H) in Y. apply filter_In in Y. tauto. }
    apply in_split in Hx as [m1 [m2 ->]]. apply Permutation_cons_app. apply IH. intros a t. specialize (H a t). rewrite !filter_app in *. simpl in H.
    destruct (ostr_eqb (f_addr x) a && str_eqb (f_test x) t); auto. apply Permutation_cons_app_inv in H. auto.
Qed.

Section Reports.
  Variables (E : env) (w w' : world) (file : pystr) (f f' : h5file) (cl : classes) (mo : option Z).
  Hypothesis Hf : dget file w = Some (FHdf5 f).
  Hypothesis Hf' : dget file w' = Some (FHdf5 f').
  Hypothesis Hr : reordered f f'.
  Hypothesis Hplain : plain_file f.
  Hypothesis Hd : distinct_names f.
  Variables (it it' : vitem) (h : handle).
  Hypothesis Ht : twin it it'.
  Hypothesis Hh : h_file h = file.

  Lemma item_iff : forall s, has_item w h s <-> has_item w' h s.
  Proof. intros s. unfold has_item. rewrite (py_in_same w w' file f f' Hf Hf' Hr Hplain Hd h (VStr s) Hh). tauto. Qed.

  Lemma class_iff : forall cls, has_class E w it h cls <-> has_class E w' it' h cls.
  Proof.
    intros cls. unfold has_class. rewrite (tw_cp _ _ Ht).
    pose proof (nexus_class_perm_iff E _ _ (attrs_perm w w' file f f' Hf Hf' Hr h Hh) (attrs_nodup w file f Hf Hd h Hh) cls). tauto.
  Qed.

  Lemma address_fun : forall a n p q, member_address a n p -> member_address a n q -> p = q.
  Proof. intros a n p q [[A ->]|[A ->]] [[B ->]|[B ->]]; auto; contradiction. Qed.

  Lemma item_fun : forall (place place' : pystr -> pystr -> pystr -> Prop) t n x y, (forall a p q, place a n p -> place' a n q -> p = q) ->
    nxdl_item_finding place w h (it_addr it) t n x -> nxdl_item_finding place' w' h (it_addr it') t n y -> x = y.
  Proof.
    intros place place' t n x y HP [a [p [A [B C]]]] [a' [p' [A' [B' C']]]]. rewrite (tw_addr _ _ Ht) in *. assert (a' = a) by congruence. subst a'.
    assert (p' = p) by (symmetry; eauto). subst p'. pose proof (item_iff n). destruct C as [[C1 ->]|[C1 ->]], C' as [[D1 ->]|[D1 ->]]; auto; tauto.
  Qed.

  Lemma defined_fun : forall Y d n c c', defined_text Y d n c -> defined_text Y d n c' -> c = c'.
  Proof. intros Y d n c c' [[A ->]|[A ->]] [[B ->]|[B ->]]; auto; contradiction. Qed.

  Lemma member_fun : forall n o o', member w h n o -> member w' h n o' -> o = o' /\ h_file o = file.
  Proof.
    intros n o o' [A B] [A' B']. rewrite <- (getitem_same w w' file f f' Hf Hf' Hr Hplain Hd h n Hh) in B'. split; [congruence|].
    eapply (getitem_file w file f Hf Hplain); eauto.
  Qed.

  Lemma child_fun : forall d n x y, child_finding w h d n x -> child_finding w' h d n y -> x = y.
  Proof.
    assert (X : forall o, isHdf5Dataset w o = true -> isHdf5Group w o = true -> False).
    { intros o A B. unfold isHdf5Group, is_group_obj, isHdf5Dataset in *. destruct (obj_of w o) as [ob|]; [|discriminate]. destruct (ob_kind ob); discriminate. }
    intros d n x y [o c M D T|o c M D T|o M D1 D2] [o' c' M' D' T'|o' c' M' D' T'|o' M' D1' D2']; destruct (member_fun _ _ _ M M') as [<- Ho];
      try (rewrite <- (dataset_same w w' file f f' Hf Hf' Hr o Ho) in *); try (rewrite <- (group_same w w' file f f' Hf Hf' Hr o Ho) in *); try congruence;
      try (exfalso; eapply X; eauto; fail); rewrite (defined_fun _ _ _ _ _ T T'); reflexivity.
  Qed.

  Lemma known_fun : forall d k c c', known_text d k c -> known_text d k c' -> c = c'.
  Proof. intros d k c c' [[A ->]|[A [A2 ->]]] [[B ->]|[B [B2 ->]]]; auto; tauto. Qed.

  Lemma enumeration_fun : forall a spec v l m, enumeration_findings a spec v l -> enumeration_findings a spec v m -> l = m.
  Proof.
    intros a spec v l m [[A ->]|[A [s [st [cm [B [-> C]]]]]]] [[A' ->]|[A' [s' [st' [cm' [B' [-> C']]]]]]]; auto; try contradiction.
    assert (s' = s) by congruence. subst s'. destruct C as [[-> [C ->]]|[-> [C ->]]], C' as [[-> [C' ->]]|[-> [C' ->]]]; auto; contradiction.
  Qed.

  Lemma value_fun : forall a k v l m, value_findings w it h a k v l -> value_findings w' it' h a k v m -> l = m.
  Proof.
    assert (NM : forall k, names_member it' k <-> names_member it k) by (intros k; unfold names_member; rewrite (tw_cp _ _ Ht); tauto).
    assert (AX : forall k, names_member it k -> k <> py "axes").
    { intros k [[-> _]| ->] X; apply (f_equal (fun s => str_eqb s (py "axes"))) in X; vm_compute in X; discriminate. }
    intros a k v l m [[A [s [st [cm [addr [p [B [-> [C [D F]]]]]]]]]]|[[A ->]|[A1 [A2 [A3 ->]]]]] [[A' [s' [st' [cm' [addr' [p' [B' [-> [C' [D' F']]]]]]]]]]|[[A' ->]|[A1' [A2' [A3' ->]]]]];
      try reflexivity; try (apply NM in A'); try (rewrite NM in A1'); try contradiction; try (exfalso; eapply AX; eauto; fail).
    assert (s' = s) by congruence. subst s'. rewrite (tw_addr _ _ Ht) in C'. assert (addr' = addr) by congruence. subst addr'.
    assert (p' = p) by (eapply address_fun; eauto). subst p'. pose proof (item_iff s).
    destruct F as [[-> [F ->]]|[-> [F ->]]], F' as [[-> [F' ->]]|[-> [F' ->]]]; auto; tauto.
  Qed.

  Lemma attribute_fun : forall d kv l m, attribute_report E w it h d kv l -> attribute_report E w' it' h d kv m -> l = m.
  Proof.
    intros d kv l m [addr [dv [cm [rest [A [B [C [-> D]]]]]]]] [addr' [dv' [cm' [rest' [A' [B' [C' [-> D']]]]]]]]. rewrite (tw_addr _ _ Ht) in A'.
    assert (addr' = addr) by congruence. subst addr'. assert (dv' = dv) by congruence. subst dv'. rewrite (known_fun _ _ _ _ C C'). f_equal.
    destruct (dget (fst kv) (d_attrs d)) as [spec|]; [|congruence]. destruct D as [r1 [r2 [-> [D1 D2]]]], D' as [r1' [r2' [-> [D1' D2']]]].
    rewrite (enumeration_fun _ _ _ _ _ D1 D1'), (value_fun _ _ _ _ _ D2 D2'). reflexivity.
  Qed.

  Lemma base_fun : forall d cls c c', base_class_text d cls c -> base_class_text d cls c' -> c = c'.
  Proof. intros d cls c c' [[A ->]|[A ->]] [[B ->]|[B ->]]; auto; contradiction. Qed.

  Lemma class_not_other : forall W i cls, has_class E W i h cls -> it_cp i <> non_nexus.
  Proof. intros W i cls [[A _]|[_ [A _]]]; auto. rewrite A. discriminate. Qed.

  Lemma group_same_report : forall l m, group_report E w cl it h l -> group_report E w' cl it' h m -> Permutation l m.
  Proof.
    assert (CF : forall a b, has_class E w it h a -> has_class E w' it' h b -> a = b) by (intros a b A B; apply class_iff in B; eapply has_class_fun; eauto).
    intros l m [A|cls A B|cls d cm at_ ch fi gr fn gn an A B C1 C2 C3 C4 C5 C6 C7 C8] [A'|cls' A' B'|cls' d' cm' at' ch' fi' gr' fn' gn' an' A' B' C1' C2' C3' C4' C5' C6' C7' C8'];
      try (exfalso; apply class_not_other in A'; rewrite (tw_cp _ _ Ht) in A'; contradiction);
      try (exfalso; apply class_not_other in A; rewrite (tw_cp _ _ Ht) in A'; contradiction); rewrite ?(tw_addr _ _ Ht); auto;
      assert (cls' = cls) by (symmetry; eauto); subst cls'; try congruence; auto.
    assert (d' = d) by congruence. subst d'. rewrite (base_fun _ _ _ _ C1 C1'). cbn [app]. do 2 apply perm_skip.
    repeat apply Permutation_app; auto.
    - apply concat_perm. eapply F2_perm; [|exact C3|exact C3'|intros x y z _; apply attribute_fun].
      rewrite C2, C2'. apply (attrs_perm w w' file f f' Hf Hf' Hr h Hh).
    - eapply F2_perm; [|exact C4|exact C4'|intros x y z _; apply child_fun]. apply Permutation_map. apply (links_perm w w' file f f' Hf Hf' Hr h Hh).
    - eapply F2_perm; [|exact C6|exact C6'|intros x y z _; apply item_fun; intros a p q; apply address_fun]. rewrite C5, C5'. auto.
    - eapply F2_perm; [|exact C8|exact C8'|intros x y z _; apply item_fun; congruence]. rewrite C7, C7'. auto.
  Qed.

  Lemma read_fun : forall d x y, h_file d = file -> dataset_value E w d x -> dataset_value E w' d y -> x = y.
  Proof.
    intros d x y Hdf H H'. apply dataset_value_read in H, H'. destruct H as [v [a [A [B C]]]], H' as [v' [a' [A' [B' C']]]]. rewrite <- (read_same w w' file f f' Hf Hf' Hr d Hdf) in A'. congruence.
  Qed.

  Lemma follows_fun : forall x y, follows E w h x -> follows E w' h y -> x = y.
  Proof.
    intros x y [_ [dh [a [A [B ->]]]]] [_ [dh' [a' [A' [B' ->]]]]]. rewrite <- (getitem_same w w' file f f' Hf Hf' Hr Hplain Hd h _ Hh) in A'. assert (dh' = dh) by congruence. subst dh'.
    f_equal. apply (read_fun dh); auto. eapply (getitem_file w file f Hf Hplain); eauto.
  Qed.

  Lemma field_finding_fun : forall ad n fh x y, field_finding ad n it fh x -> field_finding ad n it' fh y -> x = y.
  Proof. intros ad n [t|] x y; simpl; [congruence|]. unfold missing_address. rewrite (tw_cp _ _ Ht), (tw_addr _ _ Ht). congruence. Qed.

  Lemma enums_fun : forall ad n spec fh x y, (forall t, fh = Some t -> h_file t = file) ->
    enumeration_report E w mo ad n spec fh x -> enumeration_report E w' mo ad n spec fh y -> x = y.
  Proof.
    intros ad n spec fh x y HF [[A ->]|[t [v [st [cm [A [B [C [-> D]]]]]]]]] [[A' ->]|[t' [v' [st' [cm' [A' [B' [C' [-> D']]]]]]]]]; auto; try contradiction.
    assert (t' = t) by congruence. subst t'. assert (v' = v) by (symmetry; apply (read_fun t); auto). subst v'.
    destruct D as [[-> [s [D1 [D2 ->]]]]|[-> [D1 [tx [D2 ->]]]]], D' as [[-> [s' [D1' [D2' ->]]]]|[-> [D1' [tx' [D2' ->]]]]].
    - congruence.
    - exfalso. apply D1'. exists s. auto.
    - exfalso. apply D1. exists s'. auto.
    - assert (tx' = tx); [|congruence]. rewrite D2 in D2'. revert tx' D2'. clear. induction tx as [|a l IH]; intros [|b m] H; try discriminate; auto. simpl in H. injection H as -> H. f_equal. auto.
  Qed.

  Lemma field_report_fun : forall ad fs x y, field_report E w mo ad it h fs x -> field_report E w' mo ad it' h fs y -> x = y.
  Proof.
    intros ad fs x y [fh [g [e [A [B [C ->]]]]]] [fh' [g' [e' [A' [B' [C' ->]]]]]]. rewrite <- (getopt_same w w' file f f' Hf Hf' Hr Hplain Hd h _ Hh) in A'. assert (fh' = fh) by congruence. subst fh'.
    rewrite (field_finding_fun _ _ _ _ _ B B'). f_equal. eapply enums_fun; eauto. intros t ->. eapply (getopt_file w file f Hf Hplain); eauto.
  Qed.

  Lemma definition_fun : it_obj it = ONode h -> forall x y, definition_report E w mo cl it x -> definition_report E w' mo cl it' y -> x = y.
  Proof.
    intros Ho x y [h1 name Ho1 F D|h1 name d k e rest st cm fss Ho1 F D G S R] [h2 name2 Ho2 F2 D2|h2 name2 d2 k2 e2 rest2 st2 cm2 fss2 Ho2 F2 D2 G2 S2 R2];
      rewrite (tw_obj _ _ Ht) in Ho2; assert (h1 = h) by congruence; assert (h2 = h) by congruence; subst h1 h2; assert (name2 = name) by (symmetry; eapply follows_fun; eauto); subst name2; rewrite (tw_addr _ _ Ht); try congruence; auto.
    assert (d2 = d) by congruence. subst d2. assert (e2 = e) by congruence. subst e2.
    assert (st2 = st /\ cm2 = cm) as [-> ->].
    { assert (AC : py "applications" <> py "contributed_definitions") by (intros X; apply (f_equal (fun s => str_eqb s (py "applications"))) in X; vm_compute in X; discriminate).
      destruct S as [[-> [S ->]]|[[-> [S ->]]|[-> [S1 [S3 ->]]]]], S2 as [[-> [S2 ->]]|[[-> [S2 ->]]|[-> [S21 [S23 ->]]]]]; auto; try congruence. }
    f_equal. f_equal. f_equal. f_equal. eapply F2_fun; eauto. intros x0 y0 z0 _. apply field_report_fun.
  Qed.
End Reports.

Lemma NoDup_part : forall A (ls : list (list A)) l, NoDup (List.concat ls) -> In l ls -> NoDup l.
Proof.
  induction ls as [|x ls IH]; intros l H Hin; [destruct Hin|]. simpl in H. destruct Hin as [->|Hin].
  - clear IH. induction l as [|y l IH]; constructor; inversion H as [|y0 l0 Hy HN]; subst; auto. intros X. apply Hy. apply in_or_app. auto.
  - apply IH; auto. clear IH Hin. induction x as [|y x IH]; auto. apply IH. inversion H; auto.
Qed.

Lemma log_addresses : forall log items, log_ok items log -> Forall (fun e => match e with ENew _ => False | ERec _ _ => True end) log ->
  Forall (fun g => exists i it, nth_error items i = Some it /\ f_addr g = it_addr it) (recs log).
Proof.
  induction log as [|e log IH]; intros items HO HF; [constructor|]. destruct HO as [A B]. inversion HF as [|e' l' HE HF']; subst. destruct e as [n|j g]; [destruct HE|]. destruct A as [it [A1 A2]]. simpl.
  constructor; [eauto|]. eapply Forall_impl; [|apply (IH _ B HF')]. simpl. intros x [i [xt [X1 X2]]]. destruct (Nat.eq_dec i j) as [->|Ne].
  - rewrite (update_nth_same _ _ _ _ A1) in X1. injection X1 as <-. exists j, it. split; auto.
  - rewrite update_nth_other in X1 by auto. eauto.
Qed.

(** the tests of a default plot, and no others, begin this way *)
Lemma plain_is : forall k t, is_key k t = true -> startswith (py k) (py "NeXus default plot") = false -> startswith t (py "NeXus default plot") = false.
Proof. intros k t H. apply str_eqb_eq in H. subst t. auto. Qed.
Lemma plot_is : forall k t, is_key k t = true -> startswith (py k) (py "NeXus default plot") = true -> startswith t (py "NeXus default plot") = true.
Proof. intros k t H. apply str_eqb_eq in H. subst t. auto. Qed.
Lemma plain_pre : forall c k t, startswith t (c :: k) = true -> N.eqb c 78 = false -> startswith t (py "NeXus default plot") = false.
Proof.
  intros c k t H Hc. apply startswith_spec in H as [r ->]. cbn [app]. change (py "NeXus default plot") with (78%N :: py "eXus default plot"). unfold startswith. fold startswith.
  destruct (N.eqb_spec 78 c) as [E|E]; [subst c; discriminate|]. reflexivity.
Qed.
Lemma key1_plain : forall t, name_key t || attr_key t = true -> startswith t (py "NeXus default plot") = false.
Proof.
  intros t H. unfold name_key, attr_key in H. repeat (apply orb_true_iff in H as [H|H]).
  - apply str_eqb_eq in H. subst t. reflexivity.
  - apply str_eqb_eq in H. subst t. reflexivity.
  - unfold pre_key in H. eapply plain_pre; [exact H|reflexivity].
  - unfold pre_key in H. eapply plain_pre; [exact H|reflexivity].
Qed.
Lemma group_plain : forall t, group_key t = true -> startswith t (py "NeXus default plot") = false.
Proof.
  intros t H. unfold group_key in H. repeat (apply orb_true_iff in H as [H|H]); try (eapply plain_is; [exact H|reflexivity]). unfold pre_key in H. eapply plain_pre; [exact H|reflexivity].
Qed.
Lemma app_plain : forall t, app_key t = true -> startswith t (py "NeXus default plot") = false.
Proof. intros t H. unfold app_key in H. repeat (apply orb_true_iff in H as [H|H]); (eapply plain_is; [exact H|reflexivity]). Qed.
Lemma step4_plot : forall t, step4_key t = true -> startswith t (py "NeXus default plot") = true.
Proof. intros t H. unfold step4_key, plot_key in H. repeat (apply orb_true_iff in H as [H|H]); (eapply plot_is; [exact H|reflexivity]). Qed.

(** ** Both validations *)
Section Whole.
  Variables (u : setup) (w w' : world) (v : validator) (fname : pystr) (v1 v2 : validator) (f f' : h5file).
  Hypothesis H1 : validate u w v fname = (v1, Ok tt).
  Hypothesis H2 : validate u w' v fname = (v2, Ok tt).
  Hypothesis Hf : dget fname w = Some (FHdf5 f).
  Hypothesis Hf' : dget fname w' = Some (FHdf5 f').
  Hypothesis Hr : reordered f f'.
  Hypothesis Hplain : plain_file f.
  Hypothesis Hd : distinct_names f.
  Hypothesis Hat : no_at_names f.

  Let Hplain' : plain_file f' := reordered_plain _ _ Hr Hplain.
  Let Hd' : distinct_names f' := reordered_distinct _ _ Hr Hd.
  Let Hat' : no_at_names f' := reordered_at _ _ Hr Hat.
  Let Hr' : reordered f' f := reordered_sym _ _ Hr.

  Let fwd := twins u w w' v fname v1 v2 f f' H1 H2 Hf Hf' Hr Hplain Hd.
  Let bwd := twins u w' w v fname v2 v1 f' f H2 H1 Hf' Hf Hr' Hplain' Hd'.
  Let uniq2 := unique2 u w' v fname v2 f f' H2 Hf' Hr Hplain Hd Hat.
  Let uniq1 := unique2 u w v fname v1 f' f H1 Hf Hr' Hplain' Hd' Hat'.

  Lemma twin_sym : forall a b, twin a b -> twin b a.
  Proof. intros a b []. constructor; auto. tauto. Qed.

  (** items with the same address are twins *)
  Lemma twin_of : forall i it j jt, listed v1 i it -> listed v2 j jt -> it_addr it = it_addr jt -> it_addr it <> None -> twin it jt.
  Proof.
    intros i it j jt L M Ea N. destruct (fwd _ _ L) as [k [kt [A B]]]. assert (k = j) by (eapply uniq2; eauto; rewrite (tw_addr _ _ B); auto). subst k.
    replace jt with kt; auto. destruct A as [A _]. destruct M as [M _]. congruence.
  Qed.

  Theorem same_catalogue : forall a o cp, catalogued_as v1 a o cp <-> catalogued_as v2 a o cp.
  Proof.
    intros a o cp. split; intros [i [it [L [A [B C]]]]]; [destruct (fwd _ _ L) as [j [jt [M T]]]|destruct (bwd _ _ L) as [j [jt [M T]]]]; exists j, jt; (split; [exact M|]);
      rewrite (tw_addr _ _ T), (tw_obj _ _ T), (tw_cp _ _ T); auto.
  Qed.

  Section Runs.
    Variables (s1 s2 s3 s4 t1 t2 t3 t4 : vstate) (l1 l2 l3 l4 k1 k2 k3 k4 : list event).
    Hypothesis R : run_ok (mk_ctx u w fname) (st_classes (v_st v)) s1 s2 s3 s4 (v_st v1) l1 l2 l3 l4.
    Hypothesis Q : run_ok (mk_ctx u w' fname) (st_classes (v_st v)) t1 t2 t3 t4 (v_st v2) k1 k2 k3 k4.

    (** *** Step 2 *)
    Lemma entries : forall W V S1 S2 S3 S4 L1 L2 L3 L4, run_ok (mk_ctx u W fname) (st_classes (v_st v)) S1 S2 S3 S4 (v_st V) L1 L2 L3 L4 ->
      (forall a i, In (a, i) (st_addr (v_st V)) -> exists it, listed V i it /\ it_addr it = a) /\ (forall i it, listed V i it -> In (it_addr it) (map fst (st_addr (v_st V))))
      /\ NoDup (map fst (st_addr (v_st V))).
    Proof.
      intros W V S1 S2 S3 S4 L1 L2 L3 L4 X. pose proof (ro_inv _ _ _ _ _ _ _ _ _ _ _ X) as HI.
      assert (EA : st_addr (v_st V) = st_addr S1) by (rewrite (tr_addr _ _ _ (ro_t4 _ _ _ _ _ _ _ _ _ _ _ X)), (tr_addr _ _ _ (ro_t3 _ _ _ _ _ _ _ _ _ _ _ X)), (tr_addr _ _ _ (ro_t2 _ _ _ _ _ _ _ _ _ _ _ X)), (tr_addr _ _ _ (ro_t1 _ _ _ _ _ _ _ _ _ _ _ X)); auto).
      rewrite EA. split; [|split].
      - intros a i Hin. destruct (ci_addrof _ _ HI _ _ Hin) as [it [A B]]. destruct (listed_end _ _ _ _ _ _ _ _ _ _ _ X _ _ A) as [it' [C D]]. exists it'. split; auto. rewrite (skel_addr _ _ D). auto.
      - intros i it L. destruct (listed_start _ _ _ _ _ _ _ _ _ _ _ X _ _ L) as [it0 [A B]]. rewrite (skel_addr _ _ B). eapply ci_addrall; eauto.
      - apply (ci_addrkeys _ _ HI).
    Qed.

    Lemma step2_perm : Permutation (recs l2) (recs k2).
    Proof.
      destruct (step2_reports _ _ _ _ _ _ _ _ _ _ _ R) as [fs [-> F]]. destruct (step2_reports _ _ _ _ _ _ _ _ _ _ _ Q) as [gs [-> G]].
      destruct (entries _ _ _ _ _ _ _ _ _ _ R) as [A1 [A2 A3]]. destruct (entries _ _ _ _ _ _ _ _ _ _ Q) as [B1 [B2 B3]].
      assert (KEY : forall (V : validator) x y, NoDup (map fst (st_addr (v_st V))) -> In x (st_addr (v_st V)) -> In y (st_addr (v_st V)) -> fst x = fst y -> x = y).
      { intros V x y. generalize (st_addr (v_st V)) as l. induction l as [|z l IH]; intros ND HX HY Exy; [destruct HX|]; simpl in ND; destruct HX as [->|X], HY as [->|Y]; auto; try (inversion ND; auto; fail).
        - inversion ND as [|? ? Z _]; subst. exfalso. apply Z. rewrite Exy. apply in_map. auto.
        - inversion ND as [|? ? Z _]; subst. exfalso. apply Z. rewrite <- Exy. apply in_map. auto. }
      refine (matched _ _ _ (fun x y => fst x = fst y) _ _ (st_addr (v_st v1)) (st_addr (v_st v2)) fs gs (NoDup_map_inv _ _ A3) (NoDup_map_inv _ _ B3) _ _ _ _ F G _).
      - intros [a i] Hin. destruct (A1 _ _ Hin) as [it [L Ea]]. destruct (fwd _ _ L) as [j [jt [M T]]]. pose proof (B2 _ _ M) as K. rewrite (tw_addr _ _ T), Ea in K.
        apply in_map_iff in K as [y [Ey K]]. exists y. auto.
      - intros [a i] Hin. destruct (B1 _ _ Hin) as [it [L Ea]]. destruct (bwd _ _ L) as [j [jt [M T]]]. pose proof (A2 _ _ M) as K. rewrite (tw_addr _ _ T), Ea in K.
        apply in_map_iff in K as [y [Ey K]]. exists y. auto.
      - intros x x' y X X' Y Y'. apply (KEY v1); auto; congruence.
      - intros x y y' Hy Hy' Y Y'. apply (KEY v2); auto; congruence.
      - intros [a i] [b j] xs ys X Y Ex [it [I1 [I2 I3]]] [jt [J1 [J2 J3]]]. simpl in *. subst b.
        destruct (A1 _ _ X) as [it' [L _]]. destruct (B1 _ _ Y) as [jt' [M _]].
        assert (it' = it) by (destruct L as [L _]; congruence). subst it'. assert (jt' = jt) by (destruct M as [M _]; congruence). subst jt'.
        destruct a as [a|].
        + assert (T : twin it jt) by (eapply twin_of; eauto; congruence). pose proof (obj_in_file u w v fname v1 f H1 Hf Hplain _ _ L) as HO.
          destruct I3 as [[h [O1 [G1 P1]]]|[O1 ->]], J3 as [[h' [O2 [G2 P2]]]|[O2 ->]]; rewrite ?(tw_obj _ _ T) in *; auto.
          * assert (h' = h) by congruence. subst h'. rewrite O1 in HO. simpl in HO. eapply (group_same_report (u_env u) w w' fname f f'); eauto.
          * exfalso. rewrite O1 in HO. simpl in HO. destruct (O2 _ O1) as [Z1 Z2]. rewrite <- (isgroup_same w w' fname f f' Hf Hf' Hr h HO) in Z1. destruct G1; congruence.
          * exfalso. rewrite O2 in HO. simpl in HO. destruct (O1 _ O2) as [Z1 Z2]. rewrite (isgroup_same w w' fname f f' Hf Hf' Hr h' HO) in Z1. destruct G2; congruence.
        + destruct (proj1 (addr_kind u w v fname v1 f H1 Hf Hplain _ _ L) I2) as [[x Ox] _]. destruct (proj1 (addr_kind u w' v fname v2 f' H2 Hf' Hplain' _ _ M) J2) as [[y Oy] _].
          destruct I3 as [[h [O1 _]]|[_ ->]]; [congruence|]. destruct J3 as [[h [O2 _]]|[_ ->]]; [congruence|]. auto.
    Qed.

    (** *** Step 3 *)
    Lemma items_at_spec : forall W V S1 S2 S3 S4 L1 L2 L3 L4, run_ok (mk_ctx u W fname) (st_classes (v_st v)) S1 S2 S3 S4 (v_st V) L1 L2 L3 L4 ->
      forall cp, NoDup (items_at V cp) /\ forall i, In i (items_at V cp) <-> exists it, listed V i it /\ it_cp it = cp.
    Proof.
      intros W V S1 S2 S3 S4 L1 L2 L3 L4 X cp. pose proof (ro_inv _ _ _ _ _ _ _ _ _ _ _ X) as HI.
      assert (EC : st_cp (v_st V) = st_cp S1) by (rewrite (tr_cp _ _ _ (ro_t4 _ _ _ _ _ _ _ _ _ _ _ X)), (tr_cp _ _ _ (ro_t3 _ _ _ _ _ _ _ _ _ _ _ X)), (tr_cp _ _ _ (ro_t2 _ _ _ _ _ _ _ _ _ _ _ X)), (tr_cp _ _ _ (ro_t1 _ _ _ _ _ _ _ _ _ _ _ X)); auto).
      unfold items_at. rewrite EC. assert (ND : NoDup (List.concat (dvals (st_cp S1)))) by (apply (Permutation_NoDup (Permutation_sym (ci_cpperm _ _ HI))); apply seq_NoDup).
      split.
      - destruct (dget cp (st_cp S1)) as [l|] eqn:El; [|constructor]. apply dget_In in El. eapply NoDup_part; [exact ND|]. unfold dvals. apply in_map_iff. exists (cp, l). auto.
      - intros i. split.
        + destruct (dget cp (st_cp S1)) as [l|] eqn:El; [|intros []]. intros Hin. apply dget_In in El. destruct (ci_cpof _ _ HI _ _ _ El Hin) as [it [A B]].
          destruct (listed_end _ _ _ _ _ _ _ _ _ _ _ X _ _ A) as [it' [C D]]. exists it'. split; auto. destruct (skel_eq _ _ D) as [_ [_ [_ [_ [Z _]]]]]. congruence.
        + intros [it [[A [k [l [K1 K2]]]] B]]. rewrite EC in K1. destruct (ci_cpof _ _ HI _ _ _ K1 K2) as [it0 [C D]].
          destruct (listed_end _ _ _ _ _ _ _ _ _ _ _ X _ _ C) as [it' [F G]]. assert (it' = it) by (destruct F as [F _]; congruence). subst it'.
          destruct (skel_eq _ _ G) as [_ [_ [_ [_ [Z _]]]]]. assert (Ek : k = cp) by congruence. rewrite Ek in K1. rewrite (WholeFacts.In_dget _ _ _ (ci_cpkeys _ _ HI) K1). auto.
    Qed.

    Definition def_path (cp : pystr) : Prop := cp = py "/NXentry/definition" \/ cp = py "/NXentry/NXsubentry/definition".

    Lemma definitions_spec : forall W V S1 S2 S3 S4 L1 L2 L3 L4, run_ok (mk_ctx u W fname) (st_classes (v_st v)) S1 S2 S3 S4 (v_st V) L1 L2 L3 L4 ->
      NoDup (definition_items V) /\ forall i, In i (definition_items V) <-> exists it, listed V i it /\ def_path (it_cp it).
    Proof.
      intros W V S1 S2 S3 S4 L1 L2 L3 L4 X. unfold definition_items.
      destruct (items_at_spec _ _ _ _ _ _ _ _ _ _ X (py "/NXentry/definition")) as [A1 A2]. destruct (items_at_spec _ _ _ _ _ _ _ _ _ _ X (py "/NXentry/NXsubentry/definition")) as [B1 B2]. split.
      - apply NoDup_app_disjoint; auto. intros i Hi Hj. apply A2 in Hi as [it [[L _] Ea]]. apply B2 in Hj as [jt [[M _] Eb]]. assert (jt = it) by congruence. subst jt. rewrite Ea in Eb.
        apply (f_equal (fun s => str_eqb s (py "/NXentry/definition"))) in Eb. vm_compute in Eb. discriminate.
      - intros i. rewrite in_app_iff, A2, B2. unfold def_path. split.
        + intros [[it [L Ec]]|[it [L Ec]]]; eauto.
        + intros [it [L [Ec|Ec]]]; eauto.
    Qed.

    Lemma def_not_other : forall cp, def_path cp -> cp <> non_nexus.
    Proof. intros cp [->| ->] X; apply (f_equal (fun s => str_eqb s non_nexus)) in X; vm_compute in X; discriminate. Qed.

    Lemma def_addr : forall W V F, validate u W v fname = (V, Ok tt) -> dget fname W = Some (FHdf5 F) -> plain_file F -> forall i it, listed V i it -> def_path (it_cp it) -> it_addr it <> None.
    Proof. intros W V F HV HW HP i it L D X. apply (addr_kind u W v fname V F HV HW HP _ _ L) in X as [_ X]. exact (def_not_other _ D X). Qed.

    Lemma step3_perm : Permutation (recs l3) (recs k3).
    Proof.
      destruct (definitions_run_of u w v fname v1 _ _ _ _ _ _ _ _ R) as [fs [F ->]]. destruct (definitions_run_of u w' v fname v2 _ _ _ _ _ _ _ _ Q) as [gs [G ->]].
      destruct (definitions_spec _ _ _ _ _ _ _ _ _ _ R) as [N1 D1]. destruct (definitions_spec _ _ _ _ _ _ _ _ _ _ Q) as [N2 D2].
      refine (matched _ _ _ (fun i j => exists it jt, listed v1 i it /\ listed v2 j jt /\ twin it jt /\ it_addr it <> None) _ _ _ _ fs gs N1 N2 _ _ _ _ F G _).
      - intros i Hi. apply D1 in Hi as [it [L C]]. destruct (fwd _ _ L) as [j [jt [M T]]]. exists j. split; [apply D2; exists jt; rewrite (tw_cp _ _ T); auto|].
        exists it, jt. repeat (split; [assumption|]). eapply (def_addr w v1 f); eauto.
      - intros j Hj. apply D2 in Hj as [jt [L C]]. destruct (bwd _ _ L) as [i [it [M T]]]. exists i. split; [apply D1; exists it; rewrite (tw_cp _ _ T); auto|].
        exists it, jt. split; auto. split; auto. split; [apply twin_sym; auto|]. rewrite (tw_addr _ _ T). eapply (def_addr w' v2 f'); eauto.
      - intros i i' j _ _ [it [jt [L [M [T N]]]]] [it' [jt' [L' [M' [T' N']]]]]. assert (jt' = jt) by (destruct M as [M _]; destruct M' as [M' _]; congruence). subst jt'.
        eapply uniq1; eauto. rewrite <- (tw_addr _ _ T), <- (tw_addr _ _ T'). reflexivity.
      - intros i j j' _ _ [it [jt [L [M [T N]]]]] [it' [jt' [L' [M' [T' N']]]]]. assert (it' = it) by (destruct L as [L _]; destruct L' as [L' _]; congruence). subst it'.
        eapply uniq2; eauto; rewrite (tw_addr _ _ T); auto. rewrite (tw_addr _ _ T'). reflexivity.
      - intros i j xs ys Hi Hj [it [jt [L [M [T N]]]]] [pit [[it' [p [X1 [X2 X3]]]] X4]] [qit [[jt' [q [Y1 [Y2 Y3]]]] Y4]].
        assert (it' = it) by (destruct L as [L _]; congruence). subst it'. assert (jt' = jt) by (destruct M as [M _]; congruence). subst jt'.
        apply D1 in Hi as [it' [L' C]]. assert (it' = it) by (destruct L' as [L' _]; congruence). subst it'.
        destruct (twin_parents u w w' v fname v1 v2 f f' H1 H2 Hf Hf' Hr Hplain Hd Hat _ _ _ _ _ L M T (def_not_other _ C) X2) as [q' [pt [qt [P1 [P2 [P3 P4]]]]]].
        assert (q' = q) by congruence. subst q'. assert (pt = pit) by (destruct P2 as [P2 _]; congruence). subst pt. assert (qt = qit) by (destruct P3 as [P3 _]; congruence). subst qt.
        assert (Ho : exists h, it_obj pit = ONode h) by (destruct X4; eauto). destruct Ho as [h Ho]. pose proof (obj_in_file u w v fname v1 f H1 Hf Hplain _ _ P2) as HO. rewrite Ho in HO. simpl in HO.
        assert (xs = ys); [|subst; auto]. eapply (definition_fun (u_env u) w w' fname f f'); eauto.
    Qed.

    (** *** Step 1 *)
    Lemma step1_only : forall W V S1 S2 S3 S4 L1 L2 L3 L4, run_ok (mk_ctx u W fname) (st_classes (v_st v)) S1 S2 S3 S4 (v_st V) L1 L2 L3 L4 -> forall a t,
      (key1 t = true -> filter (fun g => ostr_eqb (f_addr g) a && str_eqb (f_test g) t) (recs L1) = findings_for V a t)
      /\ (key1 t = false -> filter (fun g => ostr_eqb (f_addr g) a && str_eqb (f_test g) t) (recs L1) = []).
    Proof.
      intros W V S1 S2 S3 S4 L1 L2 L3 L4 X a t.
      assert (Z : forall K l, Forall (fun g => K (f_test g) = true) l -> K t = false -> filter (fun g => ostr_eqb (f_addr g) a && str_eqb (f_test g) t) l = []).
      { intros K l HF Kt. apply filter_none. eapply Forall_impl; [|exact HF]. cbv beta. intros g Hg. destruct (str_eqb (f_test g) t) eqn:Et; [|apply andb_false_r]. apply str_eqb_eq in Et. congruence. }
      split; intros Ht.
      - unfold findings_for. rewrite (tr_find _ _ _ (ro_t4 _ _ _ _ _ _ _ _ _ _ _ X)), (tr_find _ _ _ (ro_t3 _ _ _ _ _ _ _ _ _ _ _ X)), (tr_find _ _ _ (ro_t2 _ _ _ _ _ _ _ _ _ _ _ X)), (tr_find _ _ _ (ro_t1 _ _ _ _ _ _ _ _ _ _ _ X)), (ro_find _ _ _ _ _ _ _ _ _ _ _ X).
        pose proof (key1_later _ Ht) as KL. apply orb_false_iff in KL as [KL K4]. apply orb_false_iff in KL as [K2 K3]. rewrite !filter_app.
        rewrite (Z _ _ (recs_keys _ _ (with_key_new_of _ _ (ro_k2 _ _ _ _ _ _ _ _ _ _ _ X))) K2), (Z _ _ (recs_keys _ _ (ro_k3 _ _ _ _ _ _ _ _ _ _ _ X)) K3),
          (Z _ _ (recs_keys _ _ (with_key_new_of _ _ (ro_k4 _ _ _ _ _ _ _ _ _ _ _ X))) K4). simpl. rewrite !app_nil_r. reflexivity.
      - exact (Z _ _ (recs_keys _ _ (with_key_new_of _ _ (ro_k1 _ _ _ _ _ _ _ _ _ _ _ X))) Ht).
    Qed.

    Lemma step1_listed : forall W V S1 S2 S3 S4 L1 L2 L3 L4, run_ok (mk_ctx u W fname) (st_classes (v_st v)) S1 S2 S3 S4 (v_st V) L1 L2 L3 L4 -> forall g, In g (recs L1) ->
      exists i it, listed V i it /\ it_addr it = f_addr g.
    Proof.
      intros W V S1 S2 S3 S4 L1 L2 L3 L4 X g Hg. assert (F : Forall (fun e => match e with ENew _ => False | ERec _ _ => True end) L1).
      { eapply Forall_impl; [|exact (ro_k1 _ _ _ _ _ _ _ _ _ _ _ X)]. intros [n|j x]; simpl; tauto. }
      pose proof (log_addresses _ _ (tr_ok _ _ _ (ro_t1 _ _ _ _ _ _ _ _ _ _ _ X)) F) as A. rewrite Forall_forall in A. destruct (A _ Hg) as [i [it [B C]]].
      destruct (listed_end _ _ _ _ _ _ _ _ _ _ _ X _ _ B) as [it' [D G]]. exists i, it'. split; auto. rewrite (skel_addr _ _ G). auto.
    Qed.

    Lemma step1_perm : Permutation (recs l1) (recs k1).
    Proof.
      apply perm_by_key. intros a t. destruct (step1_only _ _ _ _ _ _ _ _ _ _ R a t) as [A1 A2]. destruct (step1_only _ _ _ _ _ _ _ _ _ _ Q a t) as [B1 B2].
      destruct (key1 t) eqn:Ht; [|rewrite A2, B2 by auto; auto].
      assert (NONE : forall g, In g (recs l1) \/ In g (recs k1) -> f_addr g <> None).
      { intros g Hg. pose proof (AddrRecord.findings_have_addresses u w v fname v1 (Ok tt) f Hf H1) as X1. pose proof (AddrRecord.findings_have_addresses u w' v fname v2 (Ok tt) f' Hf' H2) as X2. rewrite Forall_forall in X1, X2.
        destruct Hg as [Hg|Hg]; [apply X1|apply X2]; [rewrite (tr_find _ _ _ (ro_t4 _ _ _ _ _ _ _ _ _ _ _ R)), (tr_find _ _ _ (ro_t3 _ _ _ _ _ _ _ _ _ _ _ R)), (tr_find _ _ _ (ro_t2 _ _ _ _ _ _ _ _ _ _ _ R)), (tr_find _ _ _ (ro_t1 _ _ _ _ _ _ _ _ _ _ _ R))
          |rewrite (tr_find _ _ _ (ro_t4 _ _ _ _ _ _ _ _ _ _ _ Q)), (tr_find _ _ _ (ro_t3 _ _ _ _ _ _ _ _ _ _ _ Q)), (tr_find _ _ _ (ro_t2 _ _ _ _ _ _ _ _ _ _ _ Q)), (tr_find _ _ _ (ro_t1 _ _ _ _ _ _ _ _ _ _ _ Q))];
          rewrite !in_app_iff; tauto. }
      destruct (filter (fun g => ostr_eqb (f_addr g) a && str_eqb (f_test g) t) (recs l1)) as [|g l] eqn:E1.
      - destruct (filter (fun g => ostr_eqb (f_addr g) a && str_eqb (f_test g) t) (recs k1)) as [|g l] eqn:E2; auto. exfalso.
        assert (Hg : In g (recs k1) /\ ostr_eqb (f_addr g) a && str_eqb (f_test g) t = true) by (apply (filter_In (fun g => ostr_eqb (f_addr g) a && str_eqb (f_test g) t)); rewrite E2; left; auto).
        destruct Hg as [Hg Hk]. apply andb_true_iff in Hk as [Hk _]. apply ostr_eqb_eq in Hk. destruct (step1_listed _ _ _ _ _ _ _ _ _ _ Q _ Hg) as [j [jt [M Ea]]].
        pose proof (NONE g (or_intror Hg)) as NN. destruct (f_addr g) as [ad|] eqn:Eg; [|congruence]. subst a.
        destruct (bwd _ _ M) as [i [it [L T]]].
        pose proof (step1_same u w w' v fname v1 v2 f f' H1 H2 Hf Hf' Hr Hplain Hd Hat i it j jt ad t L M (twin_sym _ _ T) ltac:(rewrite (tw_addr _ _ T); auto) Ht) as X.
        rewrite <- A1, <- B1 in X by auto. discriminate.
      - assert (Hg : In g (recs l1) /\ ostr_eqb (f_addr g) a && str_eqb (f_test g) t = true) by (apply (filter_In (fun g => ostr_eqb (f_addr g) a && str_eqb (f_test g) t)); rewrite E1; left; auto).
        destruct Hg as [Hg Hk]. apply andb_true_iff in Hk as [Hk _]. apply ostr_eqb_eq in Hk. destruct (step1_listed _ _ _ _ _ _ _ _ _ _ R _ Hg) as [i [it [L Ea]]].
        pose proof (NONE g (or_introl Hg)) as NN. destruct (f_addr g) as [ad|] eqn:Eg; [|congruence]. subst a.
        destruct (fwd _ _ L) as [j [jt [M T]]].
        pose proof (step1_same u w w' v fname v1 v2 f f' H1 H2 Hf Hf' Hr Hplain Hd Hat i it j jt ad t L M T Ea Ht) as X. rewrite A1 by auto. rewrite B1 by auto. rewrite X. auto.
    Qed.
  End Runs.

  Theorem same_findings : Permutation (other_findings v1) (other_findings v2).
  Proof.
    destruct (validate_decompose _ _ _ _ _ H1) as [_ [_ [_ [s1 [s2 [s3 [s4 [l1 [l2 [l3 [l4 R]]]]]]]]]]]. destruct (validate_decompose _ _ _ _ _ H2) as [_ [_ [_ [t1 [t2 [t3 [t4 [k1 [k2 [k3 [k4 Q]]]]]]]]]]].
    pose proof (step1_perm _ _ _ _ _ _ _ _ _ _ _ _ _ _ _ _ R Q) as P1. pose proof (step2_perm _ _ _ _ _ _ _ _ _ _ _ _ _ _ _ _ R Q) as P2. pose proof (step3_perm _ _ _ _ _ _ _ _ _ _ _ _ _ _ _ _ R Q) as P3.
    assert (S : forall W V S1 S2 S3 S4 L1 L2 L3 L4, run_ok (mk_ctx u W fname) (st_classes (v_st v)) S1 S2 S3 S4 (v_st V) L1 L2 L3 L4 -> other_findings V = recs L1 ++ recs L2 ++ recs L3).
    { intros W V S1 S2 S3 S4 L1 L2 L3 L4 X. unfold other_findings.
      rewrite (tr_find _ _ _ (ro_t4 _ _ _ _ _ _ _ _ _ _ _ X)), (tr_find _ _ _ (ro_t3 _ _ _ _ _ _ _ _ _ _ _ X)), (tr_find _ _ _ (ro_t2 _ _ _ _ _ _ _ _ _ _ _ X)), (tr_find _ _ _ (ro_t1 _ _ _ _ _ _ _ _ _ _ _ X)), (ro_find _ _ _ _ _ _ _ _ _ _ _ X).
      assert (KEEP : forall K l, Forall (fun g => K (f_test g) = true) l -> (forall t, K t = true -> startswith t (py "NeXus default plot") = false) -> filter (fun g => negb (startswith (f_test g) (py "NeXus default plot"))) l = l).
      { intros K l HF HK. induction HF as [|g l Hg HF IH]; cbn [filter]; auto. rewrite (HK _ Hg). cbn [negb]. rewrite IH. reflexivity. }
      rewrite !filter_app. rewrite (KEEP _ _ (recs_keys _ _ (with_key_new_of _ _ (ro_k1 _ _ _ _ _ _ _ _ _ _ _ X))) key1_plain), (KEEP _ _ (recs_keys _ _ (with_key_new_of _ _ (ro_k2 _ _ _ _ _ _ _ _ _ _ _ X))) group_plain), (KEEP _ _ (recs_keys _ _ (ro_k3 _ _ _ _ _ _ _ _ _ _ _ X)) app_plain).
      replace (filter _ (recs L4)) with (@nil finding); [cbn [filter app]; rewrite app_nil_r, <- app_assoc; reflexivity|]. symmetry. apply filter_none. eapply Forall_impl; [|exact (recs_keys _ _ (with_key_new_of _ _ (ro_k4 _ _ _ _ _ _ _ _ _ _ _ X)))].
      cbv beta. intros g Hg. rewrite (step4_plot _ Hg). reflexivity. }
    rewrite (S _ _ _ _ _ _ _ _ _ _ R), (S _ _ _ _ _ _ _ _ _ _ Q). rewrite P1, P2, P3. auto.
  Qed.
End Whole.
