(** * Proofs about the texts of file sets, findings and items *)

From Coq Require Import List NArith ZArith Bool String Lia Permutation Sorted.
From Verif Require Import PyBase PyFacts H5 Findings Nxdl Core Catalog NameFacts Texts.
Import ListNotations.
Local Open Scope nat_scope.

(** classes of a category *)
Definition in_category (k : pystr) (l : list nxdef) : list nxdef := filter (fun d => str_eqb (d_category d) k) l.

Lemma count_step : forall d l count,
  count_categories (d :: l) count = count_categories l (dset (d_category d) (S (match dget (d_category d) count with Some n => n | None => 0 end))
    (match dget (d_category d) count with Some _ => count | None => dset (d_category d) 0 count end)).
Proof.
  intros. cbn [count_categories]. destruct (dget (d_category d) count) eqn:E; [rewrite E; reflexivity|]. rewrite dget_dset_same. reflexivity.
Qed.

Lemma count_get : forall l count k,
  match dget k (count_categories l count) with Some n => n | None => 0 end
    = (match dget k count with Some n => n | None => 0 end) + List.length (in_category k l)
  /\ (dget k (count_categories l count) <> None <-> dget k count <> None \/ in_category k l <> []).
Proof.
  induction l as [|d l IH]; intros count k; [simpl; split; [lia|tauto]|]. rewrite count_step.
  destruct (IH (dset (d_category d) (S (match dget (d_category d) count with Some n => n | None => 0 end))
    (match dget (d_category d) count with Some _ => count | None => dset (d_category d) 0 count end)) k) as [A B].
  unfold in_category. cbn [filter]. fold (in_category k l). destruct (str_eqb_spec (d_category d) k) as [Ek|N]; [subst k|].
  - rewrite dget_dset_same in A, B. split; [rewrite A; cbn [List.length]; lia|]. rewrite B. split; intros; [right|left]; discriminate.
  - assert (X : dget k (dset (d_category d) (S (match dget (d_category d) count with Some n => n | None => 0 end))
      (match dget (d_category d) count with Some _ => count | None => dset (d_category d) 0 count end)) = dget k count).
    { rewrite dget_dset_other by auto. destruct (dget (d_category d) count); auto. apply dget_dset_other. auto. }
    rewrite X in A, B. auto.
Qed.

Lemma count_nodup : forall l count, NoDup (map fst count) -> NoDup (map fst (count_categories l count)).
Proof.
  induction l as [|d l IH]; intros count H; auto. rewrite count_step. apply IH. apply dset_NoDup. destruct (dget (d_category d) count); auto. apply dset_NoDup. auto.
Qed.

Lemma count_pos : forall l count, Forall (fun kv : pystr * nat => 0 < snd kv) count -> Forall (fun kv => 0 < snd kv) (count_categories l count).
Proof.
  induction l as [|d l IH]; intros count H; auto. rewrite count_step. apply IH.
  assert (Y : forall k n c, Forall (fun kv : pystr * nat => 0 < snd kv) c -> 0 < n -> Forall (fun kv => 0 < snd kv) (dset k n c)).
  { intros k n. induction c as [|[a b] c IHc]; intros F P; cbn; [constructor; auto|]. inversion F; subst. unfold dset in *. cbn [aset].
    destruct (str_eqb k a); constructor; auto. }
  destruct (dget (d_category d) count); [apply Y; auto; lia|].
  clear -H Y. set (k := d_category d). induction count as [|[a b] c IHc]; cbn.
  - unfold dset. cbn. rewrite str_eqb_refl. constructor; [simpl; lia|constructor].
  - inversion H; subst. unfold dset in *. cbn [aset]. destruct (str_eqb k a) eqn:E; cbn [aset]; rewrite E; constructor; auto; simpl; lia.
Qed.

(** the counts that the text shows *)
Definition shown (classes : dict nxdef) : list (pystr * nat) := sorted_items (count_categories (dvals classes) []).

Lemma shown_in : forall cl k n, In (k, n) (shown cl) <-> n = List.length (in_category k (dvals cl)) /\ 0 < n.
Proof.
  intros cl k n. unfold shown, sorted_items. rewrite sorted_by_In. set (c := count_categories (dvals cl) []).
  assert (ND : NoDup (map fst c)) by (apply count_nodup; constructor).
  destruct (count_get (dvals cl) [] k) as [A B]. fold c in A, B. change (dget k (@nil (pystr * nat))) with (@None nat) in A, B.
  split.
  - intros I. pose proof (proj1 (Forall_forall _ _) (count_pos (dvals cl) [] (Forall_nil _)) _ I) as P. assert (Z : dget k c = Some n) by (apply In_aget_NoDup; [apply str_eqb_eq|exact ND|exact I]). rewrite Z in A.
    simpl in A, P. auto.
  - intros [E P]. destruct (dget k c) as [m|] eqn:G.
    + apply dget_In in G. simpl in A. subst n. rewrite <- A. auto.
    + simpl in A. lia.
Qed.

Lemma shown_sorted : forall cl, StronglySorted (fun a b => str_leb (fst a) (fst b) = true /\ fst a <> fst b) (shown cl).
Proof.
  intros cl. unfold shown, sorted_items. set (c := count_categories (dvals cl) []).
  assert (ND : NoDup (map fst (sorted_by fst c))) by (apply sorted_by_NoDup_keys, count_nodup; constructor).
  pose proof (sorted_by_sorted fst c) as S1. induction S1 as [|x l S1 IH F]; constructor.
  - apply IH. inversion ND; auto.
  - inversion ND as [|? ? N1 N2]; subst. rewrite Forall_forall in *. intros y Hy. split; auto. intros E. apply N1. rewrite E. apply in_map. auto.
Qed.

Lemma count_total : forall l count, list_sum (map snd (count_categories l count)) = list_sum (map snd count) + List.length l.
Proof.
  assert (Y : forall (k : pystr) n c, list_sum (map snd (dset k (S (match dget k c with Some m => m | None => 0 end) + n) c))
     = S n + list_sum (map snd c)).
  { intros k n. induction c as [|[a b] c IHc]; [cbn; lia|]. unfold dset, dget in *. cbn [aset aget]. destruct (str_eqb k a); [cbn; lia|].
    cbn [map list_sum fold_right snd] in *. unfold list_sum in *. cbn [fold_right]. lia. }
  induction l as [|d l IH]; intros count; [simpl; lia|]. rewrite count_step, IH.
  destruct (dget (d_category d) count) as [m|] eqn:E.
  - specialize (Y (d_category d) 0 count). rewrite E in Y. rewrite Nat.add_0_r in Y. rewrite Y. simpl. lia.
  - assert (Z : dset (d_category d) 1 (dset (d_category d) 0 count) = dset (d_category d) 1 count).
    { clear. set (k := d_category d). unfold dset. induction count as [|[a b] c IHc]; cbn [aset]; [rewrite str_eqb_refl; reflexivity|].
      destruct (str_eqb k a) eqn:E; cbn [aset]; rewrite E; [reflexivity|]. f_equal. exact IHc. }
    rewrite Z. specialize (Y (d_category d) 0 count). rewrite E in Y. cbn [Nat.add] in Y. rewrite Y. simpl. lia.
Qed.

Lemma shown_total : forall cl, list_sum (map snd (shown cl)) = List.length cl.
Proof.
  intros cl. unfold shown, sorted_items.
  assert (P : forall a b, Permutation a b -> list_sum a = list_sum b). { induction 1; simpl in *; lia. }
  rewrite (P _ _ (Permutation_map snd (sorted_by_perm _ _))), count_total. unfold dvals. rewrite map_length. reflexivity.
Qed.

Lemma sorted_same : forall A (R : A -> A -> Prop) (l l' : list A), (forall x y, R x y -> R y x -> False) -> StronglySorted R l -> StronglySorted R l' ->
  (forall x, In x l <-> In x l') -> l = l'.
Proof.
  intros A R l. induction l as [|x l IH]; intros l' AS S1 S2 H.
  - destruct l' as [|y l']; auto. exfalso. apply (proj2 (H y)). left; auto.
  - destruct l' as [|y l']; [exfalso; apply (proj1 (H x)); left; auto|]. inversion S1 as [|? ? S1' F1]; inversion S2 as [|? ? S2' F2]; subst.
    rewrite Forall_forall in F1, F2.
    assert (x = y).
    { destruct (proj1 (H x) (or_introl eq_refl)) as [E|I]; auto. destruct (proj2 (H y) (or_introl eq_refl)) as [E|J]; auto. exfalso. eapply AS; eauto. }
    subst y. f_equal. apply IH; auto. intros z. split; intros I.
    + destruct (proj1 (H z) (or_intror I)) as [<-|J]; auto. exfalso. specialize (F1 _ I). eapply AS; eauto.
    + destruct (proj2 (H z) (or_intror I)) as [<-|J]; auto. exfalso. specialize (F2 _ I). eapply AS; eauto.
Qed.

Lemma shown_same : forall cl cl', (forall k, List.length (in_category k (dvals cl)) = List.length (in_category k (dvals cl'))) -> shown cl = shown cl'.
Proof.
  intros cl cl' H. eapply sorted_same; [|apply shown_sorted|apply shown_sorted|].
  - intros x y [A1 A2] [B1 B2]. apply A2. apply str_leb_antisym; auto.
  - intros [k n]. rewrite !shown_in, H. tauto.
Qed.

(** ** The text tells the counts *)
Lemma str_nat_digits : forall n c, In c (str_nat n) -> (48 <= c <= 57)%N.
Proof.
  intros n c H. unfold str_nat in H.
  assert (X : forall d, forall c, In c (py (DecimalString.NilEmpty.string_of_uint d)) -> (48 <= c <= 57)%N).
  { induction d; simpl; intros x [E|E] || intros x E; try contradiction; try (subst; cbn; lia); auto. }
  unfold DecimalString.NilZero.string_of_uint in H. destruct (Nat.to_uint n) eqn:E; try (rewrite <- E in H; apply X in H; exact H);
    try (apply (X _ _ H)). simpl in H. destruct H as [<-|[]]. cbn. lia.
Qed.

Lemma join_pieces : forall (a b : list pystr), Forall (fun s => ~ In 44%N s) a -> Forall (fun s => ~ In 44%N s) b ->
  Forall (fun s => s <> []) a -> Forall (fun s => s <> []) b ->
  join (py ", ") a = join (py ", ") b -> a = b.
Proof.
  change (py ", ") with [44%N; 32%N].
  assert (P : forall x y u v : pystr, ~ In 44%N x -> ~ In 44%N y -> x ++ 44%N :: u = y ++ 44%N :: v -> x = y /\ u = v).
  { induction x as [|c x IH]; intros y u v Nx Ny E; destruct y as [|d y]; simpl in *; inversion E; subst; auto; try (exfalso; tauto).
    destruct (IH y u v) as [-> ->]; auto. }
  induction a as [|x a IH]; intros b Fa Fb Na Nb E.
  - destruct b as [|y b]; auto. inversion Nb; subst. exfalso. destruct y; [auto|]. destruct b; simpl in E; discriminate.
  - destruct b as [|y b]; [inversion Na; subst; destruct x; [exfalso; auto|]; destruct a; simpl in E; discriminate|].
    inversion Fa as [|? ? Fx Fa']; inversion Fb as [|? ? Fy Fb']; inversion Na as [|? ? Nx Na']; inversion Nb as [|? ? Ny Nb']; subst.
    destruct a as [|x' a], b as [|y' b]; cbn [join] in E.
    + congruence.
    + exfalso. apply Fx. rewrite E. apply in_app_iff. right. left. auto.
    + exfalso. apply Fy. rewrite <- E. apply in_app_iff. right. left. auto.
    + change ([44%N; 32%N] ++ join [44%N; 32%N] (x' :: a)) with (44%N :: 32%N :: join [44%N; 32%N] (x' :: a)) in E.
      change ([44%N; 32%N] ++ join [44%N; 32%N] (y' :: b)) with (44%N :: 32%N :: join [44%N; 32%N] (y' :: b)) in E.
      apply P in E as [-> E]; auto. inversion E as [E']. f_equal. apply IH; auto.
Qed.

Lemma piece_inj : forall (k k' : pystr) n n', k ++ py ":" ++ str_nat n = k' ++ py ":" ++ str_nat n' -> k = k' /\ n = n'.
Proof.
  change (py ":") with [58%N].
  assert (D : forall n, ~ In 58%N (str_nat n)) by (intros n H; apply str_nat_digits in H; lia).
  intros k k' n n' E. assert (X : k = k' /\ str_nat n = str_nat n').
  { revert k' E. induction k as [|c k IH]; intros [|d k'] E; simpl in E.
    - inversion E; auto.
    - inversion E as [[E1 E2]]. exfalso. apply (D n). rewrite E2. apply in_app_iff. right. left. auto.
    - inversion E as [[E1 E2]]. exfalso. apply (D n'). rewrite <- E2. apply in_app_iff. right. left. auto.
    - inversion E as [[E1 E2]]. destruct (IH _ E2) as [-> ->]. auto. }
  destruct X as [-> X]. split; auto. apply str_nat_inj; auto.
Qed.

Lemma text_tells : forall cl cl', (forall d, In d (dvals cl) \/ In d (dvals cl') -> ~ In 44%N (d_category d)) ->
  manager_text cl = manager_text cl' -> shown cl = shown cl'.
Proof.
  intros cl cl' H E. unfold manager_text in E. apply app_inv_head in E. apply app_inv_tail in E. fold (shown cl) (shown cl') in E.
  assert (G : forall c, (forall d, In d (dvals c) -> ~ In 44%N (d_category d)) ->
     Forall (fun s => ~ In 44%N s) (map (fun kv => fst kv ++ py ":" ++ str_nat (snd kv)) (shown c)) /\
     Forall (fun s => s <> []) (map (fun kv => fst kv ++ py ":" ++ str_nat (snd kv)) (shown c))).
  { intros c Hc. split; apply Forall_forall; intros s I; apply in_map_iff in I as [[k n] [<- I]]; cbn [fst snd].
    - apply shown_in in I as [-> P]. intros J. apply in_app_iff in J as [J|[J|J]]; [|discriminate J|apply str_nat_digits in J; lia].
      destruct (in_category k (dvals c)) as [|d r] eqn:Ec; [simpl in P; lia|].
      assert (Id : In d (in_category k (dvals c))) by (rewrite Ec; left; auto). apply filter_In in Id as [Id Ed]. apply str_eqb_eq in Ed. subst k. eapply Hc; eauto.
    - intros Z. apply app_eq_nil in Z as [_ Z]. discriminate. }
  destruct (G cl) as [A1 A2]; [auto|]. destruct (G cl') as [B1 B2]; [auto|].
  pose proof (join_pieces _ _ A1 B1 A2 B2 E) as X. clear -X. revert X. generalize (shown cl) as a, (shown cl') as b.
  induction a as [|[k n] a IH]; intros [|[k' n'] b] X; try discriminate; auto. cbn [map fst snd] in X. injection X as X1 X2.
  apply piece_inj in X1 as [-> ->]. f_equal. auto.
Qed.

Lemma counts_of_shown : forall cl cl', shown cl = shown cl' -> forall k, List.length (in_category k (dvals cl)) = List.length (in_category k (dvals cl')).
Proof.
  assert (G : forall cl cl', shown cl = shown cl' -> forall k, 0 < List.length (in_category k (dvals cl)) ->
     List.length (in_category k (dvals cl)) = List.length (in_category k (dvals cl'))).
  { intros cl cl' E k P. assert (I : In (k, List.length (in_category k (dvals cl))) (shown cl)) by (apply shown_in; auto).
    rewrite E in I. apply shown_in in I. tauto. }
  intros cl cl' E k. destruct (List.length (in_category k (dvals cl))) eqn:A.
  - destruct (List.length (in_category k (dvals cl'))) eqn:B; auto. exfalso. specialize (G cl' cl (eq_sym E) k). lia.
  - rewrite <- A. apply G; auto. lia.
Qed.

(** ** Findings *)
Lemma comma_inj : forall x y u v : pystr, ~ In 44%N x -> ~ In 44%N y -> x ++ 44%N :: u = y ++ 44%N :: v -> x = y /\ u = v.
Proof.
  induction x as [|c x IH]; intros y u v Nx Ny E; destruct y as [|d y]; simpl in *; inversion E; subst; auto; try (exfalso; tauto).
  destruct (IH y u v) as [-> ->]; auto.
Qed.

Lemma status_key_comma : forall s, ~ In 44%N (status_key s).
Proof. intros s H. destruct s; vm_compute in H; repeat (destruct H as [H|H]; [discriminate|]); destruct H. Qed.

Lemma status_key_inj : forall a b, status_key a = status_key b -> a = b.
Proof. intros a b H. destruct a, b; try reflexivity; vm_compute in H; discriminate. Qed.

Lemma finding_text_inj : forall f g a b, f_addr f = Some a -> f_addr g = Some b -> ~ In 44%N a -> ~ In 44%N b -> ~ In 44%N (f_test f) -> ~ In 44%N (f_test g) ->
  finding_text f = finding_text g -> f = g.
Proof.
  intros [af tf sf cf] [ag tg sg cg] a b Ea Eb Na Nb Nt Nu E. cbn [f_addr f_test f_status f_comment] in *. subst af ag. unfold finding_text in E.
  cbn [f_addr f_test f_status f_comment ostr] in E. apply app_inv_head in E. apply app_inv_tail in E.
  change (py ", finding.") with (44%N :: py " finding.") in E. change (py ", ") with [44%N; 32%N] in E. rewrite <- !app_comm_cons in E.
  apply comma_inj in E as [-> E]; auto. injection E as E. apply comma_inj in E as [-> E]; auto. injection E as E.
  apply comma_inj in E as [E1 E]; try apply status_key_comma. injection E as ->. rewrite (status_key_inj _ _ E1). reflexivity.
Qed.

(** ** Items *)
Lemma object_type_ok : forall E w tt o, (exists t, object_type E w tt o = Ok t) <-> identify_object_type E w o = Ok Datatypes.tt.
Proof.
  intros E w tt [h|x]; cbn; [|split; eauto]. destruct (obj_of w h) as [ob|]; [|split; eauto].
  destruct (ob_kind ob); try (split; eauto; fail); destruct (isNeXusLink E w h); cbn [rbind]; split; eauto; intros H; try discriminate; destruct H; discriminate.
Qed.

Lemma node_type : forall E w tt p h it, node_item E w p h = Ok it -> exists t, object_type E w tt (it_obj it) = Ok t.
Proof.
  intros E w tt p h it H. apply object_type_ok. unfold node_item in H. destruct (determine_NeXus_classpath _ _ _ _ _); [|discriminate]. cbn [rbind] in H.
  destruct (identify_object_type E w (ONode h)) as [[]|] eqn:I; [|discriminate]. cbn [rbind] in H. inversion H; subst. exact I.
Qed.
