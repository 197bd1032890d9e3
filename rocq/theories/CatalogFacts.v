(** * Invariants of the catalogue *)

From Coq Require Import List NArith ZArith Bool String Lia Permutation.
From Verif Require Import PyBase PyFacts Regex Utf8 H5 Findings Nxdl Core Catalog Validate Trace.
Import ListNotations.

(** ** How each item came about *)
(** [carrier items p h]: item [p] stands for the open object [h] when children of
    [h] are catalogued: the item of [h], or (non-NeXus content) one of its
    attributes *)
Inductive carrier (items : list vitem) (p : nat) (pit : vitem) (h : handle) : Prop :=
| car_self : nth_error items p = Some pit -> it_obj pit = ONode h -> carrier items p pit h
| car_attr : forall q qit v k, nth_error items p = Some pit -> nth_error items q = Some qit -> q < p ->
    it_obj qit = ONode h -> it_cp qit = NON_NEXUS ->
    pit = attr_item q qit v (Some k) -> carrier items p pit h.

Inductive origin (c : ctx) (items : list vitem) (i : nat) (it : vitem) : Prop :=
| or_root : i = 0 -> it_parent it = None -> node_item (c_env c) (c_world c) None (c_root c) = Ok it -> origin c items i it
| or_node : forall p pit hp h name, p < i -> carrier items p pit hp ->
    (hp = c_root c \/ isHdf5Group (c_world c) hp = true) ->
    In name (dkeys (links_of (c_world c) hp)) ->
    getitem (c_world c) hp name = Ok h ->
    node_item (c_env c) (c_world c) (Some (p, pit)) h = Ok it -> origin c items i it
| or_attr : forall p pit h k v, p < i -> nth_error items p = Some pit -> it_obj pit = ONode h ->
    In (k, v) (attrs_of (c_world c) h) -> it = attr_item p pit v (Some k) -> origin c items i it.

Record cinv (c : ctx) (s : vstate) : Prop := mkCinv {
  ci_vals : forall i it, nth_error (st_items s) i = Some it -> it_vals it = [];
  ci_cpkeys : NoDup (map fst (st_cp s));
  ci_cpperm : Permutation (List.concat (dvals (st_cp s))) (seq 0 (List.length (st_items s)));
  ci_cpof : forall k l i, In (k, l) (st_cp s) -> In i l -> exists it, nth_error (st_items s) i = Some it /\ it_cp it = k;
  ci_addrkeys : NoDup (map fst (st_addr s));
  ci_addrof : forall a i, In (a, i) (st_addr s) -> exists it, nth_error (st_items s) i = Some it /\ it_addr it = a;
  ci_addrall : forall i it, nth_error (st_items s) i = Some it -> In (it_addr it) (map fst (st_addr s));
  ci_origin : forall i it, nth_error (st_items s) i = Some it -> origin c (st_items s) i it
}.

Lemma carrier_mono : forall items x p pit h, carrier items p pit h -> carrier (items ++ x) p pit h.
Proof.
  assert (N : forall (items x : list vitem) i it, nth_error items i = Some it -> nth_error (items ++ x) i = Some it).
  { intros. rewrite nth_error_app1; auto. apply nth_error_Some. congruence. }
  intros items x p pit h [H1 H2|q qit v k H1 H2 H3 H4 H5 H6]; [eapply car_self | eapply car_attr]; eauto.
Qed.

Lemma origin_mono : forall c items x i it, origin c items i it -> origin c (items ++ x) i it.
Proof.
  intros c items x i it [H1 H2 H3|p pit hp h name H1 H2 H3 H4 H5 H6|p pit h k v H1 H2 H3 H4 H5].
  - eapply or_root; eauto.
  - eapply or_node; eauto. apply carrier_mono. auto.
  - eapply or_attr; eauto. rewrite nth_error_app1; auto. apply nth_error_Some. congruence.
Qed.

Lemma nth_snoc : forall A (l : list A) x i y, nth_error (l ++ [x]) i = Some y ->
  nth_error l i = Some y \/ (i = List.length l /\ y = x).
Proof.
  intros. destruct (Nat.lt_ge_cases i (List.length l)).
  - rewrite nth_error_app1 in H; auto.
  - rewrite nth_error_app2 in H; auto. destruct (i - List.length l) as [|n] eqn:E; simpl in H.
    + inversion H. right. split; auto. lia.
    + destruct n; discriminate.
Qed.

Lemma nth_mono : forall A (l x : list A) i y, nth_error l i = Some y -> nth_error (l ++ x) i = Some y.
Proof. intros. rewrite nth_error_app1; auto. apply nth_error_Some. congruence. Qed.

(** ** Adding to the class path index *)
Lemma concat_dset : forall k i (d : dict (list nat)), NoDup (map fst d) ->
  Permutation (List.concat (dvals (dset k ((match dget k d with Some l => l | None => [] end) ++ [i]) d)))
              (i :: List.concat (dvals d)).
Proof.
  unfold dget, dset, dvals. induction d as [|[k' l'] d IH]; simpl; intros H; auto.
  inversion H; subst. destruct (str_eqb k k') eqn:E; simpl.
  - rewrite <- app_assoc. simpl. symmetry. apply Permutation_middle.
  - rewrite IH; auto. symmetry. apply Permutation_middle.
Qed.

(** ** register *)
Lemma register_state : forall it s,
  register it s =
  (mkSt (st_items s ++ [it]) (aset ostr_eqb (it_addr it) (List.length (st_items s)) (st_addr s))
        (dset (it_cp it) ((match dget (it_cp it) (st_cp s) with Some l => l | None => [] end) ++ [List.length (st_items s)]) (st_cp s))
        (st_find s) (st_cache s) (st_classes s), Ok (List.length (st_items s))).
Proof. reflexivity. Qed.

Lemma register_cinv : forall c it s s' r, cinv c s -> it_vals it = [] ->
  origin c (st_items s ++ [it]) (List.length (st_items s)) it ->
  register it s = (s', r) -> cinv c s'.
Proof.
  intros c it s s' r HI Hv Ho H. rewrite register_state in H. inversion H; subst; clear H.
  destruct HI. constructor; simpl.
  - intros i it' H. apply nth_snoc in H as [H|[-> ->]]; eauto.
  - apply dset_NoDup. auto.
  - rewrite concat_dset by auto. rewrite app_length. simpl. rewrite Nat.add_1_r, seq_S. simpl.
    rewrite ci_cpperm0. apply Permutation_cons_append.
  - intros k l i Hin Hi. unfold dset in Hin. apply (In_aset str_eqb str_eqb_eq) in Hin as [[-> ->]|Hin].
    + apply in_app_or in Hi as [Hi|[<-|[]]].
      * destruct (dget (it_cp it) (st_cp s)) as [l0|] eqn:E; [|destruct Hi].
        apply dget_In in E. destruct (ci_cpof0 _ _ _ E Hi) as [it' [H1 H2]].
        exists it'. split; auto. apply nth_mono. auto.
      * exists it. split; auto. rewrite nth_error_app2, Nat.sub_diag; auto.
    + destruct (ci_cpof0 _ _ _ Hin Hi) as [it' [H1 H2]]. exists it'. split; auto. apply nth_mono. auto.
  - apply aset_NoDup; auto. apply ostr_eqb_eq.
  - intros a i Hin. apply (In_aset ostr_eqb ostr_eqb_eq) in Hin as [[-> ->]|Hin].
    + exists it. split; auto. rewrite nth_error_app2, Nat.sub_diag; auto.
    + destruct (ci_addrof0 _ _ Hin) as [it' [H1 H2]]. exists it'. split; auto. apply nth_mono. auto.
  - intros i it' H. apply (In_keys_aset ostr_eqb ostr_eqb_eq). apply nth_snoc in H as [H|[-> ->]]; auto. right. eauto.
  - intros i it' H. apply nth_snoc in H as [H|[-> ->]]; auto. apply origin_mono. auto.
Qed.

Lemma node_item_spec : forall E w p h it, node_item E w p h = Ok it ->
  it_obj it = ONode h /\ it_addr it = Some (h_name h) /\ it_vals it = [] /\ it_parent it = option_map fst p
  /\ it_name it = Some (if str_eqb (h_name h) slash then slash else last_part ch_slash (h_name h)).
Proof.
  intros E w p h it H. unfold node_item in H.
  destruct (determine_NeXus_classpath _ _ _ _ _) as [[cp n]|e]; [|discriminate].
  cbn [rbind] in H. destruct (identify_object_type _ _ _); [|discriminate]. cbn [rbind] in H. inversion H. simpl. auto 10.
Qed.

Lemma attr_item_spec : forall q qit v k, it_obj (attr_item q qit v k) = OVal v
  /\ it_vals (attr_item q qit v k) = [] /\ it_parent (attr_item q qit v k) = Some q /\ it_name (attr_item q qit v k) = k
  /\ it_nxclass (attr_item q qit v k) = None.
Proof. intros. unfold attr_item. destruct (str_eqb (it_cp qit) NON_NEXUS); simpl; auto 10. Qed.

(** what registration leaves alone *)
Definition grows (s s' : vstate) : Prop :=
  (exists x, st_items s' = st_items s ++ x) /\ st_find s' = st_find s /\ st_cache s' = st_cache s /\ st_classes s' = st_classes s.
Lemma grows_refl : forall s, grows s s.
Proof. intros. split; [exists []; rewrite app_nil_r|]; auto. Qed.
Lemma grows_trans : forall a b c, grows a b -> grows b c -> grows a c.
Proof.
  intros a b c [[x Hx] [H1 [H2 H3]]] [[y Hy] [H4 [H5 H6]]]. split; [exists (x ++ y)|].
  - rewrite Hy, Hx, app_assoc. auto.
  - repeat split; congruence.
Qed.
Lemma grows_nth : forall s s' i it, grows s s' -> nth_error (st_items s) i = Some it -> nth_error (st_items s') i = Some it.
Proof. intros s s' i it [[x Hx] _] H. rewrite Hx. apply nth_mono. auto. Qed.
Lemma register_grows : forall it s s' r, register it s = (s', r) -> grows s s'.
Proof. intros. rewrite register_state in H. inversion H; subst. split; simpl; eauto. Qed.

(** ** get_subject *)
Lemma attrs_loop : forall c i it h l s s' r, cinv c s -> nth_error (st_items s) i = Some it -> it_obj it = ONode h ->
  (forall k v, In (k, v) l -> In (k, v) (attrs_of (c_world c) h)) ->
  for_each (fun ka => let* _i := register (attr_item i it (snd ka) (Some (fst ka))) in ret tt) l s = (s', r) ->
  r = Ok tt /\ cinv c s' /\ grows s s'
  /\ (forall k v, In (k, v) l -> exists j, nth_error (st_items s') j = Some (attr_item i it v (Some k)))
  /\ (forall cp, cp <> NON_NEXUS -> cp = it_cp it -> dget cp (st_cp s') = dget cp (st_cp s))
  /\ (it_cp it = NON_NEXUS -> forall l0, dget NON_NEXUS (st_cp s) = Some l0 ->
        exists l1, dget NON_NEXUS (st_cp s') = Some (l0 ++ l1)
        /\ forall j, In j l1 -> exists v k, nth_error (st_items s') j = Some (attr_item i it v (Some k)) /\ i < j).
Proof.
  induction l as [|[k v] l IH]; intros s s' r HI Hn Ho Hl H.
  - simpl in H. inversion H; subst. split; auto. split; auto. split; [apply grows_refl|]. split; [simpl; tauto|].
    split; auto. intros _ l0 Hl0. exists []. rewrite app_nil_r. split; auto. simpl. tauto.
  - cbn [for_each fst snd] in H. unfold bind at 1 in H. unfold bind at 1 in H.
    destruct (register (attr_item i it v (Some k)) s) as [s1 [j|e]] eqn:E.
    2: { rewrite register_state in E. inversion E. }
    cbn [ret] in H.
    pose proof (attr_item_spec i it v (Some k)) as [A1 [A2 [A3 [A4 A5]]]].
    assert (Hi : i < List.length (st_items s)). { apply nth_error_Some. congruence. }
    assert (HI1 : cinv c s1).
    { eapply register_cinv; [exact HI|exact A2| |exact E].
      eapply or_attr; [exact Hi | apply nth_mono; exact Hn | exact Ho | apply Hl; left; reflexivity | reflexivity]. }
    pose proof (register_grows _ _ _ _ E) as HG.
    destruct (IH _ _ _ HI1 (grows_nth _ _ _ _ HG Hn) Ho (fun k v Hin => Hl k v (or_intror Hin)) H)
      as [-> [HI2 [HG2 [Hall [Hcp Hnn]]]]].
    assert (Hj : nth_error (st_items s1) j = Some (attr_item i it v (Some k)) /\ j = List.length (st_items s)).
    { rewrite register_state in E. inversion E; subst. simpl. split; auto. rewrite nth_error_app2, Nat.sub_diag; auto. }
    destruct Hj as [Hj Ej].
    split; auto. split; auto. split; [eapply grows_trans; eauto|]. split; [|split].
    + intros k' v' [Heq|Hin]; [|eauto]. inversion Heq; subst. exists (List.length (st_items s)).
      eapply grows_nth; eauto.
    + intros cp Hcp1 Hcp2. rewrite Hcp by auto. rewrite register_state in E. inversion E; subst. simpl.
      apply dget_dset_other. unfold attr_item. rewrite (proj2 (str_eqb_neq (it_cp it) NON_NEXUS)) by auto. simpl.
      intros Heq. apply (f_equal (@List.length N)) in Heq. rewrite app_length in Heq. simpl in Heq. lia.
    + intros Hnx l0 Hl0.
      assert (H1 : dget NON_NEXUS (st_cp s1) = Some (l0 ++ [j])).
      { rewrite register_state in E. inversion E; subst. simpl.
        assert (Hc : it_cp (attr_item i it v (Some k)) = NON_NEXUS).
        { unfold attr_item. rewrite Hnx, str_eqb_refl. reflexivity. }
        rewrite Hc, Hl0. apply dget_dset_same. }
      destruct (Hnn Hnx _ H1) as [l1 [H2 H3]]. exists (j :: l1). split.
      * rewrite H2, <- app_assoc. reflexivity.
      * intros j' [<-|Hj']; [|auto]. exists v, k. split; [eapply grows_nth; eauto | lia].
Qed.

(** the parent given to get_subject is a carrier of a group *)
Definition parent_ok (c : ctx) (s : vstate) (parent : option nat) (h : handle) : Prop :=
  match parent with
  | None => h = c_root c /\ st_items s = []
  | Some p => exists pit hp name, carrier (st_items s) p pit hp
      /\ (hp = c_root c \/ isHdf5Group (c_world c) hp = true)
      /\ In name (dkeys (links_of (c_world c) hp)) /\ getitem (c_world c) hp name = Ok h
  end.

Lemma carrier_nth : forall items p pit h, carrier items p pit h -> nth_error items p = Some pit.
Proof. intros items p pit h []; auto. Qed.

Lemma get_subject_spec : forall c parent h s s' r, cinv c s -> parent_ok c s parent h ->
  get_subject c parent h s = (s', r) ->
  cinv c s' /\ grows s s' /\
  (forall i, r = Ok i -> exists it, nth_error (st_items s') i = Some it /\ it_obj it = ONode h
     /\ (exists p, node_item (c_env c) (c_world c) p h = Ok it /\ option_map fst p = parent)
     /\ i = List.length (st_items s)
     /\ (forall k v, In (k, v) (attrs_of (c_world c) h) -> exists j, nth_error (st_items s') j = Some (attr_item i it v (Some k)))
     /\ exists p pit, last_of_classpath (it_cp it) s' = (s', Ok p) /\ carrier (st_items s') p pit h).
Proof.
  intros c parent h s s' r HI HP H. unfold get_subject in H.
  set (m := match parent with None => _ | Some _ => _ end) in H.
  assert (Hm : exists op, m s = (s, Ok op) /\ option_map fst op = parent
     /\ (forall it, node_item (c_env c) (c_world c) op h = Ok it -> origin c (st_items s ++ [it]) (List.length (st_items s)) it)).
  { destruct parent as [p|]; simpl in HP; unfold m.
    - destruct HP as [pit [hp [name [Hc [Hg [Hin Hget]]]]]]. exists (Some (p, pit)).
      pose proof (carrier_nth _ _ _ _ Hc) as Hnth. split; [|split; auto].
      + unfold bind, item. rewrite Hnth. reflexivity.
      + intros it Hit. eapply or_node; try eassumption.
        * apply nth_error_Some. congruence.
        * apply carrier_mono. auto.
    - destruct HP as [-> Hnil]. exists None. split; auto. split; auto.
      intros it Hit. apply or_root; auto.
      + rewrite Hnil. reflexivity.
      + apply node_item_spec in Hit as [_ [_ [_ [H0 _]]]]. rewrite H0. reflexivity. }
  destruct Hm as [op [Hm [Hop Hor]]]. unfold bind at 1 in H. rewrite Hm in H.
  unfold bind at 1 in H. unfold lift at 1 in H.
  destruct (node_item (c_env c) (c_world c) op h) as [it|e] eqn:Eit.
  2: { inversion H; subst. split; auto. split; [apply grows_refl|]. intros; discriminate. }
  pose proof (node_item_spec _ _ _ _ _ Eit) as [N1 [N2 [N3 [N4 N5]]]].
  unfold bind at 1 in H. destruct (register it s) as [s1 [i|e]] eqn:E.
  2: { rewrite register_state in E. inversion E. }
  assert (HI1 : cinv c s1). { eapply register_cinv; eauto. }
  pose proof (register_grows _ _ _ _ E) as HG.
  assert (Hi : i = List.length (st_items s) /\ nth_error (st_items s1) i = Some it
     /\ exists l0, dget (it_cp it) (st_cp s1) = Some (l0 ++ [i])).
  { rewrite register_state in E. inversion E; subst. simpl. split; auto. split.
    - rewrite nth_error_app2, Nat.sub_diag; auto.
    - eexists. apply dget_dset_same. }
  destruct Hi as [Ei [Hi [l0 Hl0]]].
  unfold bind at 1 in H.
  destruct (for_each _ (sorted_items (attrs_of (c_world c) h)) s1) as [s2 r2] eqn:E2.
  assert (Hin : forall k v, In (k, v) (sorted_items (attrs_of (c_world c) h)) -> In (k, v) (attrs_of (c_world c) h)).
  { intros. apply sorted_by_In in H0. auto. }
  destruct (attrs_loop c i it h _ _ _ _ HI1 Hi N1 Hin E2) as [-> [HI2 [HG2 [Hall [Hcp Hnn]]]]].
  inversion H; subst; clear H. split; auto. split; [eapply grows_trans; eauto|].
  intros i0 H0. inversion H0; subst; clear H0.
  exists it. split; [eapply grows_nth; eauto|]. split; auto. split; [exists op; auto|]. split; auto. split.
  { intros k v Hkv. apply Hall. apply sorted_by_In. auto. }
  destruct (str_eqb_spec (it_cp it) NON_NEXUS) as [Enn|Enn].
  - rewrite Enn in Hl0. destruct (Hnn Enn _ Hl0) as [l1 [H1 H2]].
    unfold last_of_classpath. rewrite Enn, H1.
    rewrite <- app_assoc. simpl. rewrite rev_app_distr. simpl.
    destruct (rev l1) as [|j r1] eqn:Er; simpl.
    + exists (List.length (st_items s)), it. split; auto. apply car_self; auto. eapply grows_nth; eauto.
    + exists j. destruct (H2 j) as [v [k [H3 H4]]]. { apply in_rev. rewrite Er. left. auto. }
      exists (attr_item (List.length (st_items s)) it v (Some k)). split; auto.
      eapply car_attr with (q := List.length (st_items s)); try eassumption; auto. eapply grows_nth; eauto.
  - unfold last_of_classpath. rewrite Hcp by auto. rewrite Hl0, rev_app_distr. simpl.
    exists (List.length (st_items s)), it. split; auto. apply car_self; auto. eapply grows_nth; eauto.
Qed.

(** ** The walk *)
(** objects reachable by following members *)
Inductive below (w : world) : handle -> handle -> Prop :=
| below_refl : forall h, below w h h
| below_child : forall h name h1 h2, In name (dkeys (links_of w h)) -> getitem w h name = Ok h1 ->
    below w h1 h2 -> below w h h2.

Lemma below_snoc : forall w h h1 name h2, below w h h1 -> In name (dkeys (links_of w h1)) ->
  getitem w h1 name = Ok h2 -> below w h h2.
Proof.
  induction 1; intros.
  - eapply below_child; eauto. apply below_refl.
  - eapply below_child; eauto.
Qed.

Lemma resolve_notfile : forall nl w comps cur h, resolve nl w cur comps = Ok h -> h_isfile cur = false -> h_isfile h = false.
Proof.
  destruct nl as [|nl]; intros w comps; induction comps as [|x comps IH]; simpl; intros cur h H Hc.
  - inversion H; subst; auto.
  - destruct (dget x (links_of w cur)) as [[o|p|f p]|]; try discriminate.
    destruct (get_obj w (h_file cur) o); try discriminate. eapply IH; eauto.
  - inversion H; subst; auto.
  - destruct (dget x (links_of w cur)) as [[o|p|f p]|]; try discriminate.
    + destruct (get_obj w (h_file cur) o); try discriminate. eapply IH; eauto.
    + destruct (resolve nl w _ (path_comps p)); try discriminate. eapply IH; eauto.
    + destruct (get_obj w f 0); try discriminate.
      destruct (resolve nl w _ (path_comps p)); try discriminate. eapply IH; eauto.
Qed.

Lemma getitem_notfile : forall w h name h', getitem w h name = Ok h' -> h_isfile h' = false.
Proof.
  intros w h name h' H. unfold getitem in H. destruct name; [discriminate|].
  eapply resolve_notfile; eauto. destruct (is_abs (n :: name)); reflexivity.
Qed.

Lemma below_nongroup : forall w h h', h_isfile h = false -> isHdf5Group w h = false -> below w h h' -> h' = h.
Proof.
  intros w h h' Hf Hg H. inversion H; subst; auto. exfalso.
  unfold isHdf5Group in Hg. rewrite Hf in Hg. simpl in Hg. rewrite andb_true_r in Hg.
  unfold is_group_obj, links_of in *. destruct (obj_of w h) as [o|]; [|inversion H0].
  destruct (ob_kind o); [discriminate|inversion H0|inversion H0].
Qed.

Definition recorded (c : ctx) (items : list vitem) (h : handle) : Prop :=
  exists i it, nth_error items i = Some it /\ it_obj it = ONode h
    /\ forall k v, In (k, v) (attrs_of (c_world c) h) -> exists j, nth_error items j = Some (attr_item i it v (Some k)).

Lemma recorded_grows : forall c s s' h, grows s s' -> recorded c (st_items s) h -> recorded c (st_items s') h.
Proof.
  intros c s s' h HG [i [it [H1 [H2 H3]]]]. exists i, it. split; [eapply grows_nth; eauto|]. split; auto.
  intros k v Hkv. destruct (H3 k v Hkv) as [j Hj]. exists j. eapply grows_nth; eauto.
Qed.

Lemma carrier_grows : forall s s' p pit h, grows s s' -> carrier (st_items s) p pit h -> carrier (st_items s') p pit h.
Proof. intros s s' p pit h [[x Hx] _] H. rewrite Hx. apply carrier_mono. auto. Qed.

Definition step_member (n : nat) (c : ctx) (group : handle) (p : nat) (name : pystr) : M unit :=
  let* h := lift (getitem (c_world c) group name) in
  if isHdf5Group (c_world c) h
  then group_address_catalog n c (Some p) h
  else let* _i := get_subject c (Some p) h in ret tt.

Lemma catalog_unfold : forall n c parent group,
  group_address_catalog (S n) c parent group =
  (let* obj := get_subject c parent group in
   let* it := item obj in
   let* p := last_of_classpath (it_cp it) in
   for_each (step_member n c group p) (dkeys (links_of (c_world c) group))).
Proof. reflexivity. Qed.

Lemma catalog_spec : forall n c parent group s s' r, cinv c s -> parent_ok c s parent group ->
  (group = c_root c \/ isHdf5Group (c_world c) group = true) ->
  group_address_catalog n c parent group s = (s', r) ->
  cinv c s' /\ grows s s' /\ (r = Ok tt -> forall h, below (c_world c) group h -> recorded c (st_items s') h).
Proof.
  induction n as [|n IH]; intros c parent group s s' r HI HP Hg H.
  { inversion H; subst. split; auto. split; [apply grows_refl | discriminate]. }
  rewrite catalog_unfold in H.
  unfold bind at 1 in H. destruct (get_subject c parent group s) as [s1 r1] eqn:E1.
  destruct (get_subject_spec _ _ _ _ _ _ HI HP E1) as [HI1 [HG1 Hsub]].
  destruct r1 as [i|e].
  2: { inversion H; subst. split; auto. split; auto. discriminate. }
  destruct (Hsub i eq_refl) as [it [Hi [Hobj [_ [_ [Hattrs [p [pit [Hlast Hcar]]]]]]]]].
  unfold bind at 1 in H. unfold item at 1 in H. rewrite Hi in H.
  unfold bind at 1 in H. rewrite Hlast in H.
  assert (Hrec : recorded c (st_items s1) group). { exists i, it. auto. }
  clear Hlast Hsub E1 Hattrs.
  assert (L : forall l s1 s' r, cinv c s1 -> carrier (st_items s1) p pit group ->
     (forall name, In name l -> In name (dkeys (links_of (c_world c) group))) ->
     for_each (step_member n c group p) l s1 = (s', r) ->
     cinv c s' /\ grows s1 s' /\ (r = Ok tt -> forall name h1 h, In name l -> getitem (c_world c) group name = Ok h1 ->
        below (c_world c) h1 h -> recorded c (st_items s') h)).
  { clear s s1 s' r HI HP H HI1 HG1 Hi Hcar Hrec it Hobj i parent.
    induction l as [|name l IHl]; intros s1 s' r HI1 Hcar Hl H.
    - inversion H; subst. split; auto. split; [apply grows_refl|]. intros _ ? ? ? [].
    - cbn [for_each] in H. unfold bind at 1 in H.
      destruct (step_member n c group p name s1) as [s2 r2] eqn:E.
      assert (Hstep : cinv c s2 /\ grows s1 s2 /\ (r2 = Ok tt -> forall h1 h, getitem (c_world c) group name = Ok h1 ->
           below (c_world c) h1 h -> recorded c (st_items s2) h)).
      { unfold step_member in E. unfold bind at 1 in E. unfold lift in E.
        destruct (getitem (c_world c) group name) as [h1|e] eqn:Eg.
        2: { inversion E; subst. split; auto. split; [apply grows_refl | discriminate]. }
        assert (HP1 : parent_ok c s1 (Some p) h1).
        { exists pit, group, name. split; auto. split; auto. split; auto. apply Hl. left. auto. }
        destruct (isHdf5Group (c_world c) h1) eqn:Eh.
        - destruct (IH _ _ _ _ _ _ HI1 HP1 (or_intror Eh) E) as [Q1 [Q2 Q3]].
          split; auto. split; auto. intros Hr h2 h Heq Hb. inversion Heq; subst. auto.
        - unfold bind at 1 in E. destruct (get_subject c (Some p) h1 s1) as [s3 r3] eqn:E3.
          destruct (get_subject_spec _ _ _ _ _ _ HI1 HP1 E3) as [Q1 [Q2 Q3]].
          destruct r3 as [i|e]; inversion E; subst.
          + split; auto. split; auto. intros _ h2 h Heq Hb. inversion Heq; subst.
            apply below_nongroup in Hb; auto; [|eapply getitem_notfile; eauto]. subst.
            destruct (Q3 i eq_refl) as [it [R1 [R2 [_ [_ [R3 _]]]]]]. exists i, it. auto.
          + split; auto. split; auto. discriminate. }
      destruct Hstep as [HI2 [HG2 Hstep]]. destruct r2 as [[]|e].
      2: { inversion H; subst. split; auto. split; auto. discriminate. }
      destruct (IHl _ _ _ HI2 (carrier_grows _ _ _ _ _ HG2 Hcar) (fun x Hx => Hl x (or_intror Hx)) H) as [HI3 [HG3 Hrest]].
      split; auto. split; [eapply grows_trans; eauto|].
      intros Hr name' h1 h [->|Hin] Hget Hb.
      + eapply recorded_grows; eauto.
      + eapply Hrest; eauto. }
  destruct (L _ _ _ _ HI1 Hcar (fun x Hx => Hx) H) as [HI2 [HG2 Hall]].
  split; auto. split; [eapply grows_trans; eauto|].
  intros Hr h Hb. inversion Hb; subst.
  - eapply recorded_grows; eauto.
  - eapply Hall; eauto.
Qed.

Lemma fresh_cinv : forall c cl, cinv c (fresh_state cl).
Proof.
  intros. unfold fresh_state. constructor; simpl; try constructor; intros; try contradiction;
    destruct i; discriminate.
Qed.

Lemma build_spec : forall c cl s' r, build_address_catalog c (fresh_state cl) = (s', r) ->
  cinv c s' /\ grows (fresh_state cl) s'
  /\ (r = Ok tt -> forall h, below (c_world c) (c_root c) h -> recorded c (st_items s') h).
Proof.
  intros. unfold build_address_catalog in H. eapply catalog_spec; eauto.
  - apply fresh_cinv.
  - simpl. auto.
Qed.

(** every item that is an open object was reached from the root *)
Lemma cinv_sound : forall c s, cinv c s -> forall i it, nth_error (st_items s) i = Some it ->
  (forall h, it_obj it = ONode h -> below (c_world c) (c_root c) h)
  /\ (forall v, it_obj it = OVal v -> exists p pit h k, nth_error (st_items s) p = Some pit /\ it_obj pit = ONode h /\ p < i
        /\ In (k, v) (attrs_of (c_world c) h) /\ it = attr_item p pit v (Some k)).
Proof.
  intros c s HI. induction i as [i IH] using lt_wf_ind. intros it Hi.
  destruct (ci_origin _ _ HI _ _ Hi) as [H1 H2 H3|p pit hp h name H1 H2 H3 H4 H5 H6|p pit h k v H1 H2 H3 H4 H5].
  - apply node_item_spec in H3 as [N1 _]. rewrite N1. split; intros; [|discriminate]. inversion H. apply below_refl.
  - apply node_item_spec in H6 as [N1 _]. rewrite N1. split; intros; [|discriminate]. inversion H; subst.
    eapply below_snoc; eauto. destruct H2 as [A1 A2|q qit v k A1 A2 A3 A4 A5 A6].
    + eapply IH; eauto.
    + eapply (IH q); eauto. lia.
  - subst it. destruct (attr_item_spec p pit v (Some k)) as [A1 _]. rewrite A1. split; intros; [discriminate|].
    inversion H; subst. exists p, pit, h, k. auto.
Qed.
