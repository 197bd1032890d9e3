(** * Path lookup in files without external links *)

From Coq Require Import List NArith ZArith Bool String Lia.
From Verif Require Import PyBase PyFacts Regex Utf8 H5 Findings Nxdl Core Catalog Validate Trace CatalogFacts Spec_Catalog.
Import ListNotations.

Lemma leads_app : forall f p q a b, leads f a (p ++ q) b <-> exists m, leads f a p m /\ leads f m q b.
Proof.
  intros f p q. induction p as [|n p IH]; intros a b; simpl; split.
  - intros H. exists a. split; [constructor | auto].
  - intros [m [H1 H2]]. inversion H1; subst. auto.
  - intros H. inversion H as [|? ? ? o ? D L R|? ? ? t o ? D L R]; subst.
    + apply IH in R as [m [H1 H2]]. exists m. split; auto. eapply le_hard; eauto.
    + apply IH in R as [m [H1 H2]]. exists m. split; auto. eapply le_soft; eauto.
  - intros [m [H1 H2]]. inversion H1 as [|? ? ? o ? D L R|? ? ? t o ? D L R]; subst.
    + eapply le_hard; eauto. apply IH. eauto.
    + eapply le_soft; eauto. apply IH. eauto.
Qed.

Lemma leads_fun : forall f a p b, leads f a p b -> forall b', leads f a p b' -> b = b'.
Proof.
  induction 1 as [a|a n p o b D L R IHR|a n p t o b D L IHL R IHR]; intros b' H';
    inversion H' as [|? ? ? o' ? D' L' R'|? ? ? t' o' ? D' L' R']; subst; auto; rewrite D in D'; inversion D'; subst; auto.
  apply IHL in L'. subst. auto.
Qed.

Lemma resolve_none : forall nl w cur c rest, dget c (links_of w cur) = None -> resolve nl w cur (c :: rest) = Exn KeyError.
Proof. intros [|nl] w cur c rest H; cbn [resolve]; rewrite H; reflexivity. Qed.
Lemma resolve_hard : forall nl w cur c o ob, dget c (links_of w cur) = Some (LHard o) -> get_obj w (h_file cur) o = Some ob ->
  resolve nl w cur [c] = Ok (mkH (h_file cur) o (child_path (h_name cur) c) false).
Proof. intros [|nl] w cur c o ob H H1; cbn [resolve]; rewrite H, H1; reflexivity. Qed.

Section Plain.
  Variable w : world.
  Variable file : pystr.
  Variable f : h5file.
  Hypothesis Hfile : dget file w = Some (FHdf5 f).
  Hypothesis Hplain : plain_file f.

  Lemma links_members : forall h, h_file h = file -> links_of w h = members f (h_oid h).
  Proof. intros h E. unfold links_of, obj_of, get_obj, members. rewrite E, Hfile. reflexivity. Qed.
  Lemma attrs_attributes : forall h, h_file h = file -> attrs_of w h = attributes f (h_oid h).
  Proof. intros h E. unfold attrs_of, obj_of, get_obj, attributes. rewrite E, Hfile. reflexivity. Qed.
  Lemma get_obj_lt : forall o, (exists x, get_obj w file o = Some x) <-> o < List.length f.
  Proof.
    intros. unfold get_obj. rewrite Hfile. rewrite <- nth_error_Some. split.
    - intros [x ->]. discriminate.
    - destruct (nth_error f o); eauto. congruence.
  Qed.
  Lemma group_is : forall h, h_file h = file -> h_isfile h = false -> (isHdf5Group w h = true <-> is_group f (h_oid h)).
  Proof.
    intros h E E2. unfold isHdf5Group, is_group_obj, obj_of, get_obj, is_group. rewrite E, E2, Hfile. simpl.
    rewrite andb_true_r. destruct (nth_error f (h_oid h)) as [ob|]; [|split; [discriminate|intros [? [? [? ?]]]; discriminate]].
    destruct (ob_kind ob) eqn:Ek; split; try discriminate; eauto.
    - intros [? [? [H1 H2]]]. inversion H1; subst. congruence.
    - intros [? [? [H1 H2]]]. inversion H1; subst. congruence.
  Qed.

  Lemma resolve_leads : forall nl comps cur h, resolve nl w cur comps = Ok h -> h_file cur = file ->
    h_file h = file /\ leads f (h_oid cur) comps (h_oid h).
  Proof.
    induction nl as [|nl IHn]; intros comps; induction comps as [|x comps IH]; simpl; intros cur h H Hc.
    - inversion H; subst. split; auto. constructor.
    - rewrite (links_members _ Hc) in H. destruct (dget x (members f (h_oid cur))) as [[o|p|g p]|] eqn:E; try discriminate.
      rewrite Hc in H. destruct (get_obj w file o) eqn:Eo; try discriminate.
      destruct (IH _ _ H eq_refl) as [H1 H2]. split; auto. eapply le_hard; eauto. apply get_obj_lt. eauto.
    - inversion H; subst. split; auto. constructor.
    - rewrite (links_members _ Hc) in H. destruct (dget x (members f (h_oid cur))) as [[o|p|g p]|] eqn:E; try discriminate.
      + rewrite Hc in H. destruct (get_obj w file o) eqn:Eo; try discriminate.
        destruct (IH _ _ H eq_refl) as [H1 H2]. split; auto. eapply le_hard; eauto. apply get_obj_lt. eauto.
      + destruct (resolve nl w _ (path_comps p)) as [t|e] eqn:Er; try discriminate.
        apply IHn in Er as [Hf Hl]; [|destruct (is_abs p); auto].
        destruct (IH _ _ H Hf) as [H1 H2]. split; auto. eapply le_soft; eauto. simpl in Hl.
        destruct (is_abs p); auto.
      + apply dget_In in E. destruct (Hplain _ _ _ E) as [_ X]. exfalso. eapply X; eauto.
  Qed.

  (** the name an object opened as member [n] gets *)
  Lemma resolve_one : forall nl cur n h, resolve nl w cur [n] = Ok h -> h_file cur = file ->
    h_name h = child_path (h_name cur) n /\ h_isfile h = false.
  Proof.
    intros nl cur n h H Hc.
    assert (X : forall l, dget n (members f (h_oid cur)) = Some l -> forall g p, l <> LExt g p).
    { intros l E. apply dget_In in E. apply Hplain in E. tauto. }
    destruct nl; simpl in H; rewrite (links_members _ Hc) in H; destruct (dget n (members f (h_oid cur))) as [[o|p|g p]|]; try discriminate.
    - destruct (get_obj w (h_file cur) o); inversion H; auto.
    - destruct (get_obj w (h_file cur) o); inversion H; auto.
    - destruct (resolve nl w _ (path_comps p)); inversion H; auto.
    - exfalso. eapply X; eauto.
  Qed.

  Lemma split_none : forall s, ~ In 47%N s -> split ch_slash s = [s].
  Proof. intros. apply split_no_sep. auto. Qed.

  Lemma comps_name : forall n, link_name n -> path_comps n = [n] /\ is_abs n = false.
  Proof.
    intros n [H1 [H2 H3]]. unfold path_comps. rewrite split_none by auto. simpl. split.
    - destruct (str_eqb_spec n []); [congruence|]. destruct (str_eqb_spec n [ch_dot]); [exfalso; apply H3; assumption|]. reflexivity.
    - unfold is_abs. destruct (startswith n slash) eqn:E; auto. apply startswith_spec in E as [t ->]. exfalso. apply H2. simpl. auto.
  Qed.

  Lemma getitem_member : forall g n h, h_file g = file -> link_name n -> getitem w g n = Ok h ->
    h_file h = file /\ leads f (h_oid g) [n] (h_oid h) /\ h_name h = child_path (h_name g) n /\ h_isfile h = false.
  Proof.
    intros g n h Hg Hn H. unfold getitem in H. destruct (comps_name _ Hn) as [E1 E2].
    destruct n as [|x n]; [discriminate|]. rewrite E1, E2 in H.
    destruct (resolve_leads _ _ _ _ H Hg) as [A B]. destruct (resolve_one _ _ _ _ H Hg) as [C D]. auto.
  Qed.

  Lemma path_text_snoc : forall p n, link_name n -> Forall link_name p -> child_path (path_text p) n = path_text (p ++ [n]).
  Proof.
    intros p n Hn Hp. unfold child_path. destruct p as [|m p].
    - simpl. rewrite app_nil_r. reflexivity.
    - assert (E : str_eqb (path_text (m :: p)) slash = false).
      { apply str_eqb_neq. simpl. inversion Hp as [|? ? [H1 _] _]; subst. destruct m; [congruence|]. discriminate. }
      rewrite E. change ((m :: p) ++ [n]) with (m :: (p ++ [n])). unfold path_text. fold path_text.
      change (m :: p ++ [n]) with ((m :: p) ++ [n]). rewrite map_app, concat_app. simpl. rewrite app_nil_r. reflexivity.
  Qed.

  (** handles reached from the root *)
  Lemma below_path : forall h, below w (open_root file) h -> exists p,
    h_file h = file /\ Forall link_name p /\ leads f 0 p (h_oid h) /\ h_name h = path_text p /\ (p = [] -> h = open_root file) /\ (p <> [] -> h_isfile h = false).
  Proof.
    assert (G : forall g h, below w g h -> forall p, h_file g = file -> Forall link_name p -> leads f 0 p (h_oid g) -> h_name g = path_text p ->
       (p = [] -> g = open_root file) -> (p <> [] -> h_isfile g = false) -> exists p,
       h_file h = file /\ Forall link_name p /\ leads f 0 p (h_oid h) /\ h_name h = path_text p /\ (p = [] -> h = open_root file) /\ (p <> [] -> h_isfile h = false)).
    { induction 1 as [h|h name h1 h2 Hin Hget Hb IH]; intros p F1 F2 F3 F4 F5 F6.
      - exists p. auto 10.
      - assert (Hn : link_name name).
        { rewrite (links_members _ F1) in Hin. unfold dkeys in Hin. apply in_map_iff in Hin as [[n l] [<- Hin]]. apply Hplain in Hin. tauto. }
        destruct (getitem_member _ _ _ F1 Hn Hget) as [G1 [G2 [G3 G4]]].
        apply (IH (p ++ [name])); auto.
        + apply Forall_app. auto.
        + apply leads_app. eauto.
        + rewrite G3, F4. apply path_text_snoc; auto.
        + intros E. apply app_eq_nil in E as [_ E]. discriminate. }
    intros h H. apply (G _ _ H []); auto; simpl; try constructor. congruence.
  Qed.

  (** every path is reached when every member can be opened *)
  Lemma path_below : (forall h name, below w (open_root file) h -> In name (dkeys (links_of w h)) -> exists h', getitem w h name = Ok h') ->
    forall p o, leads f 0 p o -> exists h, below w (open_root file) h /\ h_oid h = o /\ h_name h = path_text p /\ h_file h = file /\ Forall link_name p.
  Proof.
    intros Hall p. induction p as [|n p IH] using rev_ind; intros o H.
    - inversion H; subst. exists (open_root file). split; [apply below_refl|]. auto.
    - apply leads_app in H as [m [H1 H2]]. destruct (IH _ H1) as [h [B1 [B2 [B3 [B4 B5]]]]].
      assert (Hin : exists l, dget n (members f m) = Some l) by (inversion H2; eauto). destruct Hin as [l Hl]. apply dget_In in Hl.
      assert (Hk : In n (dkeys (links_of w h))). { rewrite (links_members _ B4), B2. unfold dkeys. apply in_map_iff. exists (n, l). auto. }
      destruct (Hplain _ _ _ Hl) as [Hn _].
      destruct (Hall _ _ B1 Hk) as [h' Hg]. destruct (getitem_member _ _ _ B4 Hn Hg) as [G1 [G2 [G3 G4]]].
      exists h'. split; [eapply below_snoc; eauto|]. split; [rewrite B2 in G2; eapply leads_fun; eauto|].
      split; [rewrite G3, B3; apply path_text_snoc; auto|]. split; auto. apply Forall_app. auto.
  Qed.
End Plain.

(** ** Paths and their text *)
Lemma concat_inj : forall p q, Forall link_name p -> Forall link_name q ->
  List.concat (map (fun n => 47%N :: n) p) = List.concat (map (fun n => 47%N :: n) q) -> p = q.
Proof.
  assert (S : forall (a b x y : pystr), ~ In 47%N a -> ~ In 47%N b ->
    (x = [] \/ exists t, x = 47%N :: t) -> (y = [] \/ exists t, y = 47%N :: t) -> a ++ x = b ++ y -> a = b /\ x = y).
  { induction a as [|c a IH]; intros b x y Ha Hb Hx Hy H; destruct b as [|d b]; simpl in H.
    - auto.
    - exfalso. destruct Hx as [->|[t ->]]; [discriminate|]. inversion H; subst. apply Hb. simpl. auto.
    - exfalso. destruct Hy as [->|[t ->]]; [discriminate|]. inversion H; subst. apply Ha. simpl. auto.
    - inversion H; subst. destruct (IH b x y) as [-> ->]; auto; intros Z; [apply Ha | apply Hb]; simpl; auto. }
  assert (T : forall q, List.concat (map (fun n => 47%N :: n) q) = [] \/ exists t, List.concat (map (fun n => 47%N :: n) q) = 47%N :: t).
  { intros [|n q]; [left; auto|right; simpl; eauto]. }
  induction p as [|n p IH]; intros q Hp Hq H; destruct q as [|m q]; auto; try discriminate.
  simpl in H. inversion H as [H0]. inversion Hp; subst. inversion Hq; subst.
  destruct H3 as [_ [A _]]. destruct H5 as [_ [B _]].
  destruct (S n m _ _ A B (T p) (T q) H0) as [-> E]. f_equal. auto.
Qed.

Lemma path_text_inj : forall p q, Forall link_name p -> Forall link_name q -> path_text p = path_text q -> p = q.
Proof.
  intros p q Hp Hq H. destruct p as [|n p], q as [|m q]; auto.
  - exfalso. simpl in H. inversion Hq as [|? ? [X _] _]; subst. destruct m; [congruence|]. discriminate.
  - exfalso. simpl in H. inversion Hp as [|? ? [X _] _]; subst. destruct n; [congruence|]. discriminate.
  - apply concat_inj; auto.
Qed.
