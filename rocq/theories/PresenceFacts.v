(** * Looking up names in a file whose members can all be opened *)

From Coq Require Import List NArith ZArith Bool String Lia.
From Verif Require Import PyBase PyFacts Regex Utf8 H5 Findings Nxdl Core Catalog Validate Trace CatalogFacts Spec_Catalog PathFacts CatalogTerm Spec_Attributes.
Import ListNotations.

Lemma path_comps_names : forall p, Forall link_name (path_comps p).
Proof.
  intros p. unfold path_comps. apply Forall_forall. intros x Hx. apply filter_In in Hx as [H1 H2].
  apply negb_true_iff, orb_false_iff in H2 as [H2 H3]. apply str_eqb_neq in H2. apply str_eqb_neq in H3.
  split; auto. split; auto. apply (split_parts_no_sep ch_slash p). auto.
Qed.

Lemma resolve_cons : forall nl w cur x rest, resolve nl w cur (x :: rest) =
  match resolve nl w cur [x] with Ok t => resolve nl w t rest | Exn e => Exn e end.
Proof.
  intros nl w cur x rest. destruct nl; simpl.
  - destruct (dget x (links_of w cur)) as [[o|p|g p]|]; auto. destruct (get_obj w (h_file cur) o); auto.
  - destruct (dget x (links_of w cur)) as [[o|p|g p]|]; auto.
    + destruct (get_obj w (h_file cur) o); auto.
    + destruct (resolve nl w _ (path_comps p)); auto.
    + destruct (get_obj w g 0); auto. destruct (resolve nl w _ (path_comps p)); auto.
Qed.

Definition same_object (a b : handle) : Prop := h_file a = h_file b /\ h_oid a = h_oid b.

Lemma same_links : forall w a b, same_object a b -> links_of w a = links_of w b.
Proof. intros w a b [E1 E2]. unfold links_of, obj_of. rewrite E1, E2. reflexivity. Qed.
Lemma same_group : forall w a b, same_object a b -> is_group_obj w a = is_group_obj w b.
Proof. intros w a b [E1 E2]. unfold is_group_obj, obj_of. rewrite E1, E2. reflexivity. Qed.

Definition same_result (a b : res handle) : Prop :=
  match a, b with Ok x, Ok y => same_object x y | Exn e, Exn e' => e = e' | _, _ => False end.

Lemma resolve_same : forall nl w comps a b, same_object a b -> same_result (resolve nl w a comps) (resolve nl w b comps).
Proof.
  induction nl as [|nl IHn]; intros w comps; induction comps as [|x comps IH]; intros a b E; try exact E.
  - simpl. rewrite (same_links _ _ _ E). destruct E as [E1 E2]. destruct (dget x (links_of w b)) as [[o|p|g p]|]; simpl; auto.
    rewrite E1. destruct (get_obj w (h_file b) o); simpl; auto. apply IH. split; reflexivity.
  - rewrite (resolve_cons _ _ a), (resolve_cons _ _ b).
    assert (X : same_result (resolve (S nl) w a [x]) (resolve (S nl) w b [x])).
    { simpl. rewrite (same_links _ _ _ E). destruct (dget x (links_of w b)) as [[o|p|g p]|]; simpl; auto.
      - rewrite (proj1 E). destruct (get_obj w (h_file b) o); simpl; auto. split; reflexivity.
      - assert (Y : same_object (if is_abs p then root_handle (h_file a) else a) (if is_abs p then root_handle (h_file b) else b)).
        { destruct (is_abs p); auto. rewrite (proj1 E). split; reflexivity. }
        pose proof (IHn w (path_comps p) _ _ Y) as Z. destruct (resolve nl w _ (path_comps p)), (resolve nl w _ (path_comps p)); simpl in *; auto; try contradiction.
      - destruct (get_obj w g 0); simpl; auto. destruct (resolve nl w _ (path_comps p)); simpl; auto. split; reflexivity. }
    destruct (resolve (S nl) w a [x]), (resolve (S nl) w b [x]); simpl in X; auto; try contradiction.
Qed.

(** a single name *)
Lemma getitem_name : forall w h n, link_name n -> getitem w h n = resolve max_nlinks w (mkH (h_file h) (h_oid h) (h_name h) false) [n].
Proof.
  intros w h n H. destruct (comps_name _ H) as [E1 E2]. unfold getitem. destruct n; [destruct H; congruence|]. rewrite E1, E2. reflexivity.
Qed.

Lemma contains_name : forall w h n, link_name n -> contains w h n = dmem n (links_of w h).
Proof.
  intros w h n H. destruct (comps_name _ H) as [E1 E2]. unfold contains. destruct n as [|x n]; [destruct H; congruence|].
  rewrite E1, E2. simpl. rewrite (same_links w _ h); [reflexivity|split; reflexivity].
Qed.

Lemma dmem_keys : forall V k (d : dict V), dmem k d = true <-> In k (dkeys d).
Proof.
  intros V k d. unfold dmem, amem. fold (dget k d). destruct (dget k d) as [x|] eqn:E.
  - apply dget_In in E. split; auto. intros _. unfold dkeys. apply in_map_iff. exists (k, x). auto.
  - apply dget_None in E. split; [discriminate|]. intros H. contradiction.
Qed.

Section Presence.
  Variable w : world.
  Variable file : pystr.
  Variable f : h5file.
  Hypothesis Hfile : dget file w = Some (FHdf5 f).
  Hypothesis Hplain : plain_file f.
  Hypothesis Hopen : all_open w file.

  (** [cur] is a reachable object of the file, under whatever name *)
  Definition known (cur : handle) : Prop := h_file cur = file /\ exists g, reachable w file g /\ h_file g = file /\ h_oid g = h_oid cur.

  Lemma reachable_file : forall g, reachable w file g -> h_file g = file.
  Proof. intros g [k H]. apply chain_below in H. destruct (below_path _ _ _ Hfile Hplain _ H) as [p [A _]]. auto. Qed.
  Lemma reachable_known : forall g, reachable w file g -> known g.
  Proof. intros g H. pose proof (reachable_file _ H). split; auto. exists g. auto. Qed.
  Lemma root_known : known (root_handle file).
  Proof. split; auto. exists (open_root file). split; [exists 0; constructor|]. auto. Qed.
  Lemma same_known : forall a b, same_object a b -> known a -> known b.
  Proof. intros a b [E1 E2] [A [g [B [C D]]]]. split; [congruence|]. exists g. split; auto. split; auto. congruence. Qed.

  Lemma step_ok : forall cur n, known cur -> link_name n -> In n (dkeys (links_of w cur)) ->
    exists t, resolve max_nlinks w cur [n] = Ok t /\ known t /\ leads f (h_oid cur) [n] (h_oid t).
  Proof.
    intros cur n [A [g [B [C D]]]] Hn Hin. assert (E : same_object g cur) by (split; congruence).
    rewrite <- (same_links w _ _ E) in Hin. destruct (Hopen _ _ B Hin) as [t Ht]. pose proof Ht as Ht'. rewrite (getitem_name _ _ _ Hn) in Ht'.
    assert (E2 : same_object (mkH (h_file g) (h_oid g) (h_name g) false) cur) by (split; simpl; congruence).
    pose proof (resolve_same max_nlinks w [n] _ _ E2) as X. rewrite Ht' in X. destruct (resolve max_nlinks w cur [n]) as [t'|] eqn:R; simpl in X; [|contradiction].
    exists t'. split; auto. destruct (getitem_member _ _ _ Hfile Hplain _ _ _ C Hn Ht) as [G1 [G2 [G3 G4]]]. split.
    - split; [destruct X; congruence|]. exists t. destruct X as [X1 X2]. split; auto. destruct B as [k B]. exists (S k). apply (chain_snoc _ _ _ n _ _ B). split; auto.
    - rewrite <- D, <- (proj2 X). auto.
  Qed.

  Lemma leads_keys : forall o n rest b, leads f o (n :: rest) b -> In n (dkeys (members f o)).
  Proof.
    intros o n rest b H. inversion H; subst; match goal with D : dget _ _ = _ |- _ => apply dget_In in D end;
      unfold dkeys; apply in_map_iff; eexists; split; eauto; reflexivity.
  Qed.

  Lemma links_known : forall cur, known cur -> links_of w cur = members f (h_oid cur).
  Proof. intros cur [A _]. apply (links_members _ _ _ Hfile). auto. Qed.

  Lemma resolve_known : forall comps cur, Forall link_name comps -> known cur ->
    (exists t, resolve max_nlinks w cur comps = Ok t /\ known t /\ leads f (h_oid cur) comps (h_oid t))
    \/ (resolve max_nlinks w cur comps = Exn KeyError /\ forall b, ~ leads f (h_oid cur) comps b).
  Proof.
    induction comps as [|n comps IH]; intros cur Hc Hk.
    - left. exists cur. split; auto. split; auto. constructor.
    - inversion Hc; subst. rewrite resolve_cons. destruct (dget n (links_of w cur)) as [l|] eqn:E.
      + assert (Hin : In n (dkeys (links_of w cur))). { apply dget_In in E. unfold dkeys. apply in_map_iff. exists (n, l). auto. }
        destruct (step_ok _ _ Hk H1 Hin) as [t [R [K L]]]. rewrite R. destruct (IH t H2 K) as [[t' [R' [K' L']]]|[R' L']].
        * left. exists t'. split; auto. split; auto. change (n :: comps) with ([n] ++ comps). apply leads_app. eauto.
        * right. split; auto. intros b Hb. change (n :: comps) with ([n] ++ comps) in Hb. apply leads_app in Hb as [m [M1 M2]].
          rewrite (leads_fun _ _ _ _ M1 _ L) in M2. apply (L' _ M2).
      + right. split.
        * assert (X : resolve max_nlinks w cur [n] = Exn KeyError) by (apply resolve_none; exact E). rewrite X. reflexivity.
        * intros b Hb. apply leads_keys in Hb. rewrite (links_known _ Hk) in E. apply dget_None in E. contradiction.
  Qed.

  Lemma is_group_known : forall t, known t -> forall n rest b, leads f (h_oid t) (n :: rest) b -> is_group_obj w t = true.
  Proof.
    intros t Hk n rest b H. apply leads_keys in H. rewrite <- (links_known _ Hk) in H. unfold links_of in H. unfold is_group_obj.
    destruct (obj_of w t) as [o|]; [|destruct H]. destruct (ob_kind o); auto; destruct H.
  Qed.

  Lemma path_valid_leads : forall comps cur, Forall link_name comps -> known cur ->
    (path_valid w cur comps = true <-> exists b, leads f (h_oid cur) comps b).
  Proof.
    induction comps as [|n comps IH]; intros cur Hc Hk.
    - simpl. split; auto. intros _. exists (h_oid cur). constructor.
    - inversion Hc; subst. destruct comps as [|m comps].
      + simpl. rewrite dmem_keys. split.
        * intros Hin. destruct (step_ok _ _ Hk H1 Hin) as [t [_ [_ L]]]. eauto.
        * intros [b Hb]. apply leads_keys in Hb. rewrite (links_known _ Hk). auto.
      + change (path_valid w cur (n :: m :: comps)) with (if dmem n (links_of w cur) then
          match resolve max_nlinks w cur [n] with Ok t => if is_group_obj w t then path_valid w t (m :: comps) else false | Exn _ => false end else false).
        destruct (dmem n (links_of w cur)) eqn:E.
        * apply dmem_keys in E. destruct (step_ok _ _ Hk H1 E) as [t [R [K L]]]. rewrite R. split.
          -- intros H. destruct (is_group_obj w t); [|discriminate]. apply (proj1 (IH t H2 K)) in H as [b Hb]. exists b.
             change (n :: m :: comps) with ([n] ++ m :: comps). apply leads_app. eauto.
          -- intros [b Hb]. change (n :: m :: comps) with ([n] ++ m :: comps) in Hb. apply leads_app in Hb as [x [X1 X2]].
             rewrite (leads_fun _ _ _ _ X1 _ L) in X2. rewrite (is_group_known _ K _ _ _ X2). apply (proj2 (IH t H2 K)). eauto.
        * split; [discriminate|]. intros [b Hb]. apply leads_keys in Hb. rewrite <- (links_known _ Hk) in Hb. apply dmem_keys in Hb. congruence.
  Qed.

  Lemma start_known : forall h s, known h -> known (if is_abs s then root_handle (h_file h) else mkH (h_file h) (h_oid h) (h_name h) false).
  Proof.
    intros h s Hk. destruct (is_abs s).
    - rewrite (proj1 Hk). apply root_known.
    - eapply same_known; [|exact Hk]. split; reflexivity.
  Qed.

  Lemma contains_leads : forall h s, known h -> (contains w h s = true <-> leads_somewhere f (h_oid h) s).
  Proof.
    intros h s Hk. unfold contains, leads_somewhere. destruct s as [|x s]; [split; [discriminate|intros [X _]; congruence]|].
    rewrite (path_valid_leads _ _ (path_comps_names _) (start_known h (x :: s) Hk)). destruct (is_abs (x :: s)); simpl; split; intros H; try (split; [discriminate|]); tauto.
  Qed.

  Lemma getopt_leads : forall h s, known h -> s <> [] ->
    exists o, getopt w h s = Ok o /\ (is_some o = true <-> leads_somewhere f (h_oid h) s).
  Proof.
    intros h s Hk Hs. unfold getopt, getitem, leads_somewhere. destruct s as [|x s]; [congruence|].
    destruct (resolve_known _ _ (path_comps_names (x :: s)) (start_known h (x :: s) Hk)) as [[t [R [K L]]]|[R L]]; rewrite R.
    - exists (Some t). split; auto. simpl is_some. split; auto. intros _. split; auto. exists (h_oid t). destruct (is_abs (x :: s)); auto.
    - exists None. split; auto. simpl is_some. split; [discriminate|]. intros [_ [b Hb]]. exfalso. apply (L b). destruct (is_abs (x :: s)); auto.
  Qed.
End Presence.
