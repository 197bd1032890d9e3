(** * How the default plot is looked for *)

From Coq Require Import List NArith ZArith Bool String Lia Permutation.
From Verif Require Import PyBase PyFacts Regex Utf8 H5 Findings Nxdl Core Catalog ItemName AttributeCheck
  GroupChecks AppDef DefaultPlot Validate Trace CheckFacts CatalogFacts Spec_Run Spec_Catalog Spec_Groups RunFacts AddrRecord GroupRun GroupEnd Spec_Plot.
Import ListNotations.

(** ** Addresses start with a slash *)
Definition rooted (p : pystr) : Prop := exists t, p = 47%N :: t.
Lemma child_rooted : forall p c, rooted p -> rooted (child_path p c).
Proof. intros p c [t ->]. unfold child_path. destruct (str_eqb _ _); [exists c; reflexivity|]. eexists. reflexivity. Qed.
Lemma resolve_rooted : forall nl w comps cur h, resolve nl w cur comps = Ok h -> rooted (h_name cur) -> rooted (h_name h).
Proof.
  induction nl as [|nl IHn]; intros w comps; induction comps as [|x rest IH]; intros cur h H HR; simpl in H; try (inversion H; subst; exact HR).
  - destruct (dget x (links_of w cur)) as [[o|p|f p]|]; try discriminate. destruct (get_obj w (h_file cur) o); [|discriminate].
    apply IH in H; auto. apply child_rooted. exact HR.
  - destruct (dget x (links_of w cur)) as [[o|p|f p]|]; try discriminate.
    + destruct (get_obj w (h_file cur) o); [|discriminate]. apply IH in H; auto. apply child_rooted. exact HR.
    + destruct (resolve nl w _ (path_comps p)) as [t|e]; [|discriminate]. apply IH in H; auto. apply child_rooted. exact HR.
    + destruct (get_obj w f 0); [|discriminate]. destruct (resolve nl w (root_handle f) (path_comps p)) as [t|e] eqn:E; [|discriminate].
      apply IH in H; auto. simpl. eapply IHn; [exact E|]. exists []. reflexivity.
Qed.
Lemma getitem_rooted : forall w g n h, getitem w g n = Ok h -> rooted (h_name g) -> rooted (h_name h).
Proof.
  intros w g n h H HR. unfold getitem in H. destruct n; [discriminate|]. eapply resolve_rooted; [exact H|]. destruct (is_abs _); simpl; auto. exists []. reflexivity.
Qed.
Lemma below_rooted : forall w g h, below w g h -> rooted (h_name g) -> rooted (h_name h).
Proof. induction 1; auto. intros. apply IHbelow. eapply getitem_rooted; eauto. Qed.

Lemma node_addr : forall c s, cinv c s -> forall i it h, nth_error (st_items s) i = Some it -> it_obj it = ONode h -> it_addr it = Some (h_name h).
Proof.
  intros c s HI i it h Hi Eo. destruct (ci_origin _ _ HI _ _ Hi) as [H1 H2 H3|p pit hp h' name H1 H2 H3 H4 H5 H6|p pit h' k v H1 H2 H3 H4 H5].
  - apply node_item_spec in H3 as [N1 [N2 _]]. congruence.
  - apply node_item_spec in H6 as [N1 [N2 _]]. congruence.
  - subst it. destruct (attr_item_spec p pit v (Some k)) as [A1 _]. congruence.
Qed.
Lemma addr_rooted : forall c s, cinv c s -> rooted (h_name (c_root c)) -> forall i it a, nth_error (st_items s) i = Some it -> it_addr it = Some a -> rooted a.
Proof.
  intros c s HI HR i it a Hi Ha.
  assert (NODE : forall i it h a, nth_error (st_items s) i = Some it -> it_obj it = ONode h -> it_addr it = Some a -> rooted a).
  { clear i it a Hi Ha. intros i it h a Hi Eo Ha. rewrite (node_addr _ _ HI _ _ _ Hi Eo) in Ha. inversion Ha; subst.
    destruct (cinv_sound _ _ HI _ _ Hi) as [B _]. eapply below_rooted; [exact (B h Eo)|exact HR]. }
  destruct (it_obj it) as [h|v] eqn:Eo; [eapply NODE; eauto|].
  destruct (cinv_sound _ _ HI _ _ Hi) as [_ B]. destruct (B v Eo) as [p [pit [h [k [Hp [Ho [Hlt [HA ->]]]]]]]].
  unfold attr_item in Ha. destruct (str_eqb _ _); [discriminate|]. simpl in Ha. pose proof (node_addr _ _ HI _ _ _ Hp Ho) as NA. destruct (NODE _ _ _ _ Hp Ho NA) as [t Ht].
  rewrite NA in Ha. simpl in Ha. inversion Ha. rewrite Ht. exists (t ++ 64%N :: k). reflexivity.
Qed.

(** ** Spec predicates on states *)
Definition V (s : vstate) : validator := mkV None None s.

Lemma catalogued_ext : forall s s' a it, ext s s' -> catalogued_at (V s) a it -> exists it', catalogued_at (V s') a it' /\ skel it' = skel it.
Proof.
  intros s s' a it X [i [H1 H2]]. destruct (ext_item _ _ _ _ X H2) as [it' [H3 H4]]. exists it'. split; auto. exists i. split; auto.
  destruct X as [lg T]. simpl. rewrite (tr_addr _ _ _ T). exact H1.
Qed.
Lemma signal_of_ext : forall s s' it it' e d hd, ext s s' -> skel it' = skel it -> signal_of (V s) it e d hd -> signal_of (V s') it' e d hd.
Proof.
  intros s s' it it' e d hd X S [H1 [H2 [H3 [H4 [H5 [dit [H6 H7]]]]]]]. repeat (split; auto). { rewrite (skel_addr _ _ S). exact H5. }
  destruct (catalogued_ext _ _ _ _ X H6) as [dit' [H8 H9]]. exists dit'. split; auto. pose proof (skel_eq _ _ H9) as [_ [-> _]]. exact H7.
Qed.
Lemma signal_exists_ext : forall E w s s' it it' t, ext s s' -> skel it' = skel it -> signal_exists E w (V s) it t -> signal_exists E w (V s') it' t.
Proof. intros E w s s' it it' t X S [e [d [hd [H1 H2]]]]. exists e, d, hd. split; auto. eapply signal_of_ext; eauto. Qed.
Lemma signal_plots_ext : forall E w s s' it it' t, ext s s' -> skel it' = skel it -> signal_plots E w (V s) it t -> signal_plots E w (V s') it' t.
Proof.
  intros E w s s' it it' t X S [H [sit [h [H1 [H2 H3]]]]]. split; [eapply signal_exists_ext; eauto|].
  destruct (catalogued_ext _ _ _ _ X H1) as [sit' [H8 H9]]. exists sit', h. split; auto. pose proof (skel_eq _ _ H9) as [_ [-> _]]. auto.
Qed.
Lemma default_names_ext : forall E w s s' a t, ext s s' -> default_names E w (V s) a t -> default_names E w (V s') a t.
Proof.
  intros E w s s' a t X [it [h [H1 [H2 H3]]]]. destruct (catalogued_ext _ _ _ _ X H1) as [it' [H8 H9]]. exists it', h. split; auto. pose proof (skel_eq _ _ H9) as [_ [-> _]]. auto.
Qed.
Lemma default_chain_ext : forall E w s s' it it', ext s s' -> skel it' = skel it -> default_chain E w (V s) it -> default_chain E w (V s') it'.
Proof.
  intros E w s s' it it' X S [e [d [hd [H1 [H2 H3]]]]]. exists e, d, hd. split; [eapply signal_of_ext; eauto|]. split; eapply default_names_ext; eauto.
Qed.

(** ** Uniqueness *)
Lemma catalogued_fun : forall c s0 s a it it', cinv c s0 -> ext s0 s -> catalogued_at (V s) a it -> catalogued_at (V s) a it' -> it = it'.
Proof.
  intros c s0 s a it it' HI [lg T] [i [H1 H2]] [j [H3 H4]]. simpl in *. rewrite (tr_addr _ _ _ T) in *. pose proof (ci_addrkeys _ _ HI) as ND.
  assert (i = j); [|subst; congruence]. clear - ND H1 H3. induction (st_addr s0) as [|[b k] l IH]; [destruct H1|]. simpl in ND. apply NoDup_cons_iff in ND as [N1 N2].
  destruct H1 as [H1|H1], H3 as [H3|H3]; auto.
  - congruence.
  - inversion H1; subst. destruct N1. change (Some a) with (fst (Some a, j)). apply in_map. auto.
  - inversion H3; subst. destruct N1. change (Some a) with (fst (Some a, i)). apply in_map. auto.
Qed.
Lemma joined_fun : forall p s a b, joined p s a -> joined p s b -> a = b.
Proof. intros p s a b [[H1 ->]|[H1 ->]] [[H2 ->]|[H2 ->]]; tauto. Qed.
Lemma points_fun : forall E w h k a b, points_to E w h k a -> points_to E w h k b -> a = b.
Proof. intros E w h k a b [p [s [H1 [H2 H3]]]] [p' [s' [H4 [H5 H6]]]]. assert (p = p') by congruence. subst. assert (s = s') by congruence. subst. eapply joined_fun; eauto. Qed.

Lemma no_in_app : forall (x : N) (a b : list N), ~ In x a -> ~ In x b -> ~ In x (a ++ b).
Proof. intros x a b H1 H2 H. apply in_app_or in H. tauto. Qed.
Lemma split_once : forall (c : N) a b a' b', ~ In c a -> ~ In c a' -> a ++ c :: b = a' ++ c :: b' -> a = a' /\ b = b'.
Proof.
  intros c a. induction a as [|x a IH]; intros b a' b' H1 H2 H; destruct a' as [|y a']; simpl in H.
  - inversion H; auto.
  - inversion H; subst. destruct H2. left. auto.
  - inversion H; subst. destruct H1. left. auto.
  - inversion H; subst. destruct (IH b a' b') as [-> ->]; auto; intros HI; [apply H1|apply H2]; right; auto.
Qed.
Lemma signal_addr_fun : forall it e d e' d' hd hd' s s', signal_of (V s) it e d hd -> signal_of (V s') it e' d' hd' -> e = e' /\ d = d'.
Proof.
  intros it e d e' d' hd hd' s s' [A1 [A2 [A3 [A4 [A5 _]]]]] [B1 [B2 [B3 [B4 [B5 _]]]]].
  assert (S1 : forall e d : list N, ~ In 64%N e -> ~ In 64%N d -> ~ In 64%N (47%N :: e ++ 47%N :: d)).
  { intros x y X Y [H|H]; [discriminate|]. apply in_app_or in H as [H|[H|H]]; try tauto. discriminate. }
  assert (G : 47%N :: e ++ 47%N :: d = 47%N :: e' ++ 47%N :: d').
  { destruct A5 as [A5|[k A5]], B5 as [B5|[k' B5]]; rewrite A5 in B5; apply (f_equal (fun o => match o with Some x => x | None => [] end)) in B5; cbv beta iota in B5.
    - exact B5.
    - exfalso. apply (S1 e d); auto. rewrite B5. right. apply in_or_app. right. right. apply in_or_app. right. left. reflexivity.
    - exfalso. apply (S1 e' d'); auto. rewrite <- B5. right. apply in_or_app. right. right. apply in_or_app. right. left. reflexivity.
    - assert (R : forall x y z : list N, 47%N :: x ++ 47%N :: y ++ 64%N :: z = (47%N :: x ++ 47%N :: y) ++ 64%N :: z) by (intros; simpl; rewrite <- app_assoc; reflexivity).
      rewrite !R in B5. apply split_once in B5 as [E _]; auto. }
  inversion G as [G']. apply split_once in G'; auto.
Qed.
Lemma signal_of_fun : forall c s0 s it e d e' d' hd hd', cinv c s0 -> ext s0 s -> signal_of (V s) it e d hd -> signal_of (V s) it e' d' hd' -> e = e' /\ d = d' /\ hd = hd'.
Proof.
  intros c s0 s it e d e' d' hd hd' HI X A B. destruct (signal_addr_fun _ _ _ _ _ _ _ _ _ A B) as [-> ->]. repeat split; auto.
  destruct A as [_ [_ [_ [_ [_ [x [A1 A2]]]]]]]. destruct B as [_ [_ [_ [_ [_ [y [B1 B2]]]]]]]. rewrite (catalogued_fun _ _ _ _ _ _ HI X A1 B1) in A2. congruence.
Qed.
Lemma signal_exists_fun : forall c s0 s it t t' E w, cinv c s0 -> ext s0 s -> signal_exists E w (V s) it t -> signal_exists E w (V s) it t' -> t = t'.
Proof.
  intros c s0 s it t t' E w HI X [e [d [hd [A [B _]]]]] [e' [d' [hd' [A' [B' _]]]]]. destruct (signal_of_fun _ _ _ _ _ _ _ _ _ _ HI X A A') as [_ [_ ->]]. eapply points_fun; eauto.
Qed.

(** ** One @signal, version 3 *)
Lemma split3 : forall a e d x, split ch_slash a = [x; e; d] -> a = x ++ 47%N :: e ++ 47%N :: d /\ ~ In 47%N x /\ ~ In 47%N e /\ ~ In 47%N d.
Proof.
  intros a e d x H. pose proof (join_split ch_slash a) as J. rewrite H in J. simpl in J.
  assert (P : forall w, In w [x; e; d] -> ~ In 47%N w). { intros w Hw. rewrite <- H in Hw. exact (split_parts_no_sep ch_slash a w Hw). }
  split; [symmetry; exact J|]. repeat split; apply P; simpl; auto.
Qed.
Lemma split_head : forall a, ~ In 64%N (hd [] (split ch_at a)) /\ (a = hd [] (split ch_at a) \/ exists k, a = hd [] (split ch_at a) ++ 64%N :: k).
Proof.
  intros a. pose proof (join_split ch_at a) as J. pose proof (split_nonnil ch_at a) as NN. pose proof (split_parts_no_sep ch_at a) as P.
  destruct (split ch_at a) as [|x [|y l]]; [congruence| |]; simpl in *.
  - split; [apply P; auto|]. left. auto.
  - split; [apply P; auto|]. right. exists (join [ch_at] (y :: l)). symmetry. exact J.
Qed.
Lemma entry_and_data_ok : forall a e d, rooted a -> entry_and_data (Some a) = Ok (e, d) ->
  ~ In 47%N e /\ ~ In 47%N d /\ ~ In 64%N e /\ ~ In 64%N d /\ (a = 47%N :: e ++ 47%N :: d \/ exists k, a = 47%N :: e ++ 47%N :: d ++ 64%N :: k).
Proof.
  intros a e d [t HR] H. unfold entry_and_data in H. cbn [need_text rbind] in H. destruct (split_head a) as [N1 A].
  destruct (split ch_slash (hd [] (split ch_at a))) as [|x [|e' [|d' [|]]]] eqn:S; try discriminate. inversion H; subst e' d'. clear H.
  apply split3 in S as [S [X1 [X2 X3]]]. set (p := hd [] (split ch_at a)) in *.
  assert (x = []). { destruct x as [|y x]; auto. exfalso. apply X1. left. destruct A as [A|[k A]]; rewrite S in A; rewrite HR in A; inversion A; auto. }
  subst x. simpl in S. rewrite S in N1, A. repeat split; auto.
  - intros Hin. apply N1. right. apply in_or_app. auto.
  - intros Hin. apply N1. right. apply in_or_app. right. right. auto.
  - destruct A as [A|[k A]]; [left; auto|right]. exists k. rewrite A. simpl. rewrite <- app_assoc. reflexivity.
Qed.

Lemma build_ok : forall E w h k ptr t, dget k (attrs_of w h) = Some ptr -> build_h5_address E (h_name h) ptr = Ok t -> points_to E w h k t.
Proof.
  intros E w h k ptr t H1 H. unfold build_h5_address in H. destruct (decode_byte_string E ptr) as [p|] eqn:D; [|discriminate]. cbn [rbind] in H.
  destruct p as [s| | | | | | | | |]; simpl in H; try discriminate. exists ptr, s. split; auto. split; auto. inversion H; subst. unfold joined.
  destruct (endswith (h_name h) slash) eqn:Es.
  - left. split; auto. apply endswith_spec in Es. exact Es.
  - right. split; [|rewrite <- app_assoc; reflexivity]. intros X. apply (endswith_spec _ slash) in X. congruence.
Qed.
Lemma points_at : forall c it h k t b, it_obj it = ONode h -> attribute_points_at_target c it k t = Ok b ->
  (b = true <-> points_to (c_env c) (c_world c) h k t /\ has_item (c_world c) h t).
Proof.
  intros c it h k t b Ho H. unfold attribute_points_at_target in H. rewrite Ho in H. cbn [hobj_attrs rbind] in H.
  destruct (dget k (attrs_of (c_world c) h)) as [ptr|] eqn:Ek.
  2: { inversion H; subst. split; [discriminate|]. intros [[p [s [X _]]] _]. congruence. }
  cbn [node_name rbind] in H. destruct (build_h5_address (c_env c) (h_name h) ptr) as [x|] eqn:B; [|discriminate]. cbn [rbind] in H.
  pose proof (build_ok _ _ _ _ _ _ Ek B) as PT. cbn [hobj_in] in H.
  destruct (py_in (c_world c) h (VStr x)) as [[|]|] eqn:PI; cbn [rbind] in H; [| |discriminate]; inversion H; subst; clear H.
  - rewrite str_eqb_eq. split.
    + intros ->. split; auto.
    + intros [P _]. eapply points_fun; eauto.
  - split; [discriminate|]. intros [P I]. rewrite (points_fun _ _ _ _ _ _ P PT) in I. unfold has_item in I. congruence.
Qed.

(** how the code judges one @signal *)
Inductive judge (c : ctx) (s : vstate) (it : vitem) : list finding -> v3step -> Prop :=
| j_missing : (forall t, ~ signal_exists (c_env c) (c_world c) (V s) it t) -> judge c s it [mkF (it_addr it) v3_test ERROR (py "field described by @signal does not exist")] V3abort
| j_other : forall t, signal_exists (c_env c) (c_world c) (V s) it t -> (forall t, ~ signal_plots (c_env c) (c_world c) (V s) it t) -> judge c s it [] (V3next None false)
| j_data : forall t n, signal_plots (c_env c) (c_world c) (V s) it t -> (n = true <-> default_chain (c_env c) (c_world c) (V s) it) ->
    judge c s it [mkF (it_addr it) v3_test OK (py "correct default plot setup in /NXentry/NXdata")] (V3next (Some t) n).

Section Plot.
  Variable c : ctx.
  Variable s0 : vstate.
  Hypothesis HI : cinv c s0.
  Hypothesis HR : rooted (h_name (c_root c)).

  Lemma rooted_at : forall s i it a, ext s0 s -> i < List.length (st_items s0) -> nth_error (st_items s) i = Some it -> it_addr it = Some a -> rooted a.
  Proof.
    intros s i it a X Hl Hi Ha. destruct (nth_error (st_items s0) i) as [it0|] eqn:E0; [|apply nth_error_None in E0; lia].
    destruct (ext_item _ _ _ _ X E0) as [it' [H1 H2]]. rewrite Hi in H1. inversion H1; subst it'. rewrite (skel_addr _ _ H2) in Ha. eapply addr_rooted; eauto.
  Qed.

  Lemma addr_at_addr : forall s a i it, ext s0 s -> In (Some a, i) (st_addr s) -> nth_error (st_items s) i = Some it -> it_addr it = Some a.
  Proof. intros s a i it X H Hi. destruct (addr_item_at c s0 HI s _ _ X H) as [it' [H1 H2]]. congruence. Qed.

  Lemma v3_item_run : forall i it s s' r, ext s0 s -> i < List.length (st_items s0) -> nth_error (st_items s) i = Some it -> it_addr it <> None ->
    v3_item c i s = (s', Ok r) -> exists fs, rec_run s fs s' /\ judge c s it fs r.
  Proof.
    intros i it s s' r X Hl Hi Ha H. unfold v3_item in H.
    apply bind_ok in H as [it' [s1 [H1 H]]]. apply item_ok in H1 as [-> H1]. rewrite Hi in H1. inversion H1; subst it'. clear H1.
    apply bind_ok in H as [[e d] [s1 [H1 H]]]. apply lift_ok in H1 as [-> Hed].
    destruct (it_addr it) as [a|] eqn:Ea; [|congruence]. pose proof (rooted_at _ _ _ _ X Hl Hi Ea) as RA.
    apply entry_and_data_ok in Hed as [N1 [N2 [N3 [N4 AD]]]]; auto.
    apply bind_ok in H as [di [s1 [H1 H]]]. apply address_item_ok in H1 as [-> Hdi].
    apply bind_ok in H as [dit [s1 [H1 H]]]. apply item_ok in H1 as [-> Hdit].
    apply bind_ok in H as [ei [s1 [H1 H]]]. apply address_item_ok in H1 as [-> Hei].
    apply bind_ok in H as [eit [s1 [H1 H]]]. apply item_ok in H1 as [-> Heit].
    apply bind_ok in H as [ri [s1 [H1 H]]]. apply address_item_ok in H1 as [-> Hri].
    apply bind_ok in H as [rit [s1 [H1 H]]]. apply item_ok in H1 as [-> Hrit].
    apply bind_ok in H as [at_ [s1 [H1 H]]]. apply lift_ok in H1 as [-> Hat].
    apply bind_ok in H as [ptr [s1 [H1 H]]]. apply lift_ok in H1 as [-> Hptr].
    apply bind_ok in H as [nm [s1 [H1 H]]]. apply lift_ok in H1 as [-> Hnm].
    apply bind_ok in H as [tg [s1 [H1 H]]]. apply lift_ok in H1 as [-> Htg].
    apply bind_ok in H as [ea [s1 [H1 H]]]. apply lift_ok in H1 as [-> Hea].
    apply bind_ok in H as [da [s1 [H1 H]]]. apply lift_ok in H1 as [-> Hda].
    apply bind_ok in H as [t1 [s1 [H1 H]]]. apply lift_ok in H1 as [-> Ht1].
    apply bind_ok in H as [t2 [s1 [H1 H]]]. apply lift_ok in H1 as [-> Ht2].
    apply bind_ok in H as [t3 [s1 [H1 H]]]. apply lift_ok in H1 as [-> Ht3].
    rewrite (addr_at_addr _ _ _ _ X Hei Heit) in Hea. cbn [need_text] in Hea. inversion Hea; subst ea; clear Hea.
    rewrite (addr_at_addr _ _ _ _ X Hdi Hdit) in Hda. cbn [need_text] in Hda. inversion Hda; subst da; clear Hda.
    destruct (it_obj dit) as [hd|] eqn:Od; [|discriminate]. cbn [hobj_attrs] in Hat. inversion Hat; subst at_; clear Hat.
    cbn [node_name] in Hnm. inversion Hnm; subst nm; clear Hnm.
    assert (Hp : dget (py "signal") (attrs_of (c_world c) hd) = Some ptr). { unfold dgetitem in Hptr. destruct (dget _ _); inversion Hptr; auto. }
    pose proof (build_ok _ _ _ _ _ _ Hp Htg) as PT.
    assert (SO : signal_of (V s) it e d hd).
    { repeat (split; auto). - rewrite Ea. destruct AD as [->|[k ->]]; eauto. - exists dit. split; auto. exists di. split; auto. }
    assert (At : addr_at s i (Some a)) by (exists it; auto).
    pose proof (points_at _ _ _ _ _ _ Od Ht3) as P3. destruct t3; cbn [negb] in H.
    - destruct P3 as [P3 _]. destruct (P3 eq_refl) as [_ HIt]. clear P3.
      assert (SE : signal_exists (c_env c) (c_world c) (V s) it tg) by (exists e, d, hd; auto).
      apply bind_ok in H as [si [s1 [H1 H]]]. apply address_item_ok in H1 as [-> Hsi].
      apply bind_ok in H as [sit [s1 [H1 H]]]. apply item_ok in H1 as [-> Hsit].
      assert (CS : catalogued_at (V s) tg sit) by (exists si; auto).
      destruct (hobj_isdataset (c_world c) (it_obj sit)) eqn:Ds.
      + apply bind_ok in H as [u [s1 [H1 H]]]. destruct (record_run _ _ _ _ _ _ _ _ H1 At) as [R1 _]. apply ret_ok in H as [-> <-].
        eexists. split; [exact R1|]. rewrite <- Ea. apply j_data.
        * split; auto. unfold hobj_isdataset in Ds. destruct (it_obj sit) as [h|] eqn:Os; [|discriminate]. exists sit, h. auto.
        * rewrite andb_true_iff. unfold default_chain. split.
          -- intros [-> ->]. exists e, d, hd. split; auto. split.
             ++ destruct (it_obj rit) as [hr|] eqn:Or; [|unfold attribute_points_at_target in Ht1; rewrite Or in Ht1; discriminate].
                exists rit, hr. split; [exists ri; auto|]. split; auto. apply (points_at _ _ _ _ _ _ Or Ht1). reflexivity.
             ++ destruct (it_obj eit) as [he|] eqn:Oe; [|unfold attribute_points_at_target in Ht2; rewrite Oe in Ht2; discriminate].
                exists eit, he. split; [exists ei; auto|]. split; auto. apply (points_at _ _ _ _ _ _ Oe Ht2). reflexivity.
          -- intros [e' [d' [hd' [SO' [D1 D2]]]]]. destruct (signal_of_fun _ _ _ _ _ _ _ _ _ _ HI X SO SO') as [<- [<- <-]].
             destruct D1 as [x [hx [C1 [O1 P1]]]], D2 as [y [hy [C2 [O2 P2]]]].
             assert (x = rit). { eapply catalogued_fun; eauto. exists ri; auto. } subst x.
             assert (y = eit). { eapply catalogued_fun; eauto. exists ei; auto. } subst y.
             split; [apply (points_at _ _ _ _ _ _ O1 Ht1)|apply (points_at _ _ _ _ _ _ O2 Ht2)]; auto.
      + apply ret_ok in H as [-> <-]. exists []. split; [apply rec_run_nil|]. eapply j_other; eauto.
        intros t [SE' [y [h [C1 [O1 D1]]]]]. rewrite <- (signal_exists_fun _ _ _ _ _ _ _ _ HI X SE SE') in C1.
        assert (y = sit) by (eapply catalogued_fun; eauto). subst y. rewrite O1 in Ds. simpl in Ds. congruence.
    - apply bind_ok in H as [u [s1 [H1 H]]]. destruct (record_run _ _ _ _ _ _ _ _ H1 At) as [R1 _]. apply ret_ok in H as [-> <-].
      eexists. split; [exact R1|]. rewrite <- Ea. apply j_missing. intros t [e' [d' [hd' [SO' [P' I']]]]].
      destruct (signal_of_fun _ _ _ _ _ _ _ _ _ _ HI X SO SO') as [_ [_ <-]]. rewrite (points_fun _ _ _ _ _ _ P' PT) in I'.
      destruct P3 as [_ P3]. discriminate P3. auto.
  Qed.

  (** the later states have the same catalogue *)
  Lemma catalogued_back : forall s a it, ext s0 s -> catalogued_at (V s) a it -> exists it0, catalogued_at (V s0) a it0 /\ skel it = skel it0.
  Proof.
    intros s a it X [i [H1 H2]]. simpl in *. pose proof X as [lg T]. rewrite (tr_addr _ _ _ T) in H1.
    destruct (ci_addrof _ _ HI _ _ H1) as [it0 [H3 H4]]. destruct (ext_item _ _ _ _ X H3) as [it' [H5 H6]]. exists it0. split; [exists i; auto|]. congruence.
  Qed.
  Lemma signal_of_back : forall s it it0 e d hd, ext s0 s -> skel it = skel it0 -> signal_of (V s) it e d hd -> signal_of (V s0) it0 e d hd.
  Proof.
    intros s it it0 e d hd X S [H1 [H2 [H3 [H4 [H5 [dit [H6 H7]]]]]]]. repeat (split; auto). { rewrite <- (skel_addr _ _ S). exact H5. }
    destruct (catalogued_back _ _ _ X H6) as [dit0 [H8 H9]]. exists dit0. split; auto. pose proof (skel_eq _ _ H9) as [_ [<- _]]. exact H7.
  Qed.
  Lemma exists_iff : forall s it it0 t, ext s0 s -> skel it = skel it0 ->
    (signal_exists (c_env c) (c_world c) (V s) it t <-> signal_exists (c_env c) (c_world c) (V s0) it0 t).
  Proof.
    intros s it it0 t X S. split.
    - intros [e [d [hd [H1 H2]]]]. exists e, d, hd. split; auto. eapply signal_of_back; eauto.
    - eapply signal_exists_ext; eauto.
  Qed.
  Lemma plots_iff : forall s it it0 t, ext s0 s -> skel it = skel it0 ->
    (signal_plots (c_env c) (c_world c) (V s) it t <-> signal_plots (c_env c) (c_world c) (V s0) it0 t).
  Proof.
    intros s it it0 t X S. split.
    - intros [H [sit [h [H1 [H2 H3]]]]]. split; [apply (exists_iff s it it0 t X S); exact H|].
      destruct (catalogued_back _ _ _ X H1) as [sit0 [H8 H9]]. exists sit0, h. split; auto. pose proof (skel_eq _ _ H9) as [_ [<- _]]. auto.
    - eapply signal_plots_ext; eauto.
  Qed.
  Lemma chain_iff : forall s it it0, ext s0 s -> skel it = skel it0 ->
    (default_chain (c_env c) (c_world c) (V s) it <-> default_chain (c_env c) (c_world c) (V s0) it0).
  Proof.
    intros s it it0 X S. split.
    - intros [e [d [hd [H1 [H2 H3]]]]]. exists e, d, hd. split; [eapply signal_of_back; eauto|].
      assert (D : forall a t, default_names (c_env c) (c_world c) (V s) a t -> default_names (c_env c) (c_world c) (V s0) a t).
      { intros a t [x [h [A1 [A2 A3]]]]. destruct (catalogued_back _ _ _ X A1) as [x0 [B1 B2]]. exists x0, h. split; auto. pose proof (skel_eq _ _ B2) as [_ [<- _]]. auto. }
      split; apply D; auto.
    - eapply default_chain_ext; eauto.
  Qed.
  Lemma judge_back : forall s it it0 fs r, ext s0 s -> skel it = skel it0 -> judge c s it fs r -> judge c s0 it0 fs r.
  Proof.
    intros s it it0 fs r X S J. destruct J as [H|t H1 H2|t n H1 H2]; try rewrite (skel_addr _ _ S).
    - apply j_missing. intros t Ht. apply (H t). apply (exists_iff s it it0 t X S); exact Ht.
    - apply (j_other c s0 it0 t); [apply (exists_iff s it it0 t X S); exact H1|]. intros t' Ht. apply (H2 t'). apply (plots_iff s it it0 t' X S); exact Ht.
    - apply j_data; [apply (plots_iff s it it0 t X S); exact H1|]. rewrite H2. apply chain_iff; auto.
  Qed.

  (** ** All the @signal attributes, version 3 *)
  Definition item0 (i : nat) (it : vitem) : Prop := nth_error (st_items s0) i = Some it /\ it_addr it <> None.
  Definition kind := option (pystr * bool).
  (** [k] says what the code makes of item [i] *)
  Definition has_kind (i : nat) (k : kind) : Prop :=
    exists it, item0 i it /\ match k with
      | None => (exists t, signal_exists (c_env c) (c_world c) (V s0) it t) /\ (forall t, ~ signal_plots (c_env c) (c_world c) (V s0) it t)
      | Some (t, n) => signal_plots (c_env c) (c_world c) (V s0) it t /\ (n = true <-> default_chain (c_env c) (c_world c) (V s0) it)
      end.
  Fixpoint chains (l : list nat) (ks : list kind) : list nat :=
    match l, ks with
    | i :: l, Some (_, true) :: ks => i :: chains l ks
    | _ :: l, _ :: ks => chains l ks
    | _, _ => []
    end.
  Fixpoint last_target (a : option pystr) (ks : list kind) : option pystr :=
    match ks with [] => a | Some (t, _) :: ks => last_target (Some t) ks | None :: ks => last_target a ks end.
  Definition kind_findings (i : nat) (k : kind) (fs : list finding) : Prop :=
    match k with None => fs = [] | Some _ => exists a, fs = [mkF a v3_test OK (py "correct default plot setup in /NXentry/NXdata")] /\ addr_at s0 i a end.

  Inductive v3_end (niac : list nat) (a : option pystr) (l : list nat) (fs : list finding) : option pystr -> Prop :=
  | e_abort : forall l1 i l2 ks fss it, l = l1 ++ i :: l2 -> Forall2 has_kind l1 ks -> item0 i it ->
      (forall t, ~ signal_exists (c_env c) (c_world c) (V s0) it t) ->
      (exists q, Forall2 (fun x f => kind_findings (fst x) (snd x) f) q fss /\ map fst q = l1 /\ map snd q = ks) ->
      fs = List.concat fss ++ [mkF (it_addr it) v3_test ERROR (py "field described by @signal does not exist")] -> v3_end niac a l fs None
  | e_done : forall ks fss r, Forall2 has_kind l ks ->
      (exists q, Forall2 (fun x f => kind_findings (fst x) (snd x) f) q fss /\ map fst q = l /\ map snd q = ks) ->
      (List.length (niac ++ chains l ks) <> 1 /\ fs = List.concat fss /\ r = last_target a ks
       \/ exists i it, niac ++ chains l ks = [i] /\ nth_error (st_items s0) i = Some it /\ r = it_addr it
            /\ fs = List.concat fss ++ [mkF (it_addr it) niac_test OK (py "default plot setup in /NXentry/NXdata")]) -> v3_end niac a l fs r.

  Lemma v3_loop_run : forall l niac a s s' r, ext s0 s -> Forall (fun i => exists it, item0 i it) l -> Forall (fun i => exists it, item0 i it) niac ->
    v3_loop c a niac l s = (s', Ok r) -> exists fs, rec_run s fs s' /\ v3_end niac a l fs r.
  Proof.
    induction l as [|i l IH]; intros niac a s s' r X HL HN H; cbn [v3_loop] in H.
    - destruct niac as [|i [|i2 n2]].
      + apply ret_ok in H as [-> <-]. exists []. split; [apply rec_run_nil|]. apply e_done with (ks := []) (fss := []); [constructor|exists []; auto|]. left. simpl. auto.
      + apply Forall_inv in HN as [it0 [Hi0 Ha0]]. destruct (ext_item _ _ _ _ X Hi0) as [it [Hi S]].
        apply bind_ok in H as [it' [s1 [H1 H]]]. apply item_ok in H1 as [-> H1]. rewrite Hi in H1. inversion H1; subst it'. clear H1.
        apply bind_ok in H as [u [s1 [H1 H]]]. assert (At : addr_at s i (it_addr it)) by (exists it; auto).
        destruct (record_run _ _ _ _ _ _ _ _ H1 At) as [R1 _]. apply ret_ok in H as [-> <-]. eexists. split; [exact R1|].
        apply e_done with (ks := []) (fss := []); [constructor|exists []; auto|]. right. exists i, it0. split; [reflexivity|]. rewrite (skel_addr _ _ S). simpl. auto.
      + apply ret_ok in H as [-> <-]. exists []. split; [apply rec_run_nil|]. apply e_done with (ks := []) (fss := []); [constructor|exists []; auto|]. left. simpl. auto.
    - pose proof (Forall_inv HL) as [it0 [Hi0 Ha0]]. apply Forall_inv_tail in HL.
      apply bind_ok in H as [st [s1 [H1 H]]]. destruct (ext_item _ _ _ _ X Hi0) as [it [Hi S]].
      destruct (v3_item_run i it s s1 st) as [fs1 [R1 J]]; auto. { apply nth_error_Some. congruence. } { rewrite (skel_addr _ _ S). auto. }
      apply (judge_back _ _ _ _ _ X S) in J. pose proof (ext_trans _ _ _ X (rec_run_ext _ _ _ R1)) as X1.
      destruct J as [J|t J1 J2|t n J1 J2].
      + apply ret_ok in H as [-> <-]. eexists. split; [exact R1|]. apply e_abort with (l1 := []) (i := i) (l2 := l) (ks := []) (fss := []) (it := it0); auto.
        * split; auto.
        * exists []. auto.
      + destruct (IH _ _ _ _ _ X1 HL HN H) as [fs2 [R2 Z]]. eexists. split; [eapply rec_run_app; eauto|].
        assert (K : has_kind i None). { exists it0. split; [split; auto|]. split; eauto. }
        destruct Z as [l1 j l2 ks fss jt Z1 Z2 Z3 Z4 [q [Z5 [Z6 Z7]]] Z8|ks fss r Z1 [q [Z2 [Z6 Z7]]] Z3].
        * apply e_abort with (l1 := i :: l1) (i := j) (l2 := l2) (ks := None :: ks) (fss := [] :: fss) (it := jt); auto.
          -- rewrite Z1. reflexivity.
          -- exists ((i, None) :: q). split; [constructor; simpl; auto|]. simpl. rewrite Z6, Z7. auto.
        * apply e_done with (ks := None :: ks) (fss := [] :: fss); auto.
          exists ((i, None) :: q). split; [constructor; simpl; auto|]. simpl. rewrite Z6, Z7. auto.
      + assert (HN' : Forall (fun i => exists it, item0 i it) (if n then niac ++ [i] else niac)).
        { destruct n; auto. apply Forall_app. split; auto. constructor; auto. exists it0. split; auto. }
        destruct (IH _ _ _ _ _ X1 HL HN' H) as [fs2 [R2 Z]]. eexists. split; [eapply rec_run_app; eauto|].
        assert (K : has_kind i (Some (t, n))). { exists it0. split; [split; auto|]. auto. }
        assert (KF : kind_findings i (Some (t, n)) [mkF (it_addr it0) v3_test OK (py "correct default plot setup in /NXentry/NXdata")]). { exists (it_addr it0). split; auto. exists it0. auto. }
        destruct Z as [l1 j l2 ks fss jt Z1 Z2 Z3 Z4 [q [Z5 [Z6 Z7]]] Z8|ks fss r Z1 [q [Z2 [Z6 Z7]]] Z3].
        * apply e_abort with (l1 := i :: l1) (i := j) (l2 := l2) (ks := Some (t, n) :: ks) (fss := [mkF (it_addr it0) v3_test OK (py "correct default plot setup in /NXentry/NXdata")] :: fss) (it := jt); auto.
          -- rewrite Z1. reflexivity.
          -- exists ((i, Some (t, n)) :: q). split; [constructor; simpl; auto|]. simpl. rewrite Z6, Z7. auto.
          -- rewrite Z8. reflexivity.
        * apply e_done with (ks := Some (t, n) :: ks) (fss := [mkF (it_addr it0) v3_test OK (py "correct default plot setup in /NXentry/NXdata")] :: fss); auto.
          -- exists ((i, Some (t, n)) :: q). split; [constructor; simpl; auto|]. simpl. rewrite Z6, Z7. auto.
          -- assert (EC : niac ++ chains (i :: l) (Some (t, n) :: ks) = (if n then niac ++ [i] else niac) ++ chains l ks).
             { destruct n; simpl; auto. rewrite <- app_assoc. reflexivity. }
             rewrite EC. destruct Z3 as [[Y1 [Y2 Y3]]|[j [jt [Y1 [Y2 [Y3 Y4]]]]]]; [left|right].
             ++ split; auto. split; [rewrite Y2; reflexivity|]. rewrite Y3. reflexivity.
             ++ exists j, jt. split; auto. split; auto. split; auto. rewrite Y4. reflexivity.
  Qed.
End Plot.
