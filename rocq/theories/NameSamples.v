(** * Named objects of the concrete runs *)

From Coq Require Import List NArith ZArith Bool String Lia.
From Verif Require Import PyBase PyFacts H5 Findings Core Catalog Validate Trace CheckFacts Samples Spec_Names Spec_Run CatalogFacts NameFacts RunFacts NameRun ClassNameRun.
Import ListNotations.

Definition listed_b (v : validator) (i : nat) : bool :=
  existsb (fun kl : pystr * list nat => existsb (Nat.eqb i) (snd kl)) (st_cp (v_st v)).

Lemma listed_b_ok : forall v i it, listed_b v i = true -> nth_error (st_items (v_st v)) i = Some it -> listed v i it.
Proof.
  intros v i it H N. split; auto. unfold listed_b in H. apply existsb_exists in H as [[cp l] [H1 H2]].
  apply existsb_exists in H2 as [j [H2 H3]]. apply Nat.eqb_eq in H3. subst j. exists cp, l. auto.
Qed.

Definition done (f : h5file) : validator := fst (run f).
Definition item_of (f : h5file) (i : nat) : vitem := nth i (st_items (final f)) (mkItem None (OVal VNone) None None [] None []).

Lemma item_listed : forall f i, listed_b (done f) i = true -> (i <? List.length (st_items (final f)))%nat = true -> listed (done f) i (item_of f i).
Proof.
  intros f i H1 H2. apply listed_b_ok; auto. unfold item_of, final. apply nth_error_nth'. apply Nat.ltb_lt. exact H2.
Qed.

Lemma names_in_at : forall s, has_char ch_at s = false -> ~ In 64%N s.
Proof. intros s H. apply has_char_false in H. exact H. Qed.

Lemma contains_has_part : forall s p, contains_sub s p = true <-> has_part s p.
Proof. intros. apply contains_sub_spec. Qed.

(** ** The properties as stated in Properties_Names.v *)
Lemma object_names : forall u w v fname v', validate u w v fname = (v', Ok tt) ->
  forall i it h, listed v' i it -> it_obj it = ONode h -> it_parent it <> None ->
  (isHdf5Group w h = true \/ isHdf5Dataset w h = true) ->
  ~ In 64%N (it_cp it) -> ~ has_part (it_cp it) (py "NXcollection") ->
  exists n st comment, it_name it = Some n /\ last_component (h_name h) n /\ it_addr it = Some (h_name h)
   /\ shows v' i it (mkF (Some (h_name h)) (py "validItemName") st comment)
   /\ name_status (e_uw (u_env u)) (ctx_patterns u) n st
   /\ name_comment (e_uw (u_env u)) (ctx_patterns u) (py "valid HDF5 item name, not valid with NeXus") n comment.
Proof.
  intros u w v fname v' H i it h L Ho Hp Hk Hat Hc.
  destruct (object_name_shows _ _ _ _ _ H _ _ _ L Ho Hp Hk Hat) as [n [st [cm [A [B [C [D E]]]]]]].
  exists n, st, cm. rewrite C in D. split; auto. split; auto. split; auto. split; auto.
  destruct (contains_sub (it_cp it) (py "NXcollection")) eqn:X; auto. apply contains_has_part in X. contradiction.
Qed.

Lemma collection_names : forall u w v fname v', validate u w v fname = (v', Ok tt) ->
  forall i it h, listed v' i it -> it_obj it = ONode h -> it_parent it <> None ->
  (isHdf5Group w h = true \/ isHdf5Dataset w h = true) ->
  ~ In 64%N (it_cp it) -> has_part (it_cp it) (py "NXcollection") ->
  shows v' i it (mkF (Some (h_name h)) (py "validItemName") WARN (py "NXcollection contains non-NeXus content")).
Proof.
  intros u w v fname v' H i it h L Ho Hp Hk Hat Hc.
  destruct (object_name_shows _ _ _ _ _ H _ _ _ L Ho Hp Hk Hat) as [n [st [cm [A [B [C [D E]]]]]]].
  apply contains_has_part in Hc. rewrite Hc in E. destruct E as [-> ->]. rewrite C in D. exact D.
Qed.

Lemma shows_fun : forall v i it f g, f_test f = f_test g -> shows v i it f -> shows v i it g -> f = g.
Proof. intros v i it f g E [A _] [B _]. rewrite E in A. congruence. Qed.

Lemma strict_if_ok : forall u w v fname v', validate u w v fname = (v', Ok tt) ->
  forall i it h n comment, listed v' i it -> it_obj it = ONode h -> it_parent it <> None ->
  (isHdf5Group w h = true \/ isHdf5Dataset w h = true) -> ~ In 64%N (it_cp it) ->
  it_name it = Some n -> ~ In 10%N n ->
  shows v' i it (mkF (Some (h_name h)) (py "validItemName") OK comment) -> strict_name n.
Proof.
  intros u w v fname v' H i it h n cm L Ho Hp Hk Hat Hn Hnl S.
  destruct (object_name_shows _ _ _ _ _ H _ _ _ L Ho Hp Hk Hat) as [n' [st [cm' [A [B [C [D E]]]]]]].
  rewrite C in D. assert (X : mkF (Some (h_name h)) (py "validItemName") OK cm = mkF (Some (h_name h)) (py "validItemName") st cm').
  { eapply shows_fun; eauto. }
  inversion X; subst. rewrite A in Hn. inversion Hn; subst n'.
  destruct (contains_sub _ _); [destruct E; discriminate|]. destruct E as [E _]. inversion E as [F| |]; subst. destruct F as [F|[t [-> F]]]; auto.
  exfalso. apply Hnl. apply in_or_app. simpl; auto.
Qed.

Lemma strict_is_ok : forall u w v fname v', validate u w v fname = (v', Ok tt) ->
  forall i it h n, listed v' i it -> it_obj it = ONode h -> it_parent it <> None ->
  (isHdf5Group w h = true \/ isHdf5Dataset w h = true) -> ~ In 64%N (it_cp it) -> ~ has_part (it_cp it) (py "NXcollection") ->
  it_name it = Some n -> strict_name n ->
  exists comment, shows v' i it (mkF (Some (h_name h)) (py "validItemName") OK comment).
Proof.
  intros u w v fname v' H i it h n L Ho Hp Hk Hat Hc Hn Hs.
  destruct (object_names _ _ _ _ _ H _ _ _ L Ho Hp Hk Hat Hc) as [n' [st [cm' [A [B [C [D E]]]]]]].
  rewrite A in Hn. inversion Hn; subst n'. exists cm'. destruct E as [E _]. inversion E; subst; auto; exfalso; apply H0; left; auto.
Qed.

Lemma class_names : forall u w v fname v', validate u w v fname = (v', Ok tt) ->
  class_patterns u = Some shipped_class_patterns ->
  forall i it x, listed v' i it -> it_obj it = OVal x -> it_name it = Some (py "NX_class") -> it_addr it <> None ->
  exists n st comment, decode_byte_string (u_env u) x = Ok (VStr n)
    /\ shows v' i it (mkF (it_addr it) (py "validItemName") st comment)
    /\ ((st = OK /\ class_name (e_uw (u_env u)) n) \/ (st = ERROR /\ ~ class_name (e_uw (u_env u)) n))
    /\ class_comment (e_uw (u_env u)) shipped_class_patterns n comment.
Proof.
  intros u w v fname v' H Hs i it x L Ho Hn Ha.
  destruct (attribute_name_shows _ _ _ _ _ H _ _ _ L Ho Ha) as [p [pit [h [k [Lp [Hp [Hpo [Hk [Hnk [Had X]]]]]]]]]].
  assert (Ek : k = py "NX_class") by congruence. subst k.
  assert (E : endswith (h_name h ++ ch_at :: py "NX_class") (py "@NX_class") = true).
  { apply endswith_spec. exists (h_name h). reflexivity. }
  rewrite E in X. destruct X as [l [n [st [cm [A [B [C [D CC]]]]]]]]. rewrite Hs in A. inversion A; subst l.
  exists n, st, cm. split; auto. split; auto. split; auto.
  destruct D as [[D1 D2]|[D1 D2]]; [left|right]; split; auto; [exact (proj1 (shipped_class_names _ _) D2)|].
  intros Z. apply D2. exact (proj2 (shipped_class_names _ _) Z).
Qed.

Lemma group_class_unchecked : forall u w v fname v', validate u w v fname = (v', Ok tt) ->
  forall q qt p pit h i it x n,
  listed v' i it -> it_obj it = OVal x -> it_name it = Some (py "NX_class") -> it_parent it = Some p ->
  listed v' p pit -> it_obj pit = ONode h -> isHdf5Group w h = true -> it_name pit <> Some [47%N] -> dget (py "NX_class") (attrs_of w h) = Some x ->
  it_parent pit = Some q -> listed v' q qt -> ~ (exists d, it_cp qt = d ++ [47%N]) ->
  decode_byte_string (u_env u) x = Ok (VStr n) -> ~ (exists t, n = 78%N :: 88%N :: t) ->
  it_addr it = None /\ dget (py "validItemName") (it_vals it) = None.
Proof.
  intros u w v fname v' H q qt p pit h i it x n L Ho Hn Hp Lp Hpo Hg Hns Hx Hq Lq Hqs Hd Hnx.
  assert (Hcp : it_cp pit = NON_NEXUS).
  { eapply group_without_nx; eauto.
    - destruct (endswith (it_cp qt) slash) eqn:E; auto. apply endswith_spec in E as [d E]. exfalso. apply Hqs. exists d. auto.
    - destruct (startswith n (py "NX")) eqn:E; auto. apply startswith_spec in E as [t E]. exfalso. apply Hnx. exists t. auto. }
  destruct (listed_visit _ _ _ _ _ H _ _ L) as [s1 [s2 [s3 [s4 [l1 [l2 [l3 [l4 [it0 [sa [sb [la [li [lb [R [Hi [HS [Hv V]]]]]]]]]]]]]]]]]].
  destruct (skel_eq _ _ HS) as [E1 [E2 [E3 [E4 [E5 E6]]]]].
  destruct (listed_start _ _ _ _ _ _ _ _ _ _ _ R _ _ Lp) as [pit0 [Hp0 HSp]].
  destruct (skel_eq _ _ HSp) as [P1 [P2 [P3 [P4 [P5 P6]]]]].
  pose proof Ho as Ho0. rewrite E2 in Ho0.
  destruct (attribute_origin _ _ _ _ _ _ _ _ _ _ _ R _ _ _ Hi Ho0) as [p' [pit0' [h' [k [Hp' [Hpo' [Hk [Eit Hpa]]]]]]]].
  assert (p' = p).
  { destruct (attr_item_spec p' pit0' x (Some k)) as [A1 [A2 [A3 [A4 A5]]]]. rewrite E1 in Hp. rewrite Eit in Hp. rewrite ?A3, ?A4 in Hp. congruence. }
  subst p'. rewrite Hp0 in Hp'. inversion Hp'; subst pit0'.
  assert (Ha : it_addr it = None).
  { rewrite E4, Eit. unfold attr_item. rewrite <- P5, Hcp, str_eqb_refl. reflexivity. }
  split; auto. eapply unaddressed_unchecked; eauto.
Qed.

Lemma first_accepting_fun : forall uw l n p q, first_accepting uw l n p -> first_accepting uw l n q -> p = q.
Proof.
  intros uw l n p q [a [b [E1 [A1 F1]]]] [a' [b' [E2 [A2 F2]]]]. subst l. revert a' E2 F2. induction a as [|x a IH]; intros [|y a'] E F2; simpl in E; injection E as E1 E2.
  - auto.
  - subst y. inversion F2; contradiction.
  - subst x. inversion F1; contradiction.
  - inversion F1; inversion F2; subst. eapply IH; eauto.
Qed.

Lemma name_comment_fun : forall uw l o n c c', name_comment uw l o n c -> name_comment uw l o n c' -> c = c'.
Proof.
  intros uw l o n c c' H1 H2. destruct H1 as [H1|p N1 F1|N1 R1]; destruct H2 as [H2|q N2 F2|N2 R2]; try contradiction; auto.
  - rewrite (first_accepting_fun _ _ _ _ _ F1 F2). reflexivity.
  - exfalso. apply R2. eapply first_relaxed; eauto.
  - exfalso. apply R1. eapply first_relaxed; eauto.
Qed.

(** ** Witnesses *)
Lemma shows_intro : forall v i it f, dget (f_test f) (it_vals it) = Some f -> f_addr f = it_addr it ->
  findings_for v (it_addr it) (f_test f) = [f] -> shows v i it f.
Proof.
  intros v i it f H1 H2 H3. split; auto. split; auto. split; auto.
  assert (X : In f (findings_for v (it_addr it) (f_test f))) by (rewrite H3; simpl; auto).
  apply filter_In in X. tauto.
Qed.

Lemma newline_name_ok : exists i it n comment, listed (done names_file) i it /\ it_name it = Some n
  /\ shows (done names_file) i it (mkF (it_addr it) (py "validItemName") OK comment) /\ ~ strict_name n.
Proof.
  exists 4%nat, (item_of names_file 4), (py "a" ++ [10%N]), (py "strict pattern: [a-z_][a-z0-9_]*").
  split; [apply item_listed; vm_compute; reflexivity|]. split; [vm_compute; reflexivity|].
  split; [apply shows_intro; vm_compute; reflexivity|].
  intros [c [t [E [_ F]]]]. inversion E; subst. inversion F; subst. unfold lower, digit, underscore in *. lia.
Qed.

Lemma long_name_ok : exists i it n comment, listed (done names_file) i it /\ it_name it = Some n /\ 63 < List.length n
  /\ shows (done names_file) i it (mkF (it_addr it) (py "validItemName") OK comment).
Proof.
  exists 6%nat, (item_of names_file 6), (repeat 97%N 64), (py "strict pattern: [a-z_][a-z0-9_]*").
  split; [apply item_listed; vm_compute; reflexivity|]. split; [vm_compute; reflexivity|]. split; [rewrite repeat_length; lia|].
  apply shows_intro; vm_compute; reflexivity.
Qed.

Lemma class_without_nx_ok : exists i it n comment, listed (done names_file) i it /\ it_obj it = OVal (VStr n) /\ it_name it = Some (py "NX_class")
  /\ ~ (exists t, n = 78%N :: 88%N :: t)
  /\ shows (done names_file) i it (mkF (it_addr it) (py "validItemName") OK comment).
Proof.
  exists 1%nat, (item_of names_file 1), (py "entry"), (py "pattern: [A-Za-z_][\w_]*").
  split; [apply item_listed; vm_compute; reflexivity|]. split; [vm_compute; reflexivity|]. split; [vm_compute; reflexivity|].
  split; [intros [t E]; vm_compute in E; discriminate|]. apply shows_intro; vm_compute; reflexivity.
Qed.
