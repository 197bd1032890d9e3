(** * What the lines of a tree view say (C104, C105) *)

From Coq Require Import List NArith ZArith Bool String Sorting Permutation Lia.
From Verif Require Import PyBase PyFacts Utf8 H5 Catalog H5Tree Spec_Tree Spec_TreeMembers TreeFacts TreeEnd.
Import ListNotations.
Open Scope string_scope.
Open Scope list_scope.

(** ** Blocks with the same head are the same *)
Lemma introduced_In : forall d ls n b, In (mkLine d b) ls -> introduces b = Some n -> In n (introduced d ls).
Proof.
  induction ls as [|l ls IH]; intros n b Hin Hb; [destruct Hin|]. simpl. destruct Hin as [->|Hin].
  - cbn [ln_body ln_depth]. rewrite Hb, Nat.eqb_refl. left. reflexivity.
  - specialize (IH _ _ Hin Hb). destruct (introduces (ln_body l)); auto. destruct (Nat.eqb (ln_depth l) d); auto. right. auto.
Qed.

Lemma head_unique : forall d n b1 b2, introduces b1 = Some n -> introduces b2 = Some n ->
  forall p1 r1 p2 r2, p1 ++ mkLine d b1 :: r1 = p2 ++ mkLine d b2 :: r2 ->
  NoDup (introduced d (p1 ++ mkLine d b1 :: r1)) -> p1 = p2 /\ b1 = b2 /\ r1 = r2.
Proof.
  intros d n b1 b2 H1 H2. induction p1 as [|x p1 IH]; intros r1 p2 r2 He Hn; destruct p2 as [|y p2]; simpl in He.
  - injection He as -> ->. auto.
  - exfalso. injection He as <- ->. simpl in Hn. rewrite H1, Nat.eqb_refl in Hn. inversion Hn as [|? ? Hnot _]; subst. apply Hnot.
    eapply introduced_In; [apply in_app_iff; right; left; reflexivity|exact H2].
  - exfalso. injection He as -> He. subst r2. simpl in Hn. rewrite H2, Nat.eqb_refl in Hn. inversion Hn as [|? ? Hnot _]; subst. apply Hnot.
    eapply introduced_In; [apply in_app_iff; right; left; reflexivity|exact H1].
  - injection He as -> He. destruct (IH _ _ _ He) as (-> & -> & ->); [|auto].
    simpl in Hn. destruct (introduces (ln_body y)); auto. destruct (Nat.eqb (ln_depth y) d); auto. inversion Hn; auto.
Qed.

Lemma deeper_unique : forall d a1 b1 a2 b2, a1 ++ b1 = a2 ++ b2 ->
  Forall (fun l => d < ln_depth l) a1 -> Forall (fun l => d < ln_depth l) a2 ->
  match b1 with [] => True | l :: _ => ln_depth l <= d end -> match b2 with [] => True | l :: _ => ln_depth l <= d end ->
  a1 = a2 /\ b1 = b2.
Proof.
  intros d. induction a1 as [|x a1 IH]; intros b1 a2 b2 He F1 F2 P1 P2; destruct a2 as [|y a2]; simpl in He.
  - auto.
  - exfalso. subst b1. inversion F2; subst. lia.
  - exfalso. subst b2. inversion F1; subst. lia.
  - injection He as -> He. inversion F1; inversion F2; subst. destruct (IH _ _ _ He) as [-> ->]; auto.
Qed.

Lemma block_unique : forall ls d n s1 i1 s2 i2, block_of ls d n s1 i1 -> block_of ls d n s2 i2 -> NoDup (introduced d ls) -> s1 = s2 /\ i1 = i2.
Proof.
  intros ls d n s1 i1 s2 i2 (p1 & q1 & E1 & F1 & P1) (p2 & q2 & E2 & F2 & P2) Hn. simpl in E1, E2.
  assert (Hd : p1 ++ mkLine d (BGroup n s1) :: i1 ++ q1 = p2 ++ mkLine d (BGroup n s2) :: i2 ++ q2) by congruence.
  rewrite E1 in Hn. destruct (head_unique d n (BGroup n s1) (BGroup n s2) eq_refl eq_refl _ _ _ _ Hd Hn) as (_ & Hb & Hr). injection Hb as ->.
  destruct (deeper_unique d _ _ _ _ Hr F1 F2 P1 P2) as [-> _]. auto.
Qed.

Lemma mem_get : forall V n (d : dict V), dmem n d = match dget n d with Some _ => true | None => false end.
Proof. intros V n d. unfold dmem, dget, amem. destruct (aget str_eqb n d); reflexivity. Qed.

Section Tree.
  Context (E : env) (up : pystr -> pystr) (w : world) (ds : handle -> dsview) (nexus : bool) (m : Z).

  Notation rattrs := (render_attributes E w).
  Notation rmember := (render_member E up w ds nexus m).
  Notation rgroup := (render_group E up w ds nexus m).

  (** ** Attributes *)
  Lemma decode_text : forall v s, text_value E v s -> decode_byte_string E v = Ok (VStr s).
  Proof. intros v s [s'|b s' H]; simpl; [reflexivity|]. rewrite H. reflexivity. Qed.

  Lemma value_shown : forall v t, render_value E v = Ok t -> value_text E v t.
  Proof.
    intros v t H. unfold render_value in H. destruct v as [s|b|z|r| |l|[|s l]|l|l|r]; cbn [decode_byte_string rbind] in H.
    - injection H as <-. apply vt_text. constructor.
    - destruct (decode_bytes (e_enc E) b) as [s|] eqn:Eb; [|discriminate]. cbn [rmap rbind] in H. injection H as <-. apply vt_text. constructor. exact Eb.
    - injection H as <-. constructor.
    - injection H as <-. constructor.
    - injection H as <-. apply vt_nothing. auto.
    - destruct l; [discriminate|]. injection H as <-. apply vt_list. discriminate.
    - injection H as <-. apply vt_nothing. auto.
    - injection H as <-. apply vt_texts. discriminate.
    - destruct l as [|b l]; [injection H as <-; apply vt_nothing; auto|].
      destruct (traverse (decode_bytes EncAscii) (b :: l)) as [ss|] eqn:Et; [|discriminate]. cbn [rmap rbind] in H.
      apply traverse_Forall2 in Et. destruct ss as [|s ss]; [inversion Et|]. injection H as <-. apply (vt_bytes E (b :: l) (s :: ss)); [discriminate|exact Et].
    - injection H as <-. constructor.
    - injection H as <-. constructor.
  Qed.

  Lemma singles_lines : forall d l ls, traverse (fun nv => render_single_attribute E d (fst nv) (snd nv)) l = Ok ls ->
    attribute_lines E d true l ls.
  Proof.
    intros d l ls H. apply traverse_Forall2 in H. unfold attribute_lines. induction H as [|nv x l ls Hx H IH]; constructor; auto.
    unfold render_single_attribute in Hx. destruct (render_value E (snd nv)) as [t|] eqn:Et; [|discriminate]. cbn [rbind] in Hx.
    injection Hx as <-. exists t. split; auto. apply value_shown. exact Et.
  Qed.

  Lemma attrs_lines : forall at_ h d x ls, rattrs at_ h d x = Ok ls -> attribute_lines E d at_ (attrs_of w h ++ x) ls.
  Proof.
    intros at_ h d x ls H. unfold render_attributes in H. destruct at_; [apply singles_lines; exact H|]. injection H as <-. reflexivity.
  Qed.
  Lemma links_lines : forall at_ l d ls, link_lines E at_ l d = Ok ls -> attribute_lines E d at_ (link_attributes l) ls.
  Proof.
    intros at_ l d ls H. unfold link_lines in H. replace (link_extra l) with (link_attributes l) in H by (destruct l; reflexivity).
    destruct at_; [apply singles_lines; exact H|]. injection H as <-. reflexivity.
  Qed.
  Lemma attribute_lines_app : forall d at_ x y a b, attribute_lines E d at_ x a -> attribute_lines E d at_ y b -> attribute_lines E d at_ (x ++ y) (a ++ b).
  Proof. intros d [] x y a b; unfold attribute_lines; [apply Forall2_app|]. intros -> ->. reflexivity. Qed.
  Lemma attribute_lines_nil : forall d at_, attribute_lines E d at_ [] [].
  Proof. intros d []; constructor. Qed.

  (** ** Classes *)
  Lemma suffix_shown : forall h s, class_suffix E w h = Ok s -> class_text E (dget (py "NX_class") (attrs_of w h)) s.
  Proof.
    intros h s H. unfold class_suffix in H. destruct (dget (py "NX_class") (attrs_of w h)) as [v|]; [|injection H as <-; constructor].
    destruct v as [[|c s']|[|c b]| | | | |[|s' l]|[|b l]| |]; try discriminate.
    - injection H as <-. constructor.
    - injection H as <-. apply ct_text; [constructor|discriminate].
    - destruct (decode_bytes (e_enc E) (c :: b)) as [s'|] eqn:Eb; [|discriminate]. cbn [rbind] in H. injection H as <-.
      apply ct_text; [constructor; exact Eb|discriminate].
    - injection H as <-. apply ct_texts.
    - destruct (decode_bytes (e_enc E) b) as [s'|] eqn:Eb; [|discriminate]. cbn [rbind] in H. injection H as <-. apply ct_bytes. exact Eb.
  Qed.

  (** ** Links *)
  Lemma full_not_link : forall v, in_full E w nexus v -> isNeXusLink E w v = Ok false.
  Proof.
    intros v H. unfold isNeXusLink. destruct H as [H|x H T|x H T _]; unfold target in H; rewrite H.
    - reflexivity.
    - rewrite (decode_text _ _ T). cbn [rbind]. rewrite str_eqb_refl. rewrite andb_false_r. reflexivity.
    - rewrite (decode_text _ _ T). cbn [rbind]. rewrite str_eqb_refl. reflexivity.
  Qed.
  Lemma full_here : forall v, in_full E w nexus v -> isHdf5Dataset w v = true -> dataset_elsewhere E w nexus v = Ok false.
  Proof.
    intros v H D. unfold dataset_elsewhere. destruct nexus eqn:En; [|reflexivity]. destruct H as [H|x H T|x H T [C|C]]; try congruence; unfold target in H; rewrite H.
    - reflexivity.
    - rewrite (decode_text _ _ T). cbn [rbind]. rewrite str_eqb_refl. reflexivity.
  Qed.
  Lemma dataset_no_group : forall v, isHdf5Dataset w v = true -> is_group_obj w v = false.
  Proof.
    intros v. unfold is_group_obj, isHdf5Dataset. destruct (obj_of w v) as [ob|]; auto. destruct (ob_kind ob); auto; discriminate.
  Qed.
  Lemma link_shown : forall v a name d, as_link E w nexus v a ->
    render_linked E w v name d = Ok [mkLine d (BLink name a)] /\
    ((isNeXusLink E w v = Ok true /\ a <> []) \/
     (isNeXusLink E w v = Ok false /\ isHdf5Dataset w v = true /\ dataset_elsewhere E w nexus v = Ok true /\ a = [])).
  Proof.
    intros v a name d [x H T Ho Hk]. unfold target in H. unfold render_linked, isNeXusLink, dataset_elsewhere. rewrite H, (decode_text _ _ T). cbn [rbind].
    split; [reflexivity|].
    assert (Hb : str_eqb a (h_name v) = false) by (destruct (str_eqb_spec a (h_name v)); [contradiction|reflexivity]). rewrite Hb.
    destruct (str_eqb_spec a []) as [->|Hne].
    - right. destruct Hk as [Hk|[-> Hd]]; [congruence|]. auto.
    - left. split; [reflexivity|exact Hne].
  Qed.

  (** ** Members *)
  Lemma dataset_own : forall h name d ls, dataset_lines E up ds nexus m h name d = Ok ls ->
    exists text own, ls = mkLine d (BField name text) :: own /\ array_lines d own.
  Proof.
    unfold dataset_lines. intros h name d ls H.
    destruct (render_type up nexus (ds h)) as [ty|]; [|discriminate]. cbn [rbind] in H. unfold array_lines.
    repeat match type of H with
    | Ok _ = Ok _ => injection H as <-; eexists _, _; split; [reflexivity|eauto]
    | Exn _ = Ok _ => discriminate
    | rbind ?t _ = _ => destruct t; cbn [rbind] in H
    | match ?t with _ => _ end = _ => destruct t
    end.
  Qed.

  (** where a member's lines are in the lines of its group *)
  Definition in_now (at_ : bool) (h : handle) (d : nat) (name : pystr) (l : link) (inside : list line) : Prop :=
    forall x, rmember at_ h (S d) (name, l) = Ok (Now x) ->
    exists pre post, inside = pre ++ x ++ post /\ match post with [] => True | y :: _ => ln_depth y = S d end.

  Lemma member_is : forall at_ h d name l inside b own attrs, in_now at_ h d name l inside ->
    (forall s, rmember at_ h (S d) (name, l) = Ok s -> exists al, s = Now (mkLine (S d) b :: own ++ al) /\ attribute_lines E (S d) at_ attrs al) ->
    (exists s, rmember at_ h (S d) (name, l) = Ok s) ->
    shown_with E inside (S d) b own at_ attrs.
  Proof.
    intros at_ h d name l inside b own attrs Hin Hs [s Hm]. destruct (Hs s Hm) as (al & -> & Ha).
    destruct (Hin _ Hm) as (pre & post & -> & Hp). exists pre, al, post. split; [|split; [exact Ha|]].
    - simpl. rewrite <- app_assoc. reflexivity.
    - destruct post as [|y post]; auto. intros [_ Hy]. lia.
  Qed.

  Lemma member_leads : forall at_ h d name l v, leads_to w h name v -> dget name (links_of w h) = Some l ->
    rmember at_ h d (name, l) = (dor b <- isNeXusLink E w v ;
      if b then rmap Now (render_linked E w v name d)
      else if is_group_obj w v then Ok (Later v name l)
      else if isHdf5Dataset w v then
        dor s <- render_dataset E up w ds nexus m at_ v name d ;
        dor x <- link_lines E at_ l d ; Ok (Now (s ++ x)) else Exn RuntimeError).
  Proof.
    intros at_ h d name l v [o H V|f p x H F V] Hl; rewrite H in Hl; injection Hl as <-; unfold render_member.
    - rewrite V. reflexivity.
    - rewrite mem_get, F, V. reflexivity.
  Qed.

  (** ** Groups *)
  Lemma members_located : forall at_ k h name d md suffix inside, rgroup at_ k h name d md = Ok (mkLine d (BGroup name suffix) :: inside) ->
    forall nm l, dget nm (links_of w h) = Some l -> in_now at_ h d nm l inside /\ exists s, rmember at_ h (S d) (nm, l) = Ok s.
  Proof.
    intros at_ k h name d md suffix inside H nm l Hl.
    apply group_inv in H as (k' & sf & a & ms & gs & _ & Hs & Ha & Hm & Hg & Hls). injection Hls as _ Hins. subst inside.
    assert (Hin : In (nm, l) (sorted_items (links_of w h))) by (apply sorted_by_In, dget_In; auto).
    destruct (Forall2_In_l _ _ _ _ _ _ Hm Hin) as (y & Hy & Hye). split; [|eauto].
    intros x Hx. rewrite Hye in Hx. injection Hx as ->.
    apply in_split in Hin as (L1 & L2 & HL). clear Hy. rewrite HL in Hm.
    apply Forall2_app_inv_l in Hm as (m1 & m2' & Hm1 & Hm2 & ->). inversion Hm2 as [|? s2 ? m2 Hs2 Hm2']; subst.
    assert (s2 = Now x) as -> by congruence.
    exists (a ++ List.concat (map now_of m1)), (List.concat (map now_of m2) ++ List.concat gs). split.
    - rewrite map_app, concat_app. simpl. rewrite <- !app_assoc. reflexivity.
    - assert (Hgh : match List.concat gs with [] => True | y :: _ => ln_depth y = S d end).
      { inversion Hg as [|g y ? ? Hgy]; subst; simpl; [auto|]. apply group_block in Hgy as (sf' & ins & -> & _). reflexivity. }
      clear - Hm2' Hgh. induction Hm2' as [|[n0 l0] s L ms Hs Hms IH]; simpl; auto.
      destruct s as [ls|v n' md]; simpl; auto. apply member_now in Hs as (b & r & -> & _). reflexivity.
  Qed.

  Lemma subs_located : forall at_ k h name d md suffix inside, rgroup at_ k h name d md = Ok (mkLine d (BGroup name suffix) :: inside) ->
    forall nm l v, dget nm (links_of w h) = Some l -> subgroup E w h nm v ->
    exists k' sf ins, rgroup at_ k' v nm (S d) l = Ok (mkLine (S d) (BGroup nm sf) :: ins) /\ block_of inside (S d) nm sf ins.
  Proof.
    intros at_ k h name d md suffix inside H nm l v Hl Hsub.
    apply group_inv in H as (k2 & sf & a & ms & gs & _ & Hs & Ha & Hm & Hg & Hls). injection Hls as _ Hins. subst inside.
    pose proof (member_subgroup E up w ds nexus m at_ h (S d) nm l v Hsub Hl) as Hlater.
    assert (Hin : In (nm, l) (sorted_items (links_of w h))) by (apply sorted_by_In, dget_In; auto).
    destruct (Forall2_In_l _ _ _ _ _ _ Hm Hin) as (y & Hy & Hye). rewrite Hlater in Hye. injection Hye as <-.
    assert (Hc : In (v, nm, l) (List.concat (map later_of ms))).
    { apply in_concat. exists [(v, nm, l)]. split; [|left; auto]. apply in_map_iff. exists (Later v nm l). auto. }
    apply in_split in Hc as (L1 & L2 & HL). rewrite HL in Hg.
    apply Forall2_app_inv_l in Hg as (g1 & g2' & Hg1 & Hg2 & ->). inversion Hg2 as [|? blk2 ? g2 Hb2 Hg2']; subst.
    simpl in Hb2. pose proof (group_block _ _ _ _ _ _ _ _ _ _ _ _ _ Hb2) as (sf' & ins & -> & _ & Hdeep).
    exists k2, sf', ins. split; [exact Hb2|].
    exists (a ++ List.concat (map now_of ms) ++ List.concat g1), (List.concat g2). split; [|split; [exact Hdeep|]].
    - rewrite concat_app. simpl. rewrite <- !app_assoc. reflexivity.
    - inversion Hg2' as [|g b2 ? ? Hgb]; subst; simpl; [auto|]. apply group_block in Hgb as (sf2 & ins2 & -> & _). simpl. lia.
  Qed.

  Lemma block_group : forall at_ k root title ls, rgroup at_ k root title 0 (LHard 0) = Ok ls ->
    (forall h n d, below E w root title h n d -> NoDup (dkeys (links_of w h))) ->
    forall h n d l suffix inside, block_at E w ls root title h n d l suffix inside ->
    below E w root title h n d /\ exists k', rgroup at_ k' h n d l = Ok (mkLine d (BGroup n suffix) :: inside).
  Proof.
    intros at_ k root title ls H Hn h n d l suffix inside Hb.
    induction Hb as [suffix inside Hls|h n d l0 suffix inside name l v suffix' inside' Hb [Hbel (k' & IH)] Hsub Hl Hbl].
    - split; [constructor|]. exists k. congruence.
    - split; [eapply bl_sub; eauto|].
      destruct (subs_located _ _ _ _ _ _ _ _ IH _ _ _ Hl Hsub) as (k2 & sf & ins & Hr & Hbl2).
      destruct (group_members _ _ _ _ _ _ _ _ _ _ _ _ _ IH (Hn _ _ _ Hbel)) as (sx & ix & fields & groups & He & _ & Hi & Hp & _).
      injection He as <- <-.
      assert (Hnd : NoDup (introduced (S d) inside)).
      { rewrite Hi. eapply Permutation_NoDup; [apply Permutation_sym; exact Hp|]. eauto. }
      destruct (block_unique _ _ _ _ _ _ _ Hbl Hbl2 Hnd) as [-> ->]. eauto.
  Qed.

  Lemma block_exists : forall at_ k root title ls, rgroup at_ k root title 0 (LHard 0) = Ok ls ->
    (forall h n d, below E w root title h n d -> NoDup (dkeys (links_of w h))) ->
    forall h n d, below E w root title h n d -> exists l suffix inside, block_at E w ls root title h n d l suffix inside.
  Proof.
    intros at_ k root title ls H Hn h n d Hb. induction Hb as [|h n d name v Hb (l0 & suffix & inside & IH) Hsub].
    - pose proof (group_block _ _ _ _ _ _ _ _ _ _ _ _ _ H) as (sf & ins & -> & _). exists (LHard 0), sf, ins. constructor. reflexivity.
    - destruct (block_group _ _ _ _ _ H Hn _ _ _ _ _ _ IH) as (_ & k' & Hr).
      assert (Hl : exists l, dget name (links_of w h) = Some l) by (destruct Hsub; eauto). destruct Hl as [l Hl].
      destruct (subs_located _ _ _ _ _ _ _ _ Hr _ _ _ Hl Hsub) as (k2 & sf & ins & _ & Hbl).
      exists l, sf, ins. eapply ba_sub; eauto.
  Qed.

  Lemma group_attributes : forall at_ k h n d l suffix inside, rgroup at_ k h n d l = Ok (mkLine d (BGroup n suffix) :: inside) ->
    class_text E (dget (py "NX_class") (attrs_of w h)) suffix /\
    exists al rest, inside = al ++ rest /\ attribute_lines E d at_ (attrs_of w h ++ link_attributes l) al /\
      match rest with [] => True | x :: _ => ~ (attribute_line x = true /\ ln_depth x = S d) end.
  Proof.
    intros at_ k h n d l suffix inside H.
    apply group_inv in H as (k' & sf & a & ms & gs & _ & Hs & Ha & Hm & Hg & Hls). injection Hls as <- ->. split; [apply suffix_shown; exact Hs|].
    exists a, (List.concat (map now_of ms) ++ List.concat gs). split; [reflexivity|]. split.
    - apply attrs_lines in Ha. replace (link_attributes l) with (link_extra l) by (destruct l; reflexivity). exact Ha.
    - assert (Hgh : match List.concat gs with [] => True | x :: _ => ~ (attribute_line x = true /\ ln_depth x = S d) end).
      { inversion Hg as [|g y ? ? Hgy]; subst; simpl; [auto|]. apply group_block in Hgy as (sf' & ins & -> & _). simpl. intros [X _]. discriminate X. }
      clear - Hm Hgh. induction Hm as [|[n0 l0] s L ms Hs Hms IH]; simpl; auto.
      destruct s as [ls|v n' md]; simpl; auto. apply member_now in Hs as (b & r & -> & Hb & _). simpl. intros [X _].
      unfold attribute_line in X. cbn [ln_body] in X. destruct b; discriminate.
  Qed.

  (** what each kind of member turns into *)
  Lemma soft_is : forall at_ h d name p s, rmember at_ h d (name, LSoft p) = Ok s -> exists al, s = Now (mkLine d (BSoft name p) :: [] ++ al) /\ attribute_lines E d at_ [] al.
  Proof. intros at_ h d name p s H. injection H as <-. exists []. split; [reflexivity|apply attribute_lines_nil]. Qed.
  Lemma missing_is : forall at_ h d name f p s, dget f w = None -> rmember at_ h d (name, LExt f p) = Ok s ->
    exists al, s = Now (mkLine d (BMissing name) :: [] ++ al) /\ attribute_lines E d at_ (link_attributes (LExt f p)) al.
  Proof.
    intros at_ h d name f p s F H. unfold render_member in H. rewrite mem_get, F in H.
    destruct (link_lines E at_ (LExt f p) d) as [x|] eqn:Ex; [|discriminate]. cbn [rbind] in H. injection H as <-. exists x. split; [reflexivity|].
    apply links_lines. exact Ex.
  Qed.
  Lemma link_is : forall at_ h d name l v a s, leads_to w h name v -> dget name (links_of w h) = Some l -> as_link E w nexus v a ->
    rmember at_ h d (name, l) = Ok s ->
    exists al, s = Now (mkLine d (BLink name a) :: [] ++ al) /\ attribute_lines E d at_ (match a with [] => link_attributes l | _ => [] end) al.
  Proof.
    intros at_ h d name l v a s Hv Hl Ha H. rewrite (member_leads _ _ _ _ _ _ Hv Hl) in H.
    destruct (link_shown _ _ name d Ha) as [Hr [[Hn Hne]|(Hn & Hd & He & ->)]]; rewrite Hn in H; cbn [rbind] in H.
    - rewrite Hr in H. cbn [rmap rbind] in H. injection H as <-. exists []. split; [reflexivity|].
      destruct a; [congruence|apply attribute_lines_nil].
    - rewrite (dataset_no_group _ Hd), Hd in H. unfold render_dataset in H. rewrite He in H. cbn [rbind] in H. rewrite Hr in H. cbn [rbind] in H.
      destruct (link_lines E at_ l d) as [x|] eqn:Ex; [|discriminate]. cbn [rbind] in H. injection H as <-.
      exists x. split; [reflexivity|]. apply links_lines. exact Ex.
  Qed.
  Lemma dataset_is : forall at_ h d name l v s, leads_to w h name v -> dget name (links_of w h) = Some l -> in_full E w nexus v ->
    isHdf5Dataset w v = true -> rmember at_ h d (name, l) = Ok s ->
    exists text own al, s = Now (mkLine d (BField name text) :: own ++ al) /\ array_lines d own /\
      attribute_lines E d at_ (attrs_of w v ++ link_attributes l) al.
  Proof.
    intros at_ h d name l v s Hv Hl Hi Hd H. rewrite (member_leads _ _ _ _ _ _ Hv Hl) in H.
    rewrite (full_not_link _ Hi) in H. cbn [rbind] in H. rewrite (dataset_no_group _ Hd), Hd in H.
    unfold render_dataset in H. rewrite (full_here _ Hi Hd) in H. cbn [rbind] in H.
    destruct (dataset_lines E up ds nexus m v name d) as [x|] eqn:Ex; [|discriminate]. cbn [rbind] in H.
    destruct (rattrs at_ v d []) as [y|] eqn:Ey; [|discriminate]. cbn [rbind] in H.
    destruct (link_lines E at_ l d) as [z|] eqn:Ez; [|discriminate]. cbn [rbind] in H. injection H as <-.
    apply dataset_own in Ex as (text & own & -> & Ho). exists text, own, (y ++ z). split; [|split; [exact Ho|]].
    - simpl. rewrite !app_assoc. reflexivity.
    - apply attribute_lines_app; [|apply links_lines; exact Ez]. apply attrs_lines in Ey. rewrite app_nil_r in Ey. exact Ey.
  Qed.
  Lemma group_is : forall h name v l, leads_to w h name v -> dget name (links_of w h) = Some l -> in_full E w nexus v -> is_group_obj w v = true ->
    subgroup E w h name v.
  Proof.
    intros h name v l Hv Hl Hi Hg. pose proof (full_not_link _ Hi) as Hn. apply marked_iff in Hn. destruct Hv as [o H V|f p x H F V].
    - eapply sub_hard; eauto.
    - eapply sub_ext; eauto. rewrite mem_get, F. reflexivity.
  Qed.
End Tree.
