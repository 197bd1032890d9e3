(** * Array previews and files that can be shown *)

From Coq Require Import List NArith ZArith Bool String Sorting Permutation Lia.
From Verif Require Import PyBase PyFacts Utf8 H5 Catalog H5Tree Spec_Tree TreeFacts.
Import ListNotations.
Open Scope string_scope.
Open Scope list_scope.

Lemma traverse_app : forall A B (f : A -> res B) a b x y, traverse f a = Ok x -> traverse f b = Ok y -> traverse f (a ++ b) = Ok (x ++ y).
Proof.
  intros A B f a b x y Ha Hb. apply Forall2_traverse. apply Forall2_app; apply traverse_Forall2; auto.
Qed.

Lemma F2_length : forall A B (R : A -> B -> Prop) l r, Forall2 R l r -> List.length l = List.length r.
Proof. induction 1; simpl; auto. Qed.
Lemma F2_impl : forall A B (R S : A -> B -> Prop) l r, (forall a b, R a b -> S a b) -> Forall2 R l r -> Forall2 S l r.
Proof. induction 2; constructor; auto. Qed.

Lemma skipn_nth : forall A (l : list A) n x, nth_error l n = Some x -> skipn n l = x :: skipn (S n) l.
Proof. induction l as [|a l IH]; intros [|n] x H; simpl in *; try discriminate; [congruence|]. rewrite (IH _ _ H). destruct l; reflexivity. Qed.

Lemma traverse_seq : forall (f : option nat -> res pystr) ts, (forall i t, nth_error ts i = Some t -> f (Some i) = Ok t) ->
  forall k a, a + k <= List.length ts -> traverse f (map Some (seq a k)) = Ok (firstn k (skipn a ts)).
Proof.
  intros f ts Hf. induction k as [|k IH]; intros a Hk; [reflexivity|].
  destruct (nth_error ts a) as [t|] eqn:Et; [|apply nth_error_None in Et; lia].
  simpl. rewrite (Hf _ _ Et). cbn [rbind]. rewrite IH by lia. cbn [rbind]. rewrite (skipn_nth _ _ _ _ Et). reflexivity.
Qed.

Lemma shown_preview : forall (m : Z) (f : option nat -> res pystr) ts ell, (2 < m)%Z ->
  (forall i t, nth_error ts i = Some t -> f (Some i) = Ok t) -> f None = Ok ell ->
  exists r, traverse f (shown_items m (List.length ts)) = Ok r /\ preview (Z.to_nat m) ell ts r.
Proof.
  intros m f ts ell Hm Hf He. unfold shown_items, decide_num_shown.
  destruct (Z.gtb_spec (Z.of_nat (List.length ts)) m) as [Hgt|Hle].
  - set (k := Z.to_nat (m - 2)). assert (Hk : k + 2 = Z.to_nat m) by lia.
    destruct (Nat.ltb_spec k (List.length ts)) as [Hlt|]; [|lia].
    set (rest := skipn k ts). assert (Hr : List.length rest = List.length ts - k) by (apply skipn_length).
    assert (Hne : rest <> []) by (intros Z0; rewrite Z0 in Hr; simpl in Hr; lia).
    destruct (exists_last Hne) as (mid & fin & Hmid).
    assert (Hts : ts = firstn k ts ++ mid ++ [fin]) by (rewrite <- Hmid; symmetry; apply firstn_skipn).
    exists (firstn k ts ++ [ell; fin]). split.
    + apply traverse_app.
      * rewrite (traverse_seq f ts Hf) by lia. reflexivity.
      * cbn [traverse]. rewrite He. cbn [rbind]. rewrite (Hf _ fin); [reflexivity|].
        rewrite Hts at 1. rewrite nth_error_app2; rewrite firstn_length, Nat.min_l by lia; [|lia].
        rewrite Hmid, app_length in Hr. cbn [List.length] in Hr.
        rewrite nth_error_app2 by lia. replace (List.length ts - 1 - k - List.length mid) with 0 by lia. reflexivity.
    + right. exists (firstn k ts), mid, fin. repeat split; auto; [lia|]. rewrite firstn_length, Nat.min_l by lia. lia.
  - rewrite Nat.ltb_irrefl, app_nil_r. exists ts. split; [|left; split; auto; lia].
    rewrite (traverse_seq f ts Hf) by lia. cbn [skipn]. rewrite firstn_all. reflexivity.
Qed.

Lemma fits_flat : forall l, Forall (fits []) l -> exists els, l = map (fun e => NVal (fst e) (snd e)) els.
Proof.
  induction 1 as [|x l Hx H [els IH]]; [exists []; auto|]. destruct x as [s r|]; [|destruct Hx].
  exists ((s, r) :: els). simpl. congruence.
Qed.

Lemma render_nd_text : forall (m : Z), (2 < m)%Z -> forall shape a ind, shape <> [] -> fits shape a ->
  exists v, render_nd m shape a ind = Ok v /\ array_text (Z.to_nat m) shape a ind v.
Proof.
  intros m Hm. induction shape as [|n rest IH]; intros a ind Hne Hfit; [congruence|].
  destruct a as [|l]; [destruct Hfit|]. destruct Hfit as [Hn Hrest].
  cbn [render_nd].
  destruct rest as [|n2 rest].
  - destruct (fits_flat _ Hrest) as [els ->]. rewrite map_length in Hn. subst n.
    set (f := fun o : option nat => match o with Some i => dor x <- nd_item (NArr (map (fun e => NVal (fst e) (snd e)) els)) i ; nd_repr x | None => Ok (py "'...'") end).
    destruct (shown_preview m f (map snd els) (py "'...'") Hm) as (r & Hr & Hp).
    + intros i t Hi. unfold f, nd_item. rewrite nth_error_map in Hi |- *. destruct (nth_error els i) as [[s q]|]; [|discriminate].
      simpl in *. congruence.
    + reflexivity.
    + rewrite map_length in Hr. exists (py "[" ++ join (py ", ") r ++ py "]"). split.
      * change (Nat.eqb (List.length [List.length els]) 1) with true. cbn iota. fold f.
        match goal with |- rbind (traverse ?g _) _ = _ => change g with f end. rewrite Hr. reflexivity.
      * apply at_flat. auto.
  - set (rk := List.length (n :: n2 :: rest)). assert (Hrk : rk = S (S (List.length rest))) by reflexivity.
    replace (Nat.eqb rk 1) with false by (rewrite Hrk; reflexivity).
    destruct (Nat.ltb_spec rk 4) as [H4|H4].
    + assert (Hts : exists ts, Forall2 (fun row t => render_nd m (n2 :: rest) row (ind ++ py "    ") = Ok t /\ array_text (Z.to_nat m) (n2 :: rest) row (ind ++ py "    ") t) l ts).
      { clear Hn. induction Hrest as [|row l Hrow Hl [ts IHl]]; [exists []; constructor|].
        destruct (IH row (ind ++ py "    ")) as (t & Ht1 & Ht2); [discriminate|assumption|]. exists (t :: ts). constructor; auto. }
      destruct Hts as [ts Hts]. assert (Hlen : List.length ts = n) by (rewrite <- Hn; symmetry; eapply F2_length; eauto).
      match goal with |- exists v, rbind (traverse ?g _) _ = _ /\ _ => set (f := g) end.
      destruct (shown_preview m f ts (py "...") Hm) as (r & Hr & Hp).
      * intros i t Hi. unfold f, nd_item.
        assert (Hrow : exists row, nth_error l i = Some row /\ render_nd m (n2 :: rest) row (ind ++ py "    ") = Ok t).
        { clear - Hts Hi. revert i Hi. induction Hts as [|row t0 l ts [Hr _] Hts IHt]; intros [|i] Hi; simpl in *; try discriminate.
          - exists row. split; congruence.
          - eauto. }
        destruct Hrow as (row & -> & Hrow). cbn [rbind]. exact Hrow.
      * reflexivity.
      * rewrite Hlen in Hr. rewrite Hr. cbn [rbind]. eexists. split; [reflexivity|]. eapply at_rows; eauto.
        -- change (S (List.length rest) = 1 \/ S (List.length rest) = 2). lia.
        -- eapply F2_impl; [|exact Hts]. simpl. intros ? ? [_ ?]; auto.
    + match goal with |- exists v, rbind (traverse ?g _) _ = _ /\ _ => set (f := g) end.
      destruct (shown_preview m f (repeat (py "rank=" ++ str_nat (S (List.length rest))) n) (py "...") Hm) as (r & Hr & Hp).
      * intros i t Hi. unfold f, nd_item. assert (Hlt : i < n).
        { pose proof Hi as Hi'. apply nth_error_split in Hi' as (l1 & l2 & He & Hl1).
          apply (f_equal (@List.length _)) in He. rewrite repeat_length, app_length in He. cbn [List.length] in He. lia. }
        destruct (nth_error l i) eqn:El; [|apply nth_error_None in El; lia]. cbn [rbind].
        apply nth_error_In, repeat_spec in Hi. subst t. reflexivity.
      * reflexivity.
      * rewrite repeat_length in Hr. rewrite Hr. cbn [rbind]. eexists. split; [reflexivity|]. eapply at_deep; eauto. simpl. lia.
Qed.

(** ** Files that can be shown *)
Section Total.
  Context (E : env) (up : pystr -> pystr) (w : world) (ds : handle -> dsview) (nexus : bool) (m : Z).

  Lemma single_total : forall d n v x, decode_byte_string E v = Ok x -> x <> VList [] -> exists l, render_single_attribute E d n v = Ok l.
  Proof.
    intros d n v x Hx Hne. unfold render_single_attribute, render_value. rewrite Hx. cbn [rbind].
    destruct x as [| | | | |[|s l]| | | |]; cbn [rbind]; eauto. congruence.
  Qed.

  Lemma singles_total : forall d l, showable_attrs E l -> exists ls, traverse (fun nv => render_single_attribute E d (fst nv) (snd nv)) l = Ok ls.
  Proof.
    intros d l H. apply traverse_total. intros [n v] Hin. unfold showable_attrs in H. rewrite Forall_forall in H.
    destruct (H _ Hin) as (x & Hx & Hne). simpl. eauto using single_total.
  Qed.

  Lemma extra_showable : forall l, showable_attrs E (link_extra l).
  Proof. intros [| |f p]; simpl; repeat constructor; simpl; eexists; (split; [reflexivity|discriminate]). Qed.

  Lemma attrs_total : forall at_ h d x, showable_attrs E (attrs_of w h) -> showable_attrs E x -> exists ls, render_attributes E w at_ h d x = Ok ls.
  Proof.
    intros at_ h d x H1 H2. unfold render_attributes. destruct at_; [|eauto]. apply singles_total. apply Forall_app; auto.
  Qed.

  Lemma links_total : forall at_ l d, exists ls, link_lines E at_ l d = Ok ls.
  Proof. intros. unfold link_lines. destruct at_; [|eauto]. apply singles_total, extra_showable. Qed.

  Lemma showable_get : forall l k v, showable_attrs E l -> dget k l = Some v -> exists x, decode_byte_string E v = Ok x.
  Proof.
    intros l k v H Hg. apply dget_In in Hg. unfold showable_attrs in H. rewrite Forall_forall in H.
    destruct (H _ Hg) as (x & Hx & _). eauto.
  Qed.

  Lemma nexus_link_target : forall h, isNeXusLink E w h = Ok true -> exists v, dget (py "target") (attrs_of w h) = Some v.
  Proof.
    unfold isNeXusLink. intros h H. destruct (dget (py "target") (attrs_of w h)) as [v|] eqn:Ev; [eauto|].
    discriminate.
  Qed.

  Lemma linked_total : forall h name d, showable_attrs E (attrs_of w h) -> (exists v, dget (py "target") (attrs_of w h) = Some v) ->
    exists ls, render_linked E w h name d = Ok ls.
  Proof.
    intros h name d H [v Hv]. unfold render_linked. rewrite Hv. destruct (showable_get _ _ _ H Hv) as [x ->]. cbn [rbind]. eauto.
  Qed.

  Lemma dataset_lines_total : forall h name d, showable_data E (ds h) -> exists ls, dataset_lines E up ds nexus m h name d = Ok ls.
  Proof.
    intros h name d H. unfold dataset_lines. destruct (ds h) as [b|l|[|r] k|sh s|dt sh a|] eqn:Ed; simpl in H; try contradiction; try discriminate;
      cbn [render_type rbind]; eauto.
    - destruct H as [t ->]. cbn [rbind]. eauto.
    - match goal with |- exists ls, rbind ?t _ = _ => assert (Ht : exists ss, t = Ok ss) end.
      { apply traverse_total. intros b Hb. rewrite Forall_forall in H. destruct (H _ Hb) as [t ->]. cbn [rbind]. eauto. }
      destruct Ht as [ss ->]. cbn [rbind]. eauto.
    - assert (Harr : exists ls, (if (m >? 2)%Z then
              dor v <- render_array m sh a (indent (S d)) ;
              if Nat.ltb (List.length sh) 2
              then Ok [mkLine d (BField name (nx_type up nexus dt ++ render_shape sh ++ py " = " ++ v))]
              else Ok [mkLine d (BField name (nx_type up nexus dt ++ render_shape sh ++ py " = __array"));
                       mkLine (S d) (BArray v)]
            else Ok [mkLine d (BField name (nx_type up nexus dt ++ render_shape sh ++ py " = [ ... ]"))]) = Ok ls).
      { destruct (Z.gtb_spec m 2) as [Hm|]; [|eauto].
        assert (Hr : exists v, render_array m sh a (indent (S d)) = Ok v).
        { destruct sh as [|n sh]; [simpl; eauto|]. destruct (render_nd_text m ltac:(lia) (n :: sh) a (indent (S d) ++ py "  ")) as (v & Hv & _); [discriminate|auto|].
          exists v. exact Hv. }
        destruct Hr as [v ->]. cbn [rbind]. destruct (Nat.ltb (List.length sh) 2); eauto. }
      destruct sh as [|[|[|n]] [|n' sh]]; try exact Harr.
      destruct a as [|[|x [|]]]; simpl in H; try (exfalso; destruct H as [H _]; discriminate H); try contradiction.
      destruct H as [_ H]. inversion H as [|? ? Hx _]; subst. destruct x; [|destruct Hx]. simpl. eauto.
  Qed.

  Lemma member_total : forall at_ h d name l, showable_group E w ds h -> dget name (links_of w h) = Some l ->
    exists s, render_member E up w ds nexus m at_ h d (name, l) = Ok s.
  Proof.
    intros at_ h d name l Hg Hl. unfold render_member.
    assert (Hf : (exists v, getitem w h name = Ok v /\
        (exists b, marked E w v b) /\ showable_attrs E (attrs_of w v) /\
        (is_group_obj w v = true \/ isHdf5Dataset w v = true /\ showable_data E (ds v))) ->
      exists s, (dor v <- getitem w h name ; dor b <- isNeXusLink E w v ;
      if b then rmap Now (render_linked E w v name d)
      else if is_group_obj w v then Ok (Later v name l)
      else if isHdf5Dataset w v then
        dor s <- render_dataset E up w ds nexus m at_ v name d ;
        dor x <- link_lines E at_ l d ; Ok (Now (s ++ x)) else Exn RuntimeError) = Ok s).
    { intros (v & -> & [b Hb] & Ha & Hk). apply marked_iff in Hb. cbn [rbind]. rewrite Hb. cbn [rbind]. destruct b.
      - destruct (linked_total v name d Ha (nexus_link_target _ Hb)) as [ls ->]. simpl. eauto.
      - destruct (is_group_obj w v) eqn:Eg; [eauto|]. destruct Hk as [|[Hds Hk]]; [discriminate|]. rewrite Hds.
        assert (Hd : exists ls, render_dataset E up w ds nexus m at_ v name d = Ok ls).
        { unfold render_dataset.
          assert (He : exists b, dataset_elsewhere E w nexus v = Ok b /\ (b = true -> exists v', dget (py "target") (attrs_of w v) = Some v')).
          { unfold dataset_elsewhere. destruct nexus; [|exists false; split; [auto|discriminate]]. destruct (dget (py "target") (attrs_of w v)) as [t|] eqn:Et; [|exists false; split; [auto|discriminate]].
            destruct (showable_get _ _ _ Ha Et) as [x ->]. cbn [rbind]. eexists. split; [reflexivity|]. eauto. }
          destruct He as ([] & -> & Ht); cbn [rbind].
          - apply linked_total; auto.
          - destruct (dataset_lines_total v name d Hk) as [s ->]. cbn [rbind].
            destruct (attrs_total at_ v d [] Ha) as [x ->]; [constructor|]. cbn [rbind]. eauto. }
        destruct Hd as [s ->]. cbn [rbind]. destruct (links_total at_ l d) as [x ->]. cbn [rbind]. eauto. }
    pose proof (sg_members _ _ _ _ Hg name l Hl) as Hm. destruct l as [o|p|f p]; [auto|eauto|].
    destruct (dmem f w); [auto|]. destruct (links_total at_ (LExt f p) d) as [x ->]. cbn [rbind]. eauto.
  Qed.

  Lemma class_total : forall h, match dget (py "NX_class") (attrs_of w h) with Some v => class_value E v | None => True end ->
    exists s, class_suffix E w h = Ok s.
  Proof.
    intros h H. unfold class_suffix. destruct (dget (py "NX_class") (attrs_of w h)) as [v|]; [|eauto].
    destruct v as [[|]|[|]| | | | |[|]|[|]| |]; simpl in H; try contradiction; eauto.
    - destruct H; congruence.
    - destruct H as [_ [t ->]]. cbn [rbind]. eauto.
    - destruct H as [t ->]. cbn [rbind]. eauto.
  Qed.

  Lemma group_total : forall at_ root title k, (forall h n d, below E w root title h n d -> showable_group E w ds h) ->
    forall fuel, (forall h n d, below E w root title h n d -> d < k) ->
    forall h n d md, below E w root title h n d -> k <= d + fuel -> exists ls, render_group E up w ds nexus m at_ fuel h n d md = Ok ls.
  Proof.
    intros at_ root title k Hs fuel Hk. induction fuel as [|fuel IH]; intros h n d md Hb Hf.
    - specialize (Hk _ _ _ Hb). lia.
    - pose proof (Hs _ _ _ Hb) as Hg. cbn [render_group].
      destruct (class_total h (sg_class _ _ _ _ Hg)) as [s ->]. cbn [rbind].
      destruct (attrs_total at_ h d (link_extra md) (sg_attrs _ _ _ _ Hg) (extra_showable md)) as [a ->]. cbn [rbind].
      assert (Hd : forall name l, In (name, l) (sorted_items (links_of w h)) -> dget name (links_of w h) = Some l).
      { intros name l Hin. apply sorted_by_In in Hin. unfold dget. apply In_aget_NoDup; auto using str_eqb_eq. apply (sg_names _ _ _ _ Hg). }
      destruct (traverse (render_member E up w ds nexus m at_ h (S d)) (sorted_items (links_of w h))) as [ms|e] eqn:Em.
      2:{ exfalso. destruct (traverse_total _ _ (render_member E up w ds nexus m at_ h (S d)) (sorted_items (links_of w h))) as [r Hr]; [|congruence].
          intros [name l] Hin. apply member_total; auto. }
      cbn [rbind]. apply traverse_Forall2 in Em.
      match goal with |- exists ls, rbind ?t _ = _ => assert (Ht : exists gs, t = Ok gs) end.
      { apply traverse_total. intros [[v name] l] Hin. simpl. apply in_concat in Hin as (x & Hx & Hin).
        apply in_map_iff in Hx as (sh & <- & Hsh). destruct sh as [|v' n' l']; [destruct Hin|]. destruct Hin as [Hin|[]]. inversion Hin; subst.
        assert (Hm : exists nl, In nl (sorted_items (links_of w h)) /\ render_member E up w ds nexus m at_ h (S d) nl = Ok (Later v name l)).
        { clear - Em Hsh. induction Em as [|nl s L ms Hs Em IHm]; [destruct Hsh|]. destruct Hsh as [->|Hsh].
          - exists nl. split; [left|]; auto.
          - destruct (IHm Hsh) as (nl' & ? & ?). exists nl'. split; [right|]; auto. }
        destruct Hm as ([name0 l0] & Hin0 & Hm). pose proof Hm as Hm'. apply member_later in Hm as (-> & -> & Hv & Hgr & Hnl & Hlk).
        apply marked_iff in Hnl. apply IH; [|lia]. eapply bl_sub; [exact Hb|]. apply Hd in Hin0. destruct l0 as [o|p|f p]; [eapply sub_hard; eauto|destruct Hlk|eapply sub_ext; eauto]. }
      destruct Ht as [gs ->]. cbn [rbind]. eauto.
  Qed.
End Total.

(** ** Statements about whole reports *)
Section Report.
  Context (E : env) (up : pystr -> pystr) (w : world) (ds : handle -> dsview).

  Lemma lines_inv : forall fuel t show file ls, t_filename t = Some file -> tree_lines E up w ds fuel t show = Ok (Some ls) ->
    render_group E up w ds (t_nexus t) (t_items t) show fuel (open_root file) (title_of t file) 0 (LHard 0) = Ok ls.
  Proof.
    unfold tree_lines, title_of. intros fuel t show file ls -> H. destruct (dget file w) as [[f|]|]; try discriminate.
    match type of H with rbind ?x _ = _ => destruct x as [l|]; [|discriminate] end. cbn [rbind] in H. inversion H. reflexivity.
  Qed.

  Lemma report_members : forall fuel t show file ls, t_filename t = Some file -> tree_lines E up w ds fuel t show = Ok (Some ls) ->
    (forall h n d, below E w (open_root file) (title_of t file) h n d -> NoDup (dkeys (links_of w h))) ->
    forall h n d, below E w (open_root file) (title_of t file) h n d ->
    exists suffix inside fields groups, block_of ls d n suffix inside /\
      introduced (S d) inside = fields ++ groups /\ Permutation (fields ++ groups) (dkeys (links_of w h)) /\
      in_name_order fields /\ in_name_order groups /\
      (forall x, In x groups -> exists v, subgroup E w h x v) /\ (forall x v, In x fields -> ~ subgroup E w h x v).
  Proof.
    intros fuel t show file ls Hf H Hn h n d Hb. pose proof (lines_inv _ _ _ _ _ Hf H) as Hg.
    destruct (group_located _ _ _ _ _ _ _ _ _ _ _ _ Hg Hn h n d Hb) as (pre & blk & post & k' & md' & Hls & Hr & Hp).
    destruct (group_members _ _ _ _ _ _ _ _ _ _ _ _ _ Hr (Hn _ _ _ Hb)) as (suffix & inside & fields & groups & -> & Hd & Hrest).
    exists suffix, inside, fields, groups. split; [|exact Hrest]. exists pre, post. auto.
  Qed.

  (** the lines of a dataset are in the report *)
  Lemma report_dataset : forall fuel t show file ls, t_filename t = Some file -> tree_lines E up w ds fuel t show = Ok (Some ls) ->
    (forall h n d, below E w (open_root file) (title_of t file) h n d -> NoDup (dkeys (links_of w h))) ->
    forall h n d name o v, below E w (open_root file) (title_of t file) h n d ->
    dget name (links_of w h) = Some (LHard o) -> getitem w h name = Ok v -> isHdf5Dataset w v = true ->
    dget (py "target") (attrs_of w v) = None ->
    exists s, dataset_lines E up ds (t_nexus t) (t_items t) v name (S d) = Ok s /\ incl s ls.
  Proof.
    intros fuel t show file ls Hf H Hn h n d name o v Hb Hl Hv Hd Ht. pose proof (lines_inv _ _ _ _ _ Hf H) as Hg.
    destruct (group_located _ _ _ _ _ _ _ _ _ _ _ _ Hg Hn h n d Hb) as (pre & blk & post & k' & md' & Hls & Hr & Hp).
    apply group_inv in Hr as (k2 & suffix & a & ms & gs & _ & _ & _ & Hm & _ & Hblk).
    assert (Hin : In (name, LHard o) (sorted_items (links_of w h))) by (apply sorted_by_In, dget_In; auto).
    destruct (Forall2_In_l _ _ _ _ _ _ Hm Hin) as (y & Hy & Hye).
    unfold render_member in Hye. rewrite Hv in Hye. cbn [rbind] in Hye.
    assert (Hnl : isNeXusLink E w v = Ok false) by (unfold isNeXusLink; rewrite Ht; reflexivity).
    rewrite Hnl in Hye. cbn [rbind] in Hye.
    assert (Hng : is_group_obj w v = false).
    { unfold is_group_obj, isHdf5Dataset in *. destruct (obj_of w v) as [ob|]; auto. destruct (ob_kind ob); auto; discriminate. }
    rewrite Hng, Hd in Hye. unfold render_dataset, dataset_elsewhere in Hye. rewrite Ht in Hye.
    replace (if t_nexus t then @Ok bool false else Ok false) with (@Ok bool false) in Hye by (destruct (t_nexus t); reflexivity).
    cbn [rbind] in Hye. destruct (dataset_lines E up ds (t_nexus t) (t_items t) v name (S d)) as [s|]; [|discriminate]. cbn [rbind] in Hye.
    destruct (render_attributes E w show v (S d) []) as [x|]; [|discriminate]. cbn [rbind] in Hye.
    destruct (link_lines E show (LHard o) (S d)) as [x'|]; [|discriminate]. cbn [rbind] in Hye. inversion Hye; subst y.
    exists s. split; auto. intros z Hz. rewrite Hls, Hblk. apply in_app_iff. right. apply in_app_iff. left. right.
    apply in_app_iff. right. apply in_app_iff. left. apply in_concat. exists (now_of (Now ((s ++ x) ++ x'))). split.
    - apply in_map. exact Hy.
    - simpl. apply in_app_iff. left. apply in_app_iff. left. exact Hz.
  Qed.
End Report.
