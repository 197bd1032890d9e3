(** * Facts about the tree view *)

From Coq Require Import List NArith ZArith Bool String Sorting Permutation Lia.
From Verif Require Import PyBase PyFacts Utf8 H5 Catalog H5Tree Spec_Tree.
Import ListNotations.
Open Scope string_scope.
Open Scope list_scope.

(** ** traverse *)
Lemma traverse_Forall2 : forall A B (f : A -> res B) l r, traverse f l = Ok r -> Forall2 (fun x y => f x = Ok y) l r.
Proof.
  induction l as [|x l IH]; intros r H; simpl in H.
  - inversion H. constructor.
  - destruct (f x) as [y|] eqn:Ex; [|discriminate]. simpl in H.
    destruct (traverse f l) as [ys|] eqn:El; [|discriminate]. simpl in H. inversion H; subst. constructor; auto.
Qed.

Lemma Forall2_traverse : forall A B (f : A -> res B) l r, Forall2 (fun x y => f x = Ok y) l r -> traverse f l = Ok r.
Proof.
  intros A B f l r H. induction H; simpl; auto. rewrite H. simpl. rewrite IHForall2. reflexivity.
Qed.

Lemma traverse_total : forall A B (f : A -> res B) l, (forall x, In x l -> exists y, f x = Ok y) -> exists r, traverse f l = Ok r.
Proof.
  induction l as [|x l IH]; intros H; [exists []; auto|].
  destruct (H x (or_introl eq_refl)) as [y Hy]. destruct IH as [r Hr]; [intros; apply H; right; auto|].
  exists (y :: r). simpl. rewrite Hy. simpl. rewrite Hr. reflexivity.
Qed.

Lemma Forall2_In_l : forall A B (R : A -> B -> Prop) l r x, Forall2 R l r -> In x l -> exists y, In y r /\ R x y.
Proof.
  induction 1; intros Hin; [destruct Hin|]. destruct Hin as [->|Hin]; [exists y; split; [left|]; auto|].
  destruct (IHForall2 Hin) as [z [Hz HR]]. exists z. split; [right|]; auto.
Qed.

(** ** introduced *)
Lemma introduced_app : forall d a b, introduced d (a ++ b) = introduced d a ++ introduced d b.
Proof.
  induction a as [|l a IH]; intros b; simpl; auto.
  destruct (introduces (ln_body l)); auto. destruct (Nat.eqb (ln_depth l) d); simpl; rewrite IH; auto.
Qed.

Lemma introduced_deeper : forall d ls, Forall (fun l => d < ln_depth l) ls -> introduced d ls = [].
Proof.
  induction 1; simpl; auto. destruct (introduces (ln_body x)); auto.
  destruct (Nat.eqb_spec (ln_depth x) d); auto. lia.
Qed.

Lemma introduced_attrs : forall d ls, Forall (fun l => attribute_line l = true) ls -> introduced d ls = [].
Proof.
  induction 1; simpl; auto. unfold attribute_line in H. destruct (ln_body x); simpl; auto; discriminate.
Qed.

Lemma decoded_plain : forall E x y, decode_byte_string E x = Ok y ->
  match y with VBytes _ | VArrO _ | VArrS _ => False | _ => True end.
Proof.
  intros E x y H. destruct x as [s|b|z|r| |l|l|l|l|r]; cbn [decode_byte_string] in H; try (injection H as <-; exact I).
  - destruct (Utf8.decode_bytes (e_enc E) b); [|discriminate H]. injection H as <-. exact I.
  - destruct l; injection H as <-; exact I.
  - destruct l as [|b l]; [injection H as <-; exact I|]. destruct (traverse _ _); [|discriminate H]. injection H as <-. exact I.
Qed.
(** the attribute "target", as the model reads it *)
Lemma marked_iff : forall E w v b, marked E w v b <-> isNeXusLink E w v = Ok b.
Proof.
  intros E w v b. unfold isNeXusLink. split.
  - intros [H|x s H D [-> | ->]|x s H D N1 N2|x y H D [-> | ->]|x s l H D|x s l H D]; rewrite H; try rewrite D; cbn [rbind]; try reflexivity.
    + cbn [negb]. rewrite (proj2 (str_eqb_eq _ _) eq_refl), andb_false_r. reflexivity.
    + destruct (str_eqb s []) eqn:A; [apply str_eqb_eq in A; contradiction|]. destruct (str_eqb s (h_name v)) eqn:B; [apply str_eqb_eq in B; contradiction|]. reflexivity.
  - destruct (dget (py "target") (attrs_of w v)) as [x|] eqn:T.
    2:{ cbn [rbind]. intros H. injection H as <-. apply mk_none. exact T. }
    destruct (decode_byte_string E x) as [y|] eqn:D; [|discriminate]. cbn [rbind]. destruct y as [s|b0|z|r| |l|l|l|l|r].
    all: intros H; try discriminate H.
    all: try (injection H as <-).
    1: { destruct (str_eqb s []) eqn:A; [apply str_eqb_eq in A; eapply mk_here; eauto|]. destruct (str_eqb s (h_name v)) eqn:B; [apply str_eqb_eq in B; eapply mk_here; eauto|].
      eapply mk_there; eauto; intros ->; [discriminate A|]. rewrite (proj2 (str_eqb_eq _ _) eq_refl) in B. discriminate B. }
    all: try (destruct l; [solve [eapply mk_empty; eauto]|first [solve [eapply mk_texts; eauto]|solve [eapply mk_numbers; eauto]]]).
    all: exfalso; exact (decoded_plain _ _ _ D).
Qed.

Section Tree.
  Context (E : env) (up : pystr -> pystr) (w : world) (ds : handle -> dsview) (nexus : bool) (m : Z).

  Notation rattrs := (render_attributes E w).
  Notation rmember := (render_member E up w ds nexus m).
  Notation rgroup := (render_group E up w ds nexus m).

  (** *** attributes *)
  Lemma single_shape : forall d n v l, render_single_attribute E d n v = Ok l ->
    ln_depth l = S d /\ attribute_line l = true.
  Proof.
    unfold render_single_attribute. intros d n v l H. destruct (render_value E v); [|discriminate].
    simpl in H. inversion H; subst. auto.
  Qed.

  Lemma singles_shape : forall d l ls, traverse (fun nv => render_single_attribute E d (fst nv) (snd nv)) l = Ok ls ->
    Forall (fun l => ln_depth l = S d /\ attribute_line l = true) ls.
  Proof.
    intros d l ls H. apply traverse_Forall2 in H. induction H; constructor; eauto using single_shape.
  Qed.

  Lemma attrs_shape : forall a h d x ls, rattrs a h d x = Ok ls ->
    Forall (fun l => ln_depth l = S d /\ attribute_line l = true) ls.
  Proof.
    unfold render_attributes. intros a h d x ls H. destruct a; [eapply singles_shape; eauto|]. inversion H. constructor.
  Qed.

  Lemma links_shape : forall a l d ls, link_lines E a l d = Ok ls ->
    Forall (fun l => ln_depth l = S d /\ attribute_line l = true) ls.
  Proof.
    unfold link_lines. intros a l d ls H. destruct a; [eapply singles_shape; eauto|]. inversion H. constructor.
  Qed.

  Lemma shape_deeper : forall d ls, Forall (fun l => ln_depth l = S d /\ attribute_line l = true) ls ->
    Forall (fun l => d < ln_depth l) ls.
  Proof. intros d ls H. eapply Forall_impl; [|exact H]. simpl. intros l [-> _]. lia. Qed.

  (** *** members *)
  Definition member_block (d : nat) (name : pystr) (ls : list line) : Prop :=
    exists b rest, ls = mkLine d b :: rest /\ introduces b = Some name /\ Forall (fun l => d < ln_depth l) rest.

  Lemma linked_block : forall h name d ls, render_linked E w h name d = Ok ls -> member_block d name ls.
  Proof.
    unfold render_linked. intros h name d ls H. destruct (dget (py "target") (attrs_of w h)) as [v|]; [|discriminate].
    destruct (decode_byte_string E v); [|discriminate]. simpl in H. inversion H; subst.
    eexists _, []. split; [reflexivity|]. split; [reflexivity|constructor].
  Qed.

  Lemma dataset_lines_block : forall h name d ls, dataset_lines E up ds nexus m h name d = Ok ls -> member_block d name ls.
  Proof.
    unfold dataset_lines. intros h name d ls H.
    assert (one : forall t, Ok [mkLine d (BField name t)] = Ok ls -> member_block d name ls).
    { intros t Ht. inversion Ht; subst. eexists _, []. split; [reflexivity|]. split; [reflexivity|constructor]. }
    destruct (render_type up nexus (ds h)) as [ty|]; [|discriminate]. cbn [rbind] in H.
    destruct (ds h) as [b|l|[|r] k|sh s|dt sh a|]; try discriminate.
    - destruct (decode_bytes (e_enc E) b); [|discriminate]. eapply one; exact H.
    - match type of H with rbind ?t _ = _ => destruct t; [|discriminate] end. eapply one; exact H.
    - eapply one; exact H.
    - eapply one; exact H.
    - assert (other : (if (m >? 2)%Z then
              dor v <- render_array m sh a (indent (S d)) ;
              if Nat.ltb (List.length sh) 2
              then Ok [mkLine d (BField name (ty ++ render_shape sh ++ py " = " ++ v))]
              else Ok [mkLine d (BField name (ty ++ render_shape sh ++ py " = __array"));
                       mkLine (S d) (BArray v)]
            else Ok [mkLine d (BField name (ty ++ render_shape sh ++ py " = [ ... ]"))]) = Ok ls -> member_block d name ls).
      { intros H'. destruct (m >? 2)%Z; [|eapply one; exact H'].
        destruct (render_array m sh a (indent (S d))) as [v|]; [|discriminate]. cbn [rbind] in H'.
        destruct (Nat.ltb (List.length sh) 2); [eapply one; exact H'|]. inversion H'; subst.
        eexists _, _. split; [reflexivity|]. split; [reflexivity|]. constructor; [simpl; lia|constructor]. }
      destruct sh as [|[|[|n]] [|n' sh]]; try (apply other; exact H).
      destruct (nd_item a 0) as [x|]; [|discriminate]. cbn [rbind] in H.
      destruct (nd_str x) as [s|]; [|discriminate]. eapply one; exact H.
  Qed.

  Lemma block_app : forall d name a b, member_block d name a -> Forall (fun l => d < ln_depth l) b -> member_block d name (a ++ b).
  Proof.
    intros d name a b (x & r & -> & Hi & Hr) Hb. exists x, (r ++ b). split; [reflexivity|]. split; auto.
    apply Forall_app; auto.
  Qed.

  Lemma dataset_block : forall at_ h name d ls, render_dataset E up w ds nexus m at_ h name d = Ok ls -> member_block d name ls.
  Proof.
    unfold render_dataset. intros at_ h name d ls H. destruct (dataset_elsewhere E w nexus h) as [[]|]; [| |discriminate]; cbn [rbind] in H.
    - eapply linked_block; eauto.
    - destruct (dataset_lines E up ds nexus m h name d) as [s|] eqn:Es; [|discriminate]. cbn [rbind] in H.
      destruct (rattrs at_ h d []) as [x|] eqn:Ea; [|discriminate]. cbn [rbind] in H. inversion H; subst.
      apply block_app; [eapply dataset_lines_block; eauto|]. apply shape_deeper. eapply attrs_shape; eauto.
  Qed.

  (** what a member turns into *)
  Lemma member_now : forall at_ h d name l ls, rmember at_ h d (name, l) = Ok (Now ls) -> member_block d name ls.
  Proof.
    unfold render_member. intros at_ h d name l ls H.
    set (follow := dor v <- getitem w h name ; dor b <- isNeXusLink E w v ;
      if b then rmap Now (render_linked E w v name d)
      else if is_group_obj w v then Ok (Later v name l)
      else if isHdf5Dataset w v then
        dor s <- render_dataset E up w ds nexus m at_ v name d ;
        dor x <- link_lines E at_ l d ; Ok (Now (s ++ x)) else Exn RuntimeError) in *.
    assert (Hf : follow = Ok (Now ls) -> member_block d name ls).
    { unfold follow. intros F. destruct (getitem w h name) as [v|]; [|discriminate]. cbn [rbind] in F.
      destruct (isNeXusLink E w v) as [[]|]; [| |discriminate]; cbn [rbind] in F.
      - destruct (render_linked E w v name d) as [s|] eqn:Es; [|discriminate]. simpl in F. inversion F; subst. eapply linked_block; eauto.
      - destruct (is_group_obj w v); [discriminate|]. destruct (isHdf5Dataset w v); [|discriminate].
        destruct (render_dataset E up w ds nexus m at_ v name d) as [s|] eqn:Es; [|discriminate]. cbn [rbind] in F.
        destruct (link_lines E at_ l d) as [x|] eqn:Ex; [|discriminate]. cbn [rbind] in F. inversion F; subst.
        apply block_app; [eapply dataset_block; eauto|]. apply shape_deeper. eapply links_shape; eauto. }
    destruct l as [o|p|f p]; [auto| |].
    - inversion H; subst. eexists _, []. split; [reflexivity|]. split; [reflexivity|constructor].
    - destruct (dmem f w); [auto|]. destruct (link_lines E at_ (LExt f p) d) as [x|] eqn:Ex; [|discriminate].
      cbn [rbind] in H. inversion H; subst. eexists _, x. split; [reflexivity|]. split; [reflexivity|].
      apply shape_deeper. eapply links_shape; eauto.
  Qed.

  Lemma member_later : forall at_ h d name l v n md, rmember at_ h d (name, l) = Ok (Later v n md) ->
    n = name /\ md = l /\ getitem w h name = Ok v /\ is_group_obj w v = true /\ isNeXusLink E w v = Ok false /\
    (match l with LHard _ => True | LSoft _ => False | LExt f _ => dmem f w = true end).
  Proof.
    unfold render_member. intros at_ h d name l v n md H.
    set (follow := dor v <- getitem w h name ; dor b <- isNeXusLink E w v ;
      if b then rmap Now (render_linked E w v name d)
      else if is_group_obj w v then Ok (Later v name l)
      else if isHdf5Dataset w v then
        dor s <- render_dataset E up w ds nexus m at_ v name d ;
        dor x <- link_lines E at_ l d ; Ok (Now (s ++ x)) else Exn RuntimeError) in *.
    assert (Hf : follow = Ok (Later v n md) -> n = name /\ md = l /\ getitem w h name = Ok v /\ is_group_obj w v = true /\ isNeXusLink E w v = Ok false).
    { unfold follow. intros F. destruct (getitem w h name) as [v'|]; [|discriminate]. cbn [rbind] in F.
      destruct (isNeXusLink E w v') as [[]|] eqn:El; [| |discriminate]; cbn [rbind] in F.
      - destruct (render_linked E w v' name d); discriminate.
      - destruct (is_group_obj w v') eqn:Eg.
        + inversion F; subst. auto.
        + destruct (isHdf5Dataset w v'); [|discriminate].
          destruct (render_dataset E up w ds nexus m at_ v' name d); [|discriminate]. cbn [rbind] in F.
          destruct (link_lines E at_ l d); discriminate. }
    destruct l as [o|p|f p].
    - apply Hf in H. intuition.
    - discriminate.
    - destruct (dmem f w) eqn:Ef; [apply Hf in H; intuition|].
      destruct (link_lines E at_ (LExt f p) d); discriminate.
  Qed.

  Lemma member_subgroup : forall at_ h d name l v, subgroup E w h name v -> dget name (links_of w h) = Some l ->
    rmember at_ h d (name, l) = Ok (Later v name l).
  Proof.
    intros at_ h d name l v [o Hl Hv Hg Hn|f p Hl Hf Hv Hg Hn] Hd; apply marked_iff in Hn; rewrite Hl in Hd; inversion Hd; subst; unfold render_member;
      rewrite ?Hf, Hv; cbn [rbind]; rewrite Hn; cbn [rbind]; rewrite Hg; reflexivity.
  Qed.

  (** *** the members of a group, fields and groups *)
  Fixpoint nows (L : list (pystr * link)) (ms : list shown) : list pystr :=
    match L, ms with
    | (n, _) :: L', Now _ :: ms' => n :: nows L' ms'
    | _ :: L', _ :: ms' => nows L' ms'
    | _, _ => []
    end.
  Fixpoint laters (L : list (pystr * link)) (ms : list shown) : list pystr :=
    match L, ms with
    | (n, _) :: L', Later _ _ _ :: ms' => n :: laters L' ms'
    | _ :: L', _ :: ms' => laters L' ms'
    | _, _ => []
    end.

  Lemma nows_introduced : forall at_ h d L ms, Forall2 (fun x y => rmember at_ h d x = Ok y) L ms ->
    introduced d (List.concat (map now_of ms)) = nows L ms.
  Proof.
    intros at_ h d L ms H. induction H as [|[n l] s L ms Hs H IH]; simpl; auto.
    rewrite introduced_app, IH. destruct s as [ls|v n' md]; simpl; auto.
    destruct (member_now _ _ _ _ _ _ Hs) as (b & r & -> & Hi & Hr). simpl. rewrite Hi, Nat.eqb_refl. simpl.
    rewrite introduced_deeper; auto.
  Qed.

  Lemma nows_depth : forall at_ h d L ms, Forall2 (fun x y => rmember at_ h d x = Ok y) L ms ->
    Forall (fun l => d <= ln_depth l) (List.concat (map now_of ms)).
  Proof.
    intros at_ h d L ms H. induction H as [|[n l] s L ms Hs H IH]; simpl; [constructor|].
    apply Forall_app. split; auto. destruct s as [ls|v n' md]; [|constructor].
    destruct (member_now _ _ _ _ _ _ Hs) as (b & r & -> & Hi & Hr). constructor; [simpl; lia|].
    eapply Forall_impl; [|exact Hr]. simpl. lia.
  Qed.

  Lemma laters_names : forall at_ h d L ms, Forall2 (fun x y => rmember at_ h d x = Ok y) L ms ->
    map (fun g => snd (fst g)) (List.concat (map later_of ms)) = laters L ms.
  Proof.
    intros at_ h d L ms H. induction H as [|[n l] s L ms Hs H IH]; simpl; auto.
    rewrite map_app, IH. destruct s as [ls|v n' md]; simpl; auto.
    apply member_later in Hs as [-> _]. reflexivity.
  Qed.

  Lemma members_perm : forall at_ h d L ms, Forall2 (fun x y => rmember at_ h d x = Ok y) L ms ->
    Permutation (nows L ms ++ laters L ms) (map fst L).
  Proof.
    intros at_ h d L ms H. induction H as [|[n l] s L ms Hs H IH]; simpl; auto.
    destruct s as [ls|v n' md]; simpl; [auto|].
    eapply Permutation_trans; [apply Permutation_sym, Permutation_middle|]. auto.
  Qed.

  Lemma nows_Forall : forall (P : pystr -> Prop) L ms, Forall P (map fst L) -> Forall P (nows L ms).
  Proof.
    induction L as [|[n l] L IH]; intros ms H; [constructor|]. inversion H; subst. destruct ms as [|[] ms]; simpl; auto.
  Qed.
  Lemma laters_Forall : forall (P : pystr -> Prop) L ms, Forall P (map fst L) -> Forall P (laters L ms).
  Proof.
    induction L as [|[n l] L IH]; intros ms H; [constructor|]. inversion H; subst. destruct ms as [|[] ms]; simpl; auto.
  Qed.

  Lemma nows_sorted : forall L ms, StronglySorted (fun a b => str_leb a b = true) (map fst L) ->
    in_name_order (nows L ms) /\ in_name_order (laters L ms).
  Proof.
    unfold in_name_order. induction L as [|[n l] L IH]; intros ms H; [split; constructor|].
    inversion H as [|? ? HS HF]; subst. destruct ms as [|[ls|v n' md] ms]; cbn [nows laters].
    - split; constructor.
    - destruct (IH ms HS) as [H1 H2]. split; auto. constructor; auto using nows_Forall.
    - destruct (IH ms HS) as [H1 H2]. split; auto. constructor; auto using laters_Forall.
  Qed.

  Lemma nows_In : forall at_ h d L ms n, Forall2 (fun x y => rmember at_ h d x = Ok y) L ms -> In n (nows L ms) ->
    exists l ls, In (n, l) L /\ rmember at_ h d (n, l) = Ok (Now ls).
  Proof.
    intros at_ h d L ms n H. induction H as [|[n0 l] s L ms Hs H IH]; simpl; [intros []|].
    destruct s as [ls|v n' md]; simpl.
    - intros [<-|Hin]; [exists l, ls; auto|]. destruct (IH Hin) as (l' & ls' & ? & ?). exists l', ls'. auto.
    - intros Hin. destruct (IH Hin) as (l' & ls' & ? & ?). exists l', ls'. auto.
  Qed.
  Lemma laters_In : forall at_ h d L ms n, Forall2 (fun x y => rmember at_ h d x = Ok y) L ms -> In n (laters L ms) ->
    exists l v, In (n, l) L /\ rmember at_ h d (n, l) = Ok (Later v n l).
  Proof.
    intros at_ h d L ms n H. induction H as [|[n0 l] s L ms Hs H IH]; simpl; [intros []|].
    destruct s as [ls|v n' md]; simpl.
    - intros Hin. destruct (IH Hin) as (l' & ls' & ? & ?). exists l', ls'. auto.
    - intros [<-|Hin].
      + exists l, v. split; auto. pose proof (member_later _ _ _ _ _ _ _ _ Hs) as (-> & -> & _). auto.
      + destruct (IH Hin) as (l' & ls' & ? & ?). exists l', ls'. auto.
  Qed.

  (** *** groups *)
  Lemma group_inv : forall at_ k h name d md ls, rgroup at_ k h name d md = Ok ls ->
    exists k' suffix a ms gs, k = S k' /\ class_suffix E w h = Ok suffix /\ rattrs at_ h d (link_extra md) = Ok a /\
      Forall2 (fun x y => rmember at_ h (S d) x = Ok y) (sorted_items (links_of w h)) ms /\
      Forall2 (fun g y => rgroup at_ k' (fst (fst g)) (snd (fst g)) (S d) (snd g) = Ok y) (List.concat (map later_of ms)) gs /\
      ls = mkLine d (BGroup name suffix) :: a ++ List.concat (map now_of ms) ++ List.concat gs.
  Proof.
    intros at_ k h name d md ls H. destruct k as [|k]; [discriminate|]. cbn [render_group] in H.
    destruct (class_suffix E w h) as [suffix|] eqn:Es; [|discriminate]. cbn [rbind] in H.
    destruct (rattrs at_ h d (link_extra md)) as [a|] eqn:Ea; [|discriminate]. cbn [rbind] in H.
    destruct (traverse (rmember at_ h (S d)) (sorted_items (links_of w h))) as [ms|] eqn:Em; [|discriminate]. cbn [rbind] in H.
    match type of H with rbind ?t _ = _ => destruct t as [gs|] eqn:Eg; [|discriminate] end. cbn [rbind] in H.
    inversion H; subst. exists k, suffix, a, ms, gs. repeat split; auto using traverse_Forall2.
  Qed.

  Lemma group_block : forall at_ k h name d md ls, rgroup at_ k h name d md = Ok ls ->
    exists suffix inside, ls = mkLine d (BGroup name suffix) :: inside /\ class_suffix E w h = Ok suffix /\
      Forall (fun l => d < ln_depth l) inside.
  Proof.
    induction k as [|k IH]; intros h name d md ls H; [discriminate|].
    apply group_inv in H as (k' & suffix & a & ms & gs & Hk & Hs & Ha & Hm & Hg & ->). injection Hk as <-.
    eexists _, _. split; [reflexivity|]. split; auto. rewrite !Forall_app. repeat split.
    - apply shape_deeper. eapply attrs_shape; eauto.
    - eapply nows_depth in Hm. eapply Forall_impl; [|exact Hm]. simpl. lia.
    - induction Hg as [|g y L ys Hy Hg IHg]; simpl; [constructor|]. apply Forall_app. split; auto.
      apply IH in Hy as (sf & ins & -> & _ & Hd). constructor; [simpl; lia|]. eapply Forall_impl; [|exact Hd]. simpl. lia.
  Qed.

  Lemma groups_introduced : forall at_ k d L gs,
    Forall2 (fun g y => rgroup at_ k (fst (fst g)) (snd (fst g)) d (snd g) = Ok y) L gs ->
    introduced d (List.concat gs) = map (fun g => snd (fst g)) L.
  Proof.
    intros at_ k d L gs H. induction H as [|g y L gs Hy H IH]; simpl; auto.
    rewrite introduced_app, IH. apply group_block in Hy as (sf & ins & -> & _ & Hd). simpl.
    rewrite Nat.eqb_refl, introduced_deeper; auto.
  Qed.

  (** every group below the root has its block *)
  Lemma group_located : forall at_ k root title md ls, rgroup at_ k root title 0 md = Ok ls ->
    (forall h n d, below E w root title h n d -> NoDup (dkeys (links_of w h))) ->
    forall h n d, below E w root title h n d ->
    exists pre blk post k' md', ls = pre ++ blk ++ post /\ rgroup at_ k' h n d md' = Ok blk /\
      match post with [] => True | l :: _ => ln_depth l <= d end.
  Proof.
    intros at_ k root title md ls H Hn h n d Hb. induction Hb as [|h n d name v Hb IH Hsub].
    - exists [], ls, [], k, md. rewrite app_nil_r. auto.
    - destruct IH as (pre & blk & post & k' & md' & -> & Hr & Hp).
      apply group_inv in Hr as (k2 & suffix & a & ms & gs & -> & Hs & Ha & Hm & Hg & ->).
      assert (Hl : exists l, dget name (links_of w h) = Some l) by (destruct Hsub; eauto).
      destruct Hl as [l Hl]. pose proof (member_subgroup at_ h (S d) name l v Hsub Hl) as Hlater.
      assert (Hin : In (name, l) (sorted_items (links_of w h))) by (apply sorted_by_In, dget_In; auto).
      destruct (Forall2_In_l _ _ _ _ _ _ Hm Hin) as (y & Hy & Hye). rewrite Hlater in Hye. inversion Hye; subst y.
      assert (Hc : In (v, name, l) (List.concat (map later_of ms))).
      { apply in_concat. exists [(v, name, l)]. split; [|left; auto]. apply in_map_iff. exists (Later v name l). auto. }
      apply in_split in Hc as (L1 & L2 & HL). rewrite HL in Hg.
      apply Forall2_app_inv_l in Hg as (g1 & g2' & Hg1 & Hg2 & ->). inversion Hg2 as [|? blk2 ? g2 Hb2 Hg2']; subst.
      simpl in Hb2.
      exists (pre ++ (mkLine d (BGroup n suffix) :: a ++ List.concat (map now_of ms) ++ List.concat g1)), blk2,
        (List.concat g2 ++ post), k2, l.
      split; [|split; auto].
      + rewrite concat_app. simpl. rewrite <- !app_assoc. simpl. rewrite <- !app_assoc. reflexivity.
      + inversion Hg2' as [|g b2 ? ? Hgb]; subst; simpl.
        * destruct post; auto.
        * apply group_block in Hgb as (sf & ins & -> & _). simpl. lia.
  Qed.

  (** C61 *)
  Lemma group_members : forall at_ k h name d md ls, rgroup at_ k h name d md = Ok ls -> NoDup (dkeys (links_of w h)) ->
    exists suffix inside fields groups,
      ls = mkLine d (BGroup name suffix) :: inside /\ Forall (fun l => d < ln_depth l) inside /\
      introduced (S d) inside = fields ++ groups /\ Permutation (fields ++ groups) (dkeys (links_of w h)) /\
      in_name_order fields /\ in_name_order groups /\
      (forall n, In n groups -> exists v, subgroup E w h n v) /\ (forall n v, In n fields -> ~ subgroup E w h n v).
  Proof.
    intros at_ k h name d md ls H Hnd. pose proof (group_block _ _ _ _ _ _ _ H) as (sf & ins & Hls & _ & Hdeep).
    apply group_inv in H as (k' & suffix & a & ms & gs & Hk & Hs & Ha & Hm & Hg & Hls2).
    rewrite Hls in Hls2. injection Hls2 as -> Hins. clear Hk.
    exists suffix, ins, (nows (sorted_items (links_of w h)) ms), (laters (sorted_items (links_of w h)) ms).
    split; [assumption|]. split; [assumption|]. split; [|split].
    - rewrite Hins, !introduced_app. rewrite introduced_attrs.
      + rewrite (nows_introduced _ _ _ _ _ Hm), (groups_introduced _ _ _ _ _ Hg), (laters_names _ _ _ _ _ Hm). reflexivity.
      + eapply Forall_impl; [|eapply attrs_shape; eauto]. simpl. intros ? [_ ?]; auto.
    - eapply Permutation_trans; [eapply members_perm; eauto|]. apply Permutation_map, sorted_by_perm.
    - assert (Hsrt : StronglySorted (fun a b => str_leb a b = true) (map fst (sorted_items (links_of w h)))).
      { unfold sorted_items. pose proof (sorted_by_sorted fst (links_of w h)) as HS. induction HS; simpl; constructor; auto.
        apply Forall_map. auto. }
      destruct (nows_sorted _ ms Hsrt) as [H1 H2]. split; [exact H1|]. split; [exact H2|]. split.
      + intros n Hn. destruct (laters_In _ _ _ _ _ _ Hm Hn) as (l & v & Hin & Hr).
        apply sorted_by_In in Hin. assert (Hd : dget n (links_of w h) = Some l).
        { unfold dget. apply In_aget_NoDup; auto using str_eqb_eq. }
        apply member_later in Hr as (_ & _ & Hv & Hgr & Hl & Hlk). apply marked_iff in Hl. exists v. destruct l as [o|p|f p]; [|destruct Hlk|].
        * eapply sub_hard; eauto.
        * eapply sub_ext; eauto.
      + intros n v Hn Hsub. destruct (nows_In _ _ _ _ _ _ Hm Hn) as (l & ls' & Hin & Hr).
        apply sorted_by_In in Hin. assert (Hd : dget n (links_of w h) = Some l).
        { unfold dget. apply In_aget_NoDup; auto using str_eqb_eq. }
        rewrite (member_subgroup at_ h (S d) n l v Hsub Hd) in Hr. discriminate.
  Qed.

  (** ** C62 *)
  Notation keep := (filter (fun l => negb (attribute_line l))).

  Lemma keep_attrs : forall ls, Forall (fun l => attribute_line l = true) ls -> keep ls = [].
  Proof. induction 1; simpl; auto. rewrite H. auto. Qed.
  Lemma keep_shape : forall d ls, Forall (fun l => ln_depth l = S d /\ attribute_line l = true) ls -> keep ls = [].
  Proof. intros. apply keep_attrs. eapply Forall_impl; [|eassumption]. simpl. intros ? [_ ?]; auto. Qed.

  Lemma keep_none : forall ls, Forall (fun l => attribute_line l = false) ls -> keep ls = ls.
  Proof. induction 1; simpl; auto. rewrite H. simpl. congruence. Qed.

  Lemma linked_plain : forall h name d ls, render_linked E w h name d = Ok ls -> Forall (fun l => attribute_line l = false) ls.
  Proof.
    unfold render_linked. intros h name d ls H. destruct (dget (py "target") (attrs_of w h)) as [v|]; [|discriminate].
    destruct (decode_byte_string E v); [|discriminate]. inversion H. repeat constructor.
  Qed.

  Lemma dataset_plain : forall h name d ls, dataset_lines E up ds nexus m h name d = Ok ls -> Forall (fun l => attribute_line l = false) ls.
  Proof.
    unfold dataset_lines. intros h name d ls H.
    destruct (render_type up nexus (ds h)) as [ty|]; [|discriminate]. cbn [rbind] in H.
    repeat match type of H with
    | Ok _ = Ok _ => inversion H; repeat constructor
    | Exn _ = Ok _ => discriminate
    | rbind ?t _ = _ => destruct t; cbn [rbind] in H
    | match ?t with _ => _ end = _ => destruct t
    end.
  Qed.

  Definition strip (s : shown) : shown := match s with Now l => Now (keep l) | Later h n md => Later h n md end.

  Lemma dataset_strip : forall h name d ls, render_dataset E up w ds nexus m true h name d = Ok ls ->
    render_dataset E up w ds nexus m false h name d = Ok (keep ls).
  Proof.
    unfold render_dataset. intros h name d ls H. destruct (dataset_elsewhere E w nexus h) as [[]|]; [| |discriminate]; cbn [rbind] in *.
    - rewrite H. rewrite keep_none; auto. eapply linked_plain; eauto.
    - destruct (dataset_lines E up ds nexus m h name d) as [s|] eqn:Es; [|discriminate]. cbn [rbind] in *.
      destruct (rattrs true h d []) as [x|] eqn:Ea; [|discriminate]. cbn [rbind] in H. inversion H; subst.
      unfold render_attributes at 1. cbn [rbind]. rewrite filter_app, (keep_none s), (keep_shape d x); eauto using dataset_plain, attrs_shape.
  Qed.

  Lemma member_strip : forall h d nl s, rmember true h d nl = Ok s -> rmember false h d nl = Ok (strip s).
  Proof.
    intros h d [name l] s. unfold render_member. intros H.
    assert (Hf : forall l, (dor v <- getitem w h name ; dor b <- isNeXusLink E w v ;
      if b then rmap Now (render_linked E w v name d)
      else if is_group_obj w v then Ok (Later v name l)
      else if isHdf5Dataset w v then
        dor s <- render_dataset E up w ds nexus m true v name d ;
        dor x <- link_lines E true l d ; Ok (Now (s ++ x)) else Exn RuntimeError) = Ok s ->
        (dor v <- getitem w h name ; dor b <- isNeXusLink E w v ;
      if b then rmap Now (render_linked E w v name d)
      else if is_group_obj w v then Ok (Later v name l)
      else if isHdf5Dataset w v then
        dor s <- render_dataset E up w ds nexus m false v name d ;
        dor x <- link_lines E false l d ; Ok (Now (s ++ x)) else Exn RuntimeError) = Ok (strip s)).
    { clear l H. intros l F. destruct (getitem w h name) as [v|]; [|discriminate]. cbn [rbind] in *.
      destruct (isNeXusLink E w v) as [[]|]; [| |discriminate]; cbn [rbind] in *.
      - destruct (render_linked E w v name d) as [ls|] eqn:El; [|discriminate]. simpl in *. inversion F; subst. simpl.
        rewrite keep_none; auto. eapply linked_plain; eauto.
      - destruct (is_group_obj w v); [inversion F; subst; reflexivity|]. destruct (isHdf5Dataset w v); [|discriminate].
        destruct (render_dataset E up w ds nexus m true v name d) as [ls|] eqn:Es; [|discriminate]. cbn [rbind] in F.
        destruct (link_lines E true l d) as [x|] eqn:Ex; [|discriminate]. cbn [rbind] in F. inversion F; subst.
        rewrite (dataset_strip _ _ _ _ Es). unfold link_lines at 1. cbn [rbind strip].
        rewrite filter_app, (keep_shape d x); eauto using links_shape. }
    destruct l as [o|p|f p]; [auto| |].
    - inversion H; subst. reflexivity.
    - destruct (dmem f w); [auto|]. destruct (link_lines E true (LExt f p) d) as [x|] eqn:Ex; [|discriminate].
      cbn [rbind] in H. inversion H; subst. unfold link_lines at 1. cbn [rbind strip filter attribute_line ln_body negb].
      rewrite (keep_shape d x); eauto using links_shape.
  Qed.

  Lemma strip_later : forall s, later_of (strip s) = later_of s.
  Proof. destruct s; auto. Qed.

  Lemma keep_concat : forall ls, keep (List.concat ls) = List.concat (map (fun l => keep l) ls).
  Proof. induction ls; simpl; auto. rewrite filter_app, IHls. reflexivity. Qed.

  Lemma group_strip : forall k h name d md ls, rgroup true k h name d md = Ok ls -> rgroup false k h name d md = Ok (keep ls).
  Proof.
    induction k as [|k IH]; intros h name d md ls H; [discriminate|].
    apply group_inv in H as (k' & suffix & a & ms & gs & Hk & Hs & Ha & Hm & Hg & ->). injection Hk as <-.
    cbn [render_group]. rewrite Hs. cbn [rbind]. unfold render_attributes at 1. cbn [rbind].
    assert (Hm' : traverse (rmember false h (S d)) (sorted_items (links_of w h)) = Ok (map strip ms)).
    { apply Forall2_traverse. clear Hg. induction Hm; simpl; constructor; auto using member_strip. }
    rewrite Hm'. cbn [rbind].
    assert (Hc : List.concat (map later_of (map strip ms)) = List.concat (map later_of ms)).
    { rewrite map_map. f_equal. apply map_ext. apply strip_later. }
    rewrite Hc.
    assert (Hg' : traverse (fun g => rgroup false k (fst (fst g)) (snd (fst g)) (S d) (snd g)) (List.concat (map later_of ms))
                  = Ok (map (fun l => keep l) gs)).
    { apply Forall2_traverse. clear Hc Hm' Hm. induction Hg; simpl; constructor; auto. }
    rewrite Hg'. cbn [rbind]. f_equal. cbn [filter attribute_line ln_body negb]. f_equal.
    rewrite !filter_app, (keep_shape d a); eauto using attrs_shape. cbn [app]. rewrite !keep_concat. f_equal. f_equal.
    rewrite !map_map. apply map_ext. intros [l|]; reflexivity.
  Qed.
End Tree.
