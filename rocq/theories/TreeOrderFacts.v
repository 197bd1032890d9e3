(** * The tree view and the order of members and attributes *)

From Coq Require Import List NArith ZArith Bool String Lia Permutation Sorting.
From Verif Require Import PyBase PyFacts Utf8 H5 Catalog H5Tree Spec_Tree Spec_Catalog Spec_Order OrderWorld Spec_TreeOrder.
Import ListNotations.
Local Arguments getitem : simpl never.
Local Arguments resolve : simpl never.

Lemma sorted_unique : forall V (l m : dict V), StronglySorted (fun a b => str_leb (fst a) (fst b) = true) l ->
  StronglySorted (fun a b => str_leb (fst a) (fst b) = true) m -> Permutation l m -> NoDup (map fst l) -> l = m.
Proof.
  intros V l. induction l as [|x l IH]; intros m Sl Sm P ND.
  - apply Permutation_nil in P. auto.
  - destruct m as [|y m]; [apply Permutation_sym, Permutation_nil in P; discriminate|].
    inversion Sl as [|? ? S1 F1]; subst. inversion Sm as [|? ? S2 F2]; subst. rewrite Forall_forall in F1, F2.
    assert (x = y).
    { assert (I : In x (y :: m)) by (eapply Permutation_in; [exact P|left; reflexivity]).
      assert (J : In y (x :: l)) by (eapply Permutation_in; [apply Permutation_sym; exact P|left; reflexivity]).
      destruct I as [->|I]; [reflexivity|]. destruct J as [->|J]; [reflexivity|].
      exfalso. inversion ND as [|? ? N1 N2]; subst. apply N1. rewrite (str_leb_antisym (fst x) (fst y)); [apply in_map; exact J|apply F1; exact J|apply F2; exact I]. }
    subst y. f_equal. inversion ND; subst. apply IH; auto. eapply Permutation_cons_inv. exact P.
Qed.

Lemma sorted_items_perm : forall V (l m : dict V), Permutation l m -> NoDup (map fst l) -> sorted_items l = sorted_items m.
Proof.
  intros V l m P ND. apply sorted_unique; try apply (sorted_by_sorted fst).
  - unfold sorted_items. rewrite sorted_by_perm, P. symmetry. apply sorted_by_perm.
  - eapply Permutation_NoDup; [|exact ND]. apply Permutation_map. symmetry. apply sorted_by_perm.
Qed.

Lemma traverse_ext : forall A B (f g : A -> res B) l, (forall x, In x l -> f x = g x) -> traverse f l = traverse g l.
Proof.
  intros A B f g l. induction l as [|x l IH]; intros H; [reflexivity|]. cbn [traverse]. rewrite (H x) by (left; reflexivity).
  rewrite IH; [reflexivity|]. intros y I. apply H. right. exact I.
Qed.

Lemma traverse_perm : forall A B (f : A -> res B) l m, Permutation l m -> forall r, traverse f l = Ok r -> exists s, traverse f m = Ok s /\ Permutation r s.
Proof.
  intros A B f l m P. induction P as [|x l m P IH|x y l|l m n P1 IH1 P2 IH2]; intros r H.
  - exists r. split; auto.
  - cbn [traverse] in *. destruct (f x) as [b|e]; [|discriminate H]. cbn [rbind] in *. destruct (traverse f l) as [t|e]; [|discriminate H]. cbn [rbind] in H. injection H as <-.
    destruct (IH _ eq_refl) as (s & -> & Ps). eexists. split; [reflexivity|]. constructor. exact Ps.
  - cbn [traverse] in *. destruct (f y) as [b|e]; [|discriminate H]. cbn [rbind] in *. destruct (f x) as [c|e]; [|discriminate H]. cbn [rbind] in *.
    destruct (traverse f l) as [t|e]; [|discriminate H]. cbn [rbind] in *. injection H as <-. eexists. split; [reflexivity|]. constructor.
  - destruct (IH1 _ H) as (s & H1 & Ps). destruct (IH2 _ H1) as (t & H2 & Pt). exists t. split; [exact H2|]. rewrite Ps. exact Pt.
Qed.

Lemma traverse_out : forall A B (R : B -> B -> Prop) (f g : A -> res B) l,
  (forall x, In x l -> forall b, f x = Ok b -> exists c, g x = Ok c /\ R b c) ->
  forall r, traverse f l = Ok r -> exists s, traverse g l = Ok s /\ Forall2 R r s.
Proof.
  intros A B R f g l. induction l as [|x l IH]; intros H r E.
  - injection E as <-. exists []. split; [reflexivity|constructor].
  - cbn [traverse] in *. destruct (f x) as [b|e] eqn:F; [|discriminate E]. cbn [rbind] in E. destruct (traverse f l) as [t|e] eqn:T; [|discriminate E]. cbn [rbind] in E. injection E as <-.
    destruct (H x (or_introl eq_refl) _ F) as (c & -> & Rc). destruct (IH (fun y I => H y (or_intror I)) _ eq_refl) as (s & -> & Rs).
    eexists. split; [reflexivity|]. constructor; assumption.
Qed.

(** ** Lists of lines *)
Lemma sb_app : forall a b, same_but_attributes a b -> forall c d, same_but_attributes c d -> same_but_attributes (a ++ c) (b ++ d).
Proof.
  intros a b H. induction H as [|l a b N H IH|x y a b F P H IH]; intros c d Hc; cbn [app]; [exact Hc| |].
  - constructor; auto.
  - rewrite <- !app_assoc. constructor; auto.
Qed.
Lemma sb_refl : forall a, same_but_attributes a a.
Proof.
  induction a as [|l a IH]; [constructor|]. destruct (attribute_line l) eqn:E; [|constructor; auto].
  apply (sb_attributes [l] [l]); auto.
Qed.
Lemma sb_attrs : forall x y, Forall (fun l => attribute_line l = true) x -> Permutation x y -> same_but_attributes x y.
Proof. intros x y F P. rewrite <- (app_nil_r x), <- (app_nil_r y). constructor; auto. constructor. Qed.
Lemma sb_concat : forall l m, Forall2 same_but_attributes l m -> same_but_attributes (List.concat l) (List.concat m).
Proof. intros l m H. induction H; cbn [List.concat]; [constructor|]. apply sb_app; assumption. Qed.

Section Two.
  Context (w w' : world) (Hw : reordered_files w w').

  Lemma file_same : forall n, match dget n w, dget n w' with Some a, Some b => reordered_content a b | None, None => True | _, _ => False end.
  Proof.
    intros n. induction Hw as [|[x a] [y b] l m [E H] F IH]; [exact I|]. cbn [fst snd] in *. subst y.
    unfold dget in *. cbn [aget]. destruct (str_eqb n x); [exact H|apply IH; exact F].
  Qed.
  Lemma dmem_same : forall n, dmem n w = dmem n w'.
  Proof. intros n. pose proof (file_same n) as X. unfold dget in X. unfold dmem, amem. destruct (aget str_eqb n w), (aget str_eqb n w'); tauto. Qed.
  Lemma gobj : forall f o, match get_obj w f o, get_obj w' f o with
    | Some a, Some b => reordered_object a b /\ NoDup (map fst (ob_attrs a)) /\ match ob_kind a with KGroup l => NoDup (map fst l) | _ => True end
    | None, None => True | _, _ => False end.
  Proof.
    intros f o. unfold get_obj. pose proof (file_same f) as X. destruct (dget f w) as [s|], (dget f w') as [t|]; try tauto.
    destruct X as [a b D R|]; [|exact I]. pose proof (reordered_nth _ _ R o) as Y. pose proof (D o) as [D1 D2]. unfold members, attributes in D1, D2.
    destruct (nth_error a o) as [p|], (nth_error b o) as [q|]; try tauto. split; [exact Y|]. split; [exact D2|]. destruct (ob_kind p); auto.
  Qed.
  Lemma links_two : forall h, Permutation (links_of w h) (links_of w' h) /\ NoDup (map fst (links_of w h)).
  Proof.
    intros h. unfold links_of, obj_of. pose proof (gobj (h_file h) (h_oid h)) as X. destruct (get_obj w (h_file h) (h_oid h)) as [a|], (get_obj w' (h_file h) (h_oid h)) as [b|]; try tauto.
    - destruct X as [[_ K] [_ N]]. destruct (ob_kind a), (ob_kind b); try tauto; split; auto; constructor.
    - split; constructor.
  Qed.
  Lemma attrs_two : forall h, Permutation (attrs_of w h) (attrs_of w' h) /\ NoDup (map fst (attrs_of w h)).
  Proof.
    intros h. unfold attrs_of, obj_of. pose proof (gobj (h_file h) (h_oid h)) as X. destruct (get_obj w (h_file h) (h_oid h)) as [a|], (get_obj w' (h_file h) (h_oid h)) as [b|]; try tauto.
    - destruct X as [[K _] [N _]]. split; auto.
    - split; constructor.
  Qed.
  Lemma link_named : forall h n, dget n (links_of w h) = dget n (links_of w' h).
  Proof. intros h n. destruct (links_two h). apply dget_perm; auto. Qed.
  Lemma attr_named : forall h n, dget n (attrs_of w h) = dget n (attrs_of w' h).
  Proof. intros h n. destruct (attrs_two h). apply dget_perm; auto. Qed.
  Lemma group_two : forall h, is_group_obj w h = is_group_obj w' h.
  Proof.
    intros h. unfold is_group_obj, obj_of. pose proof (gobj (h_file h) (h_oid h)) as X. destruct (get_obj w (h_file h) (h_oid h)) as [a|], (get_obj w' (h_file h) (h_oid h)) as [b|]; try tauto.
    destruct X as [[_ K] _]. destruct (ob_kind a), (ob_kind b); tauto.
  Qed.
  Lemma dataset_two : forall h, isHdf5Dataset w h = isHdf5Dataset w' h.
  Proof.
    intros h. unfold isHdf5Dataset, obj_of. pose proof (gobj (h_file h) (h_oid h)) as X. destruct (get_obj w (h_file h) (h_oid h)) as [a|], (get_obj w' (h_file h) (h_oid h)) as [b|]; try tauto.
    destruct X as [[_ K] _]. destruct (ob_kind a), (ob_kind b); tauto.
  Qed.

  Lemma resolve_two : forall nl cur comps, resolve nl w cur comps = resolve nl w' cur comps.
  Proof.
    induction nl as [|nl IH]; intros cur comps; revert cur; induction comps as [|c rest IHc]; intros cur; try reflexivity.
    - change (resolve 0 w cur (c :: rest)) with (match dget c (links_of w cur) with
        | None => Exn KeyError
        | Some (LHard o) => match get_obj w (h_file cur) o with Some _ => resolve 0 w (mkH (h_file cur) o (child_path (h_name cur) c) false) rest | None => Exn KeyError end
        | Some _ => Exn RuntimeError end).
      change (resolve 0 w' cur (c :: rest)) with (match dget c (links_of w' cur) with
        | None => Exn KeyError
        | Some (LHard o) => match get_obj w' (h_file cur) o with Some _ => resolve 0 w' (mkH (h_file cur) o (child_path (h_name cur) c) false) rest | None => Exn KeyError end
        | Some _ => Exn RuntimeError end).
      rewrite link_named. destruct (dget c (links_of w' cur)) as [[o|p|f p]|]; auto. pose proof (gobj (h_file cur) o) as X.
      destruct (get_obj w (h_file cur) o), (get_obj w' (h_file cur) o); try tauto; auto.
    - change (resolve (S nl) w cur (c :: rest)) with (match dget c (links_of w cur) with
        | None => Exn KeyError
        | Some (LHard o) => match get_obj w (h_file cur) o with Some _ => resolve (S nl) w (mkH (h_file cur) o (child_path (h_name cur) c) false) rest | None => Exn KeyError end
        | Some (LSoft p) => match resolve nl w (if is_abs p then root_handle (h_file cur) else cur) (path_comps p) with
             | Ok t => resolve (S nl) w (mkH (h_file t) (h_oid t) (child_path (h_name cur) c) false) rest | Exn e => Exn e end
        | Some (LExt f p) => match get_obj w f 0 with None => Exn KeyError | Some _ => match resolve nl w (root_handle f) (path_comps p) with
             | Ok t => resolve (S nl) w (mkH (h_file t) (h_oid t) (h_name t) false) rest | Exn e => Exn e end end end).
      change (resolve (S nl) w' cur (c :: rest)) with (match dget c (links_of w' cur) with
        | None => Exn KeyError
        | Some (LHard o) => match get_obj w' (h_file cur) o with Some _ => resolve (S nl) w' (mkH (h_file cur) o (child_path (h_name cur) c) false) rest | None => Exn KeyError end
        | Some (LSoft p) => match resolve nl w' (if is_abs p then root_handle (h_file cur) else cur) (path_comps p) with
             | Ok t => resolve (S nl) w' (mkH (h_file t) (h_oid t) (child_path (h_name cur) c) false) rest | Exn e => Exn e end
        | Some (LExt f p) => match get_obj w' f 0 with None => Exn KeyError | Some _ => match resolve nl w' (root_handle f) (path_comps p) with
             | Ok t => resolve (S nl) w' (mkH (h_file t) (h_oid t) (h_name t) false) rest | Exn e => Exn e end end end).
      rewrite link_named. destruct (dget c (links_of w' cur)) as [[o|p|f p]|]; auto.
      + pose proof (gobj (h_file cur) o) as X. destruct (get_obj w (h_file cur) o), (get_obj w' (h_file cur) o); try tauto; auto.
      + rewrite IH. destruct (resolve nl w' _ (path_comps p)); auto.
      + pose proof (gobj f 0) as X. destruct (get_obj w f 0), (get_obj w' f 0); try tauto; auto. rewrite IH. destruct (resolve nl w' _ (path_comps p)); auto.
  Qed.
  Lemma getitem_two : forall h n, getitem w h n = getitem w' h n.
  Proof. intros h [|c n]; [reflexivity|]. unfold getitem. apply resolve_two. Qed.

  Context (E : env).

  (** *** whether it is a NeXus file *)
  Lemma is_entry_two : forall root n, (dor h <- getitem w root n ; isNeXusGroup E w h (py "NXentry")) = (dor h <- getitem w' root n ; isNeXusGroup E w' h (py "NXentry")).
  Proof.
    intros root n. rewrite getitem_two. destruct (getitem w' root n) as [h|e]; [|reflexivity]. cbn [rbind]. unfold isNeXusGroup, isHdf5Group. rewrite group_two, attr_named. reflexivity.
  Qed.
  Lemma any_two : forall root names, any_entry E w root names = any_entry E w' root names.
  Proof. intros root names. induction names as [|n l IH]; [reflexivity|]. cbn [any_entry]. rewrite is_entry_two, IH. reflexivity. Qed.
  Lemma any_false : forall root names, any_entry E w root names = Ok false -> forall n, In n names -> (dor h <- getitem w root n ; isNeXusGroup E w h (py "NXentry")) <> Ok true.
  Proof.
    intros root names. induction names as [|n l IH]; intros H m I; [destruct I|]. cbn [any_entry] in H. destruct I as [<-|I].
    - intros X. rewrite X in H. discriminate H.
    - apply IH; [|exact I]. destruct (dor h <- getitem w root n; isNeXusGroup E w h (py "NXentry")) as [[|]|[]]; try discriminate H; exact H.
  Qed.
  Lemma any_true : forall root names, any_entry E w root names = Ok true -> exists n, In n names /\ (dor h <- getitem w root n ; isNeXusGroup E w h (py "NXentry")) = Ok true.
  Proof.
    intros root names. induction names as [|n l IH]; intros H; [discriminate H|]. cbn [any_entry] in H.
    destruct (dor h <- getitem w root n; isNeXusGroup E w h (py "NXentry")) as [[|]|e] eqn:X.
    - exists n. split; [left; reflexivity|exact X].
    - destruct (IH H) as (m & I & Y). exists m. split; [right; exact I|exact Y].
    - destruct e; try discriminate H; destruct (IH H) as (m & I & Y); exists m; (split; [right; exact I|exact Y]).
  Qed.
  Lemma any_perm : forall root l m a b, Permutation l m -> any_entry E w root l = Ok a -> any_entry E w root m = Ok b -> a = b.
  Proof.
    intros root l m [|] [|] P A B; auto; exfalso.
    - destruct (any_true _ _ A) as (n & I & X). exact (any_false _ _ B n (Permutation_in _ P I) X).
    - destruct (any_true _ _ B) as (n & I & X). exact (any_false _ _ A n (Permutation_in _ (Permutation_sym P) I) X).
  Qed.
  Lemma nexus_two : forall file a b, isNeXusFile E w file = Ok a -> isNeXusFile E w' file = Ok b -> a = b.
  Proof.
    intros file a b A B. unfold isNeXusFile in *. pose proof (file_same file) as X. destruct (dget file w) as [s|], (dget file w') as [t|]; try tauto; [|congruence].
    destruct X as [f f' D R|]; [|discriminate A]. rewrite <- any_two in B.
    destruct (any_entry E w (open_root file) (dkeys (links_of w (open_root file)))) as [x|e] eqn:X; [|discriminate A].
    destruct (any_entry E w (open_root file) (dkeys (links_of w' (open_root file)))) as [y|e] eqn:Y; [|discriminate B]. injection A as <-. injection B as <-. f_equal.
    eapply any_perm; [|exact X|exact Y]. unfold dkeys. apply Permutation_map. apply links_two.
  Qed.

  Context (up : pystr -> pystr) (ds : handle -> dsview) (nexus : bool) (mm : Z).

  Lemma link_two : forall h, isNeXusLink E w h = isNeXusLink E w' h.
  Proof. intros h. unfold isNeXusLink. rewrite attr_named. reflexivity. Qed.
  Lemma linked_two : forall h n d, render_linked E w h n d = render_linked E w' h n d.
  Proof. intros h n d. unfold render_linked. rewrite attr_named. reflexivity. Qed.
  Lemma suffix_two : forall h, class_suffix E w h = class_suffix E w' h.
  Proof. intros h. unfold class_suffix. rewrite attr_named. reflexivity. Qed.
  Lemma elsewhere_two : forall h, dataset_elsewhere E w nexus h = dataset_elsewhere E w' nexus h.
  Proof. intros h. unfold dataset_elsewhere. rewrite attr_named. reflexivity. Qed.
  Lemma members_two : forall h, sorted_items (links_of w h) = sorted_items (links_of w' h).
  Proof. intros h. destruct (links_two h). apply sorted_items_perm; auto. Qed.

  (** *** without attributes *)
  Lemma plain_dataset : forall h n d, render_dataset E up w ds nexus mm false h n d = render_dataset E up w' ds nexus mm false h n d.
  Proof. intros h n d. unfold render_dataset. rewrite elsewhere_two, linked_two. reflexivity. Qed.
  Lemma plain_member : forall h d nl, render_member E up w ds nexus mm false h d nl = render_member E up w' ds nexus mm false h d nl.
  Proof.
    intros h d [n l]. unfold render_member. rewrite getitem_two.
    assert (F : forall r : res handle, (dor v <- r; dor b <- isNeXusLink E w v; (if b then rmap Now (render_linked E w v n d) else if is_group_obj w v then Ok (Later v n l)
        else if isHdf5Dataset w v then dor s <- render_dataset E up w ds nexus mm false v n d; dor x <- link_lines E false l d; Ok (Now (s ++ x)) else Exn RuntimeError))
      = (dor v <- r; dor b <- isNeXusLink E w' v; (if b then rmap Now (render_linked E w' v n d) else if is_group_obj w' v then Ok (Later v n l)
        else if isHdf5Dataset w' v then dor s <- render_dataset E up w' ds nexus mm false v n d; dor x <- link_lines E false l d; Ok (Now (s ++ x)) else Exn RuntimeError))).
    { intros [v|e]; [|reflexivity]. cbn [rbind]. rewrite link_two, linked_two, group_two, dataset_two, plain_dataset. reflexivity. }
    destruct l as [o|p|f p]; [apply F|reflexivity|]. rewrite dmem_same. destruct (dmem f w'); [apply F|reflexivity].
  Qed.
  Lemma plain_group : forall fuel h n d md, render_group E up w ds nexus mm false fuel h n d md = render_group E up w' ds nexus mm false fuel h n d md.
  Proof.
    induction fuel as [|k IH]; intros h n d md; [reflexivity|]. cbn [render_group]. rewrite suffix_two, members_two.
    destruct (class_suffix E w' h) as [sx|e]; [|reflexivity]. cbn [rbind render_attributes]. 
    rewrite (traverse_ext _ _ (render_member E up w ds nexus mm false h (S d)) (render_member E up w' ds nexus mm false h (S d))) by (intros; apply plain_member).
    destruct (traverse (render_member E up w' ds nexus mm false h (S d)) (sorted_items (links_of w' h))) as [ms|e]; [|reflexivity]. cbn [rbind].
    rewrite (traverse_ext _ _ (fun g => render_group E up w ds nexus mm false k (fst (fst g)) (snd (fst g)) (S d) (snd g)) (fun g => render_group E up w' ds nexus mm false k (fst (fst g)) (snd (fst g)) (S d) (snd g))) by (intros; apply IH).
    reflexivity.
  Qed.

  (** *** with attributes *)
  Lemma attr_lines_are : forall d l r, traverse (fun nv => render_single_attribute E d (fst nv) (snd nv)) l = Ok r -> Forall (fun x => attribute_line x = true) r.
  Proof.
    intros d l. induction l as [|[n v] l IH]; intros r H; [injection H as <-; constructor|]. cbn [traverse] in H. cbn [fst snd] in H.
    unfold render_single_attribute at 1 in H. destruct (render_value E v); [|discriminate H]. cbn [rbind] in H.
    destruct (traverse (fun nv => render_single_attribute E d (fst nv) (snd nv)) l) as [t|e] eqn:T; [|discriminate H]. cbn [rbind] in H. injection H as <-. constructor; auto.
  Qed.
  Lemma attrs_out : forall at_ h d x r, render_attributes E w at_ h d x = Ok r -> exists s, render_attributes E w' at_ h d x = Ok s /\ same_but_attributes r s.
  Proof.
    intros [|] h d x r H; cbn [render_attributes] in *; [|injection H as <-; exists []; split; [reflexivity|constructor]].
    destruct (traverse_perm _ _ _ _ (attrs_of w' h ++ x) (Permutation_app_tail x (proj1 (attrs_two h))) _ H) as (s & Hs & P). exists s. split; [exact Hs|].
    apply sb_attrs; [eapply attr_lines_are; exact H|exact P].
  Qed.
  Context (at_ : bool).
  Lemma dataset_out : forall h n d r, render_dataset E up w ds nexus mm at_ h n d = Ok r -> exists s, render_dataset E up w' ds nexus mm at_ h n d = Ok s /\ same_but_attributes r s.
  Proof.
    intros h n d r H. unfold render_dataset in *. rewrite elsewhere_two, linked_two in H. destruct (dataset_elsewhere E w' nexus h) as [[|]|e]; [| |discriminate H]; cbn [rbind] in *.
    - exists r. split; [exact H|apply sb_refl].
    - destruct (dataset_lines E up ds nexus mm h n d) as [s|e]; [|discriminate H]. cbn [rbind] in *. destruct (render_attributes E w at_ h d []) as [a|e] eqn:A; [|discriminate H]. cbn [rbind] in H. injection H as <-.
      destruct (attrs_out _ _ _ _ _ A) as (b & -> & B). cbn [rbind]. eexists. split; [reflexivity|]. apply sb_app; [apply sb_refl|exact B].
  Qed.
  Definition shown_two (a b : shown) : Prop :=
    match a, b with Now l, Now m => same_but_attributes l m | Later h n k, Later h' n' k' => h = h' /\ n = n' /\ k = k' | _, _ => False end.
  Lemma shown_refl : forall a, shown_two a a.
  Proof. intros [l|h n k]; cbn; [apply sb_refl|auto]. Qed.
  Lemma member_out : forall h d nl r, render_member E up w ds nexus mm at_ h d nl = Ok r -> exists s, render_member E up w' ds nexus mm at_ h d nl = Ok s /\ shown_two r s.
  Proof.
    intros h d [n l] r H. unfold render_member in *. rewrite getitem_two in H.
    assert (F : forall q : res handle, (dor v <- q; dor b <- isNeXusLink E w v; (if b then rmap Now (render_linked E w v n d) else if is_group_obj w v then Ok (Later v n l)
        else if isHdf5Dataset w v then dor s <- render_dataset E up w ds nexus mm at_ v n d; dor x <- link_lines E at_ l d; Ok (Now (s ++ x)) else Exn RuntimeError)) = Ok r ->
      exists t, (dor v <- q; dor b <- isNeXusLink E w' v; (if b then rmap Now (render_linked E w' v n d) else if is_group_obj w' v then Ok (Later v n l)
        else if isHdf5Dataset w' v then dor s <- render_dataset E up w' ds nexus mm at_ v n d; dor x <- link_lines E at_ l d; Ok (Now (s ++ x)) else Exn RuntimeError)) = Ok t /\ shown_two r t).
    { intros [v|e] G; [|discriminate G]. cbn [rbind] in *. rewrite link_two, linked_two, group_two, dataset_two in G. destruct (isNeXusLink E w' v) as [[|]|e]; [| |discriminate G]; cbn [rbind] in *.
      - exists r. split; [exact G|apply shown_refl].
      - destruct (is_group_obj w' v); [exists r; split; [exact G|apply shown_refl]|]. destruct (isHdf5Dataset w' v); [|discriminate G].
        destruct (render_dataset E up w ds nexus mm at_ v n d) as [s|e] eqn:R; [|discriminate G]. cbn [rbind] in G. destruct (dataset_out _ _ _ _ R) as (s' & -> & S'). cbn [rbind].
        destruct (link_lines E at_ l d) as [x|e]; [|discriminate G]. cbn [rbind] in *. injection G as <-. eexists. split; [reflexivity|]. cbn [shown_two]. apply sb_app; [exact S'|apply sb_refl]. }
    destruct l as [o|p|f p]; [apply F; exact H|exists r; split; [exact H|apply shown_refl]|]. rewrite dmem_same in H. destruct (dmem f w'); [apply F; exact H|exists r; split; [exact H|apply shown_refl]].
  Qed.
  Lemma now_two : forall a b, Forall2 shown_two a b -> same_but_attributes (List.concat (map now_of a)) (List.concat (map now_of b)).
  Proof.
    intros a b H. induction H as [|x y a b X H IH]; cbn [map List.concat]; [constructor|]. apply sb_app; [|exact IH].
    destruct x, y; cbn [shown_two now_of] in *; try tauto; constructor.
  Qed.
  Lemma later_two : forall a b, Forall2 shown_two a b -> List.concat (map later_of a) = List.concat (map later_of b).
  Proof.
    intros a b H. induction H as [|x y a b X H IH]; cbn [map List.concat]; [reflexivity|]. rewrite IH. f_equal.
    destruct x, y; cbn [shown_two later_of] in *; try tauto. destruct X as (-> & -> & ->). reflexivity.
  Qed.
  Lemma group_out : forall fuel h n d md r, render_group E up w ds nexus mm at_ fuel h n d md = Ok r ->
    exists s, render_group E up w' ds nexus mm at_ fuel h n d md = Ok s /\ same_but_attributes r s.
  Proof.
    induction fuel as [|k IH]; intros h n d md r H; [discriminate H|]. cbn [render_group] in *. rewrite suffix_two, members_two in H.
    destruct (class_suffix E w' h) as [sx|e]; [|discriminate H]. cbn [rbind] in *.
    destruct (render_attributes E w at_ h d (link_extra md)) as [a|e] eqn:A; [|discriminate H]. cbn [rbind] in H. destruct (attrs_out _ _ _ _ _ A) as (a' & -> & A'). cbn [rbind].
    destruct (traverse (render_member E up w ds nexus mm at_ h (S d)) (sorted_items (links_of w' h))) as [ms|e] eqn:M; [|discriminate H]. cbn [rbind] in H.
    destruct (traverse_out _ _ shown_two _ (render_member E up w' ds nexus mm at_ h (S d)) _ (fun x _ => member_out h (S d) x) _ M) as (ms' & -> & M'). cbn [rbind].
    rewrite (later_two _ _ M') in H.
    destruct (traverse (fun g => render_group E up w ds nexus mm at_ k (fst (fst g)) (snd (fst g)) (S d) (snd g)) (List.concat (map later_of ms'))) as [gs|e] eqn:G; [|discriminate H]. cbn [rbind] in H. injection H as <-.
    destruct (traverse_out _ _ same_but_attributes _ (fun g => render_group E up w' ds nexus mm at_ k (fst (fst g)) (snd (fst g)) (S d) (snd g)) _ (fun x _ => IH _ _ _ _) _ G) as (gs' & -> & G'). cbn [rbind].
    eexists. split; [reflexivity|]. constructor; [reflexivity|]. apply sb_app; [exact A'|]. apply sb_app; [apply now_two; exact M'|apply sb_concat; exact G'].
  Qed.

End Two.
