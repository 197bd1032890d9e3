(** * The tree view without attributes *)

From Coq Require Import List NArith ZArith Bool String Lia Permutation Sorting.
From Verif Require Import PyBase PyFacts Utf8 H5 Catalog H5Tree OrderWorld TreeOrderFacts Spec_Bare.
Import ListNotations.
Local Arguments getitem : simpl never.
Local Arguments resolve : simpl never.

Section Two.
  Context (w w' : world) (Hw : same_skeletons w w').

  Lemma file_same : forall n, match dget n w, dget n w' with Some a, Some b => same_frame a b | None, None => True | _, _ => False end.
  Proof.
    intros n. induction Hw as [|[x a] [y b] l m [E H] F IH]; [exact I|]. cbn [fst snd] in *. subst y.
    unfold dget in *. cbn [aget]. destruct (str_eqb n x); [exact H|apply IH; exact F].
  Qed.
  Lemma dmem_same : forall n, dmem n w = dmem n w'.
  Proof. intros n. pose proof (file_same n) as X. unfold dget in X. unfold dmem, amem. destruct (aget str_eqb n w), (aget str_eqb n w'); tauto. Qed.
  Lemma bones_nth : forall f f', Forall2 same_bones f f' -> forall o,
    match nth_error f o, nth_error f' o with Some a, Some b => same_bones a b | None, None => True | _, _ => False end.
  Proof. intros f f' H. induction H as [|a b f f' Hab H IH]; intros [|o]; cbn [nth_error]; auto. apply IH. Qed.
  Lemma gobj : forall f o, match get_obj w f o, get_obj w' f o with Some a, Some b => same_bones a b | None, None => True | _, _ => False end.
  Proof.
    intros f o. unfold get_obj. pose proof (file_same f) as X. destruct (dget f w) as [s|], (dget f w') as [t|]; try tauto.
    destruct X as [a b R|]; [|exact I]. apply bones_nth. exact R.
  Qed.
  Lemma links_two : forall h, Permutation (links_of w h) (links_of w' h) /\ NoDup (map fst (links_of w h)).
  Proof.
    intros h. unfold links_of, obj_of. pose proof (gobj (h_file h) (h_oid h)) as X. destruct (get_obj w (h_file h) (h_oid h)) as [a|], (get_obj w' (h_file h) (h_oid h)) as [b|]; try tauto.
    - destruct X as [_ [_ K]]. destruct (ob_kind a), (ob_kind b); try tauto; split; auto; constructor.
    - split; constructor.
  Qed.
  Lemma link_named : forall h n, dget n (links_of w h) = dget n (links_of w' h).
  Proof. intros h n. destruct (links_two h). apply dget_perm; auto. Qed.
  Lemma class_named : forall h, dget (py "NX_class") (attrs_of w h) = dget (py "NX_class") (attrs_of w' h).
  Proof.
    intros h. unfold attrs_of, obj_of. pose proof (gobj (h_file h) (h_oid h)) as X. destruct (get_obj w (h_file h) (h_oid h)) as [a|], (get_obj w' (h_file h) (h_oid h)) as [b|]; try tauto. apply X.
  Qed.
  Lemma target_named : forall h, dget (py "target") (attrs_of w h) = dget (py "target") (attrs_of w' h).
  Proof.
    intros h. unfold attrs_of, obj_of. pose proof (gobj (h_file h) (h_oid h)) as X. destruct (get_obj w (h_file h) (h_oid h)) as [a|], (get_obj w' (h_file h) (h_oid h)) as [b|]; try tauto. apply X.
  Qed.
  Lemma group_two : forall h, is_group_obj w h = is_group_obj w' h.
  Proof.
    intros h. unfold is_group_obj, obj_of. pose proof (gobj (h_file h) (h_oid h)) as X. destruct (get_obj w (h_file h) (h_oid h)) as [a|], (get_obj w' (h_file h) (h_oid h)) as [b|]; try tauto.
    destruct X as [_ [_ K]]. destruct (ob_kind a), (ob_kind b); tauto.
  Qed.
  Lemma dataset_two : forall h, isHdf5Dataset w h = isHdf5Dataset w' h.
  Proof.
    intros h. unfold isHdf5Dataset, obj_of. pose proof (gobj (h_file h) (h_oid h)) as X. destruct (get_obj w (h_file h) (h_oid h)) as [a|], (get_obj w' (h_file h) (h_oid h)) as [b|]; try tauto.
    destruct X as [_ [_ K]]. destruct (ob_kind a), (ob_kind b); tauto.
  Qed.

  Lemma resolve_two : forall nl cur comps, resolve nl w cur comps = resolve nl w' cur comps.
  Proof.
    induction nl as [|nl IH]; intros cur comps; revert cur; induction comps as [|c rest IHc]; intros cur; try reflexivity.
    - change (resolve 0 w cur (c :: rest)) with (match dget c (links_of w cur) with
        | None => Exn KeyError
        | Some (LHard o) => match get_obj w (h_file cur) o with Some _ => resolve 0 w (mkH (h_file cur) o (child_path (h_name cur) c) false) rest | None => Exn KeyError end
        | Some _ => Exn RuntimeError end).
      change (resolve 0 w' cur (c :: rest)) with (match dget c (links_of w' cur) with
        | None => Exn KeyError
        | Some (LHard o) => match get_obj w' (h_file cur) o with Some _ => resolve 0 w' (mkH (h_file cur) o (child_path (h_name cur) c) false) rest | None => Exn KeyError end
        | Some _ => Exn RuntimeError end).
      rewrite link_named. destruct (dget c (links_of w' cur)) as [[o|p|f p]|]; auto. pose proof (gobj (h_file cur) o) as X.
      destruct (get_obj w (h_file cur) o), (get_obj w' (h_file cur) o); try tauto; auto.
    - change (resolve (S nl) w cur (c :: rest)) with (match dget c (links_of w cur) with
        | None => Exn KeyError
        | Some (LHard o) => match get_obj w (h_file cur) o with Some _ => resolve (S nl) w (mkH (h_file cur) o (child_path (h_name cur) c) false) rest | None => Exn KeyError end
        | Some (LSoft p) => match resolve nl w (if is_abs p then root_handle (h_file cur) else cur) (path_comps p) with
             | Ok t => resolve (S nl) w (mkH (h_file t) (h_oid t) (child_path (h_name cur) c) false) rest | Exn e => Exn e end
        | Some (LExt f p) => match get_obj w f 0 with None => Exn KeyError | Some _ => match resolve nl w (root_handle f) (path_comps p) with
             | Ok t => resolve (S nl) w (mkH (h_file t) (h_oid t) (h_name t) false) rest | Exn e => Exn e end end end).
      change (resolve (S nl) w' cur (c :: rest)) with (match dget c (links_of w' cur) with
        | None => Exn KeyError
        | Some (LHard o) => match get_obj w' (h_file cur) o with Some _ => resolve (S nl) w' (mkH (h_file cur) o (child_path (h_name cur) c) false) rest | None => Exn KeyError end
        | Some (LSoft p) => match resolve nl w' (if is_abs p then root_handle (h_file cur) else cur) (path_comps p) with
             | Ok t => resolve (S nl) w' (mkH (h_file t) (h_oid t) (child_path (h_name cur) c) false) rest | Exn e => Exn e end
        | Some (LExt f p) => match get_obj w' f 0 with None => Exn KeyError | Some _ => match resolve nl w' (root_handle f) (path_comps p) with
             | Ok t => resolve (S nl) w' (mkH (h_file t) (h_oid t) (h_name t) false) rest | Exn e => Exn e end end end).
      rewrite link_named. destruct (dget c (links_of w' cur)) as [[o|p|f p]|]; auto.
      + pose proof (gobj (h_file cur) o) as X. destruct (get_obj w (h_file cur) o), (get_obj w' (h_file cur) o); try tauto; auto.
      + rewrite IH. destruct (resolve nl w' _ (path_comps p)); auto.
      + pose proof (gobj f 0) as X. destruct (get_obj w f 0), (get_obj w' f 0); try tauto; auto. rewrite IH. destruct (resolve nl w' _ (path_comps p)); auto.
  Qed.
  Lemma getitem_two : forall h n, getitem w h n = getitem w' h n.
  Proof. intros h [|c n]; [reflexivity|]. unfold getitem. apply resolve_two. Qed.

  Context (E : env).

  (** *** whether it is a NeXus file *)
  Lemma is_entry_two : forall root n, (dor h <- getitem w root n ; isNeXusGroup E w h (py "NXentry")) = (dor h <- getitem w' root n ; isNeXusGroup E w' h (py "NXentry")).
  Proof.
    intros root n. rewrite getitem_two. destruct (getitem w' root n) as [h|e]; [|reflexivity]. cbn [rbind]. unfold isNeXusGroup, isHdf5Group. rewrite group_two, class_named. reflexivity.
  Qed.
  Lemma any_two : forall root names, any_entry E w root names = any_entry E w' root names.
  Proof. intros root names. induction names as [|n l IH]; [reflexivity|]. cbn [any_entry]. rewrite is_entry_two, IH. reflexivity. Qed.
  Lemma any_false : forall root names, any_entry E w root names = Ok false -> forall n, In n names -> (dor h <- getitem w root n ; isNeXusGroup E w h (py "NXentry")) <> Ok true.
  Proof.
    intros root names. induction names as [|n l IH]; intros H m I; [destruct I|]. cbn [any_entry] in H. destruct I as [<-|I].
    - intros X. rewrite X in H. discriminate H.
    - apply IH; [|exact I]. destruct (dor h <- getitem w root n; isNeXusGroup E w h (py "NXentry")) as [[|]|[]]; try discriminate H; exact H.
  Qed.
  Lemma any_true : forall root names, any_entry E w root names = Ok true -> exists n, In n names /\ (dor h <- getitem w root n ; isNeXusGroup E w h (py "NXentry")) = Ok true.
  Proof.
    intros root names. induction names as [|n l IH]; intros H; [discriminate H|]. cbn [any_entry] in H.
    destruct (dor h <- getitem w root n; isNeXusGroup E w h (py "NXentry")) as [[|]|e] eqn:X.
    - exists n. split; [left; reflexivity|exact X].
    - destruct (IH H) as (m & I & Y). exists m. split; [right; exact I|exact Y].
    - destruct e; try discriminate H; destruct (IH H) as (m & I & Y); exists m; (split; [right; exact I|exact Y]).
  Qed.
  Lemma any_perm : forall root l m a b, Permutation l m -> any_entry E w root l = Ok a -> any_entry E w root m = Ok b -> a = b.
  Proof.
    intros root l m [|] [|] P A B; auto; exfalso.
    - destruct (any_true _ _ A) as (n & I & X). exact (any_false _ _ B n (Permutation_in _ P I) X).
    - destruct (any_true _ _ B) as (n & I & X). exact (any_false _ _ A n (Permutation_in _ (Permutation_sym P) I) X).
  Qed.
  Lemma nexus_two : forall file a b, isNeXusFile E w file = Ok a -> isNeXusFile E w' file = Ok b -> a = b.
  Proof.
    intros file a b A B. unfold isNeXusFile in *. pose proof (file_same file) as X. destruct (dget file w) as [s|], (dget file w') as [t|]; try tauto; [|congruence].
    destruct X as [f f' R|]; [|discriminate A]. rewrite <- any_two in B.
    destruct (any_entry E w (open_root file) (dkeys (links_of w (open_root file)))) as [x|e] eqn:X; [|discriminate A].
    destruct (any_entry E w (open_root file) (dkeys (links_of w' (open_root file)))) as [y|e] eqn:Y; [|discriminate B]. injection A as <-. injection B as <-. f_equal.
    eapply any_perm; [|exact X|exact Y]. unfold dkeys. apply Permutation_map. apply links_two.
  Qed.

  Context (up : pystr -> pystr) (ds : handle -> dsview) (nexus : bool) (mm : Z).

  Lemma link_two : forall h, isNeXusLink E w h = isNeXusLink E w' h.
  Proof. intros h. unfold isNeXusLink. rewrite target_named. reflexivity. Qed.
  Lemma linked_two : forall h n d, render_linked E w h n d = render_linked E w' h n d.
  Proof. intros h n d. unfold render_linked. rewrite target_named. reflexivity. Qed.
  Lemma suffix_two : forall h, class_suffix E w h = class_suffix E w' h.
  Proof. intros h. unfold class_suffix. rewrite class_named. reflexivity. Qed.
  Lemma elsewhere_two : forall h, dataset_elsewhere E w nexus h = dataset_elsewhere E w' nexus h.
  Proof. intros h. unfold dataset_elsewhere. rewrite target_named. reflexivity. Qed.
  Lemma members_two : forall h, sorted_items (links_of w h) = sorted_items (links_of w' h).
  Proof. intros h. destruct (links_two h). apply sorted_items_perm; auto. Qed.

  (** *** without attributes *)
  Lemma plain_dataset : forall h n d, render_dataset E up w ds nexus mm false h n d = render_dataset E up w' ds nexus mm false h n d.
  Proof. intros h n d. unfold render_dataset. rewrite elsewhere_two, linked_two. reflexivity. Qed.
  Lemma plain_member : forall h d nl, render_member E up w ds nexus mm false h d nl = render_member E up w' ds nexus mm false h d nl.
  Proof.
    intros h d [n l]. unfold render_member. rewrite getitem_two.
    assert (F : forall r : res handle, (dor v <- r; dor b <- isNeXusLink E w v; (if b then rmap Now (render_linked E w v n d) else if is_group_obj w v then Ok (Later v n l)
        else if isHdf5Dataset w v then dor s <- render_dataset E up w ds nexus mm false v n d; dor x <- link_lines E false l d; Ok (Now (s ++ x)) else Exn RuntimeError))
      = (dor v <- r; dor b <- isNeXusLink E w' v; (if b then rmap Now (render_linked E w' v n d) else if is_group_obj w' v then Ok (Later v n l)
        else if isHdf5Dataset w' v then dor s <- render_dataset E up w' ds nexus mm false v n d; dor x <- link_lines E false l d; Ok (Now (s ++ x)) else Exn RuntimeError))).
    { intros [v|e]; [|reflexivity]. cbn [rbind]. rewrite link_two, linked_two, group_two, dataset_two, plain_dataset. reflexivity. }
    destruct l as [o|p|f p]; [apply F|reflexivity|]. rewrite dmem_same. destruct (dmem f w'); [apply F|reflexivity].
  Qed.
  Lemma plain_group : forall fuel h n d md, render_group E up w ds nexus mm false fuel h n d md = render_group E up w' ds nexus mm false fuel h n d md.
  Proof.
    induction fuel as [|k IH]; intros h n d md; [reflexivity|]. cbn [render_group]. rewrite suffix_two, members_two.
    destruct (class_suffix E w' h) as [sx|e]; [|reflexivity]. cbn [rbind render_attributes]. 
    rewrite (traverse_ext _ _ (render_member E up w ds nexus mm false h (S d)) (render_member E up w' ds nexus mm false h (S d))) by (intros; apply plain_member).
    destruct (traverse (render_member E up w' ds nexus mm false h (S d)) (sorted_items (links_of w' h))) as [ms|e]; [|reflexivity]. cbn [rbind].
    rewrite (traverse_ext _ _ (fun g => render_group E up w ds nexus mm false k (fst (fst g)) (snd (fst g)) (S d) (snd g)) (fun g => render_group E up w' ds nexus mm false k (fst (fst g)) (snd (fst g)) (S d) (snd g))) by (intros; apply IH).
    reflexivity.
  Qed.

End Two.
