(** * Runs on two file systems that are the same but for extra attributes *)

From Coq Require Import List NArith ZArith Bool String Lia Permutation.
From Verif Require Import PyBase PyFacts Regex Utf8 H5 Findings Nxdl Core Catalog ItemName AttributeCheck
  GroupChecks AppDef DefaultPlot Validate CheckFacts Spec_Copy Spec_Extra.
From Verif Require GroupRun CatalogFacts NxdlFacts.
Import ListNotations.

Lemma sinsert_rel : forall A (R : A -> A -> Prop) leb, (forall x x' y y', R x x' -> R y y' -> leb x y = leb x' y') ->
  forall x x' l l', R x x' -> Forall2 R l l' -> Forall2 R (sinsert leb x l) (sinsert leb x' l').
Proof.
  intros A R leb H x x' l l' Hx Hl. induction Hl as [|y y' l l' Hy Hl IH]; cbn [sinsert]; [repeat constructor; exact Hx|].
  rewrite (H _ _ _ _ Hx Hy). destruct (leb x' y'); repeat constructor; auto.
Qed.
Lemma ssort_rel : forall A (R : A -> A -> Prop) leb, (forall x x' y y', R x x' -> R y y' -> leb x y = leb x' y') ->
  forall l l', Forall2 R l l' -> Forall2 R (ssort leb l) (ssort leb l').
Proof. intros A R leb H l l' Hl. induction Hl; cbn [ssort]; [constructor|]. apply sinsert_rel; assumption. Qed.

(** ** the end of a text after an at sign *)
Lemma at_end : forall (a n x b : pystr), a ++ [ch_at] ++ n = b ++ [ch_at] ++ x -> ~ In ch_at x -> n = x \/ exists c, n = c ++ [ch_at] ++ x.
Proof.
  induction a as [|y a IH]; intros n x b H N1.
  - destruct b as [|z b]; cbn in H.
    + injection H as ->. left. reflexivity.
    + injection H as _ H. right. exists b. exact H.
  - destruct b as [|z b]; cbn in H.
    + injection H as _ H. exfalso. apply N1. rewrite <- H. apply in_or_app. right. left. reflexivity.
    + injection H as _ H. eapply IH; eauto.
Qed.

Section Extra.
  Variables (E : env) (cl0 : classes) (w w' : world) (p : pystr) (pats : dict (list pystr)) (rl : nat) (fm : option Z).
  Hypothesis Hw : same_but_extra E cl0 w w'.
  Hypothesis Hroot : is_group_obj w (open_root p) = true.
  Local Notation CC := (mkCtx E w (open_root p) pats rl fm).
  Local Notation CD := (mkCtx E w' (open_root p) pats rl fm).

  (** ** HDF5 *)
  Inductive alike : option h5obj -> option h5obj -> Prop :=
  | alike_none : alike None None
  | alike_some : forall o o', object_but_extra E cl0 o o' -> alike (Some o) (Some o').
  Lemma obj_same : forall f o, alike (get_obj w f o) (get_obj w' f o).
  Proof.
    intros f o. unfold get_obj. destruct (Hw f) as [| |a b H2]; try constructor.
    revert o. induction H2 as [|x y a b Hx Hl IH]; intros [|o]; cbn [nth_error]; try constructor; auto.
  Qed.
  Lemma links_same : forall h, links_of w h = links_of w' h.
  Proof. intros h. unfold links_of, obj_of. destruct (obj_same (h_file h) (h_oid h)) as [|o o' []]; reflexivity. Qed.
  Lemma group_obj_same : forall h, is_group_obj w h = is_group_obj w' h.
  Proof. intros h. unfold is_group_obj, obj_of. destruct (obj_same (h_file h) (h_oid h)) as [|o o' []]; reflexivity. Qed.
  Lemma group_same : forall h, isHdf5Group w h = isHdf5Group w' h.
  Proof. intros h. unfold isHdf5Group. rewrite group_obj_same. reflexivity. Qed.
  Lemma dataset_same : forall h, isHdf5Dataset w h = isHdf5Dataset w' h.
  Proof. intros h. unfold isHdf5Dataset, obj_of. destruct (obj_same (h_file h) (h_oid h)) as [|o o' []]; reflexivity. Qed.
  Lemma read_same : forall h, read_data w h = read_data w' h.
  Proof. intros h. unfold read_data, obj_of. destruct (obj_same (h_file h) (h_oid h)) as [|o o' []]; reflexivity. Qed.
  Lemma resolve_same : forall nl cs h, resolve nl w h cs = resolve nl w' h cs.
  Proof.
    induction nl as [|nl IHn]; induction cs as [|c cs IHc]; intros h; try reflexivity; cbn [resolve]; rewrite (links_same h);
      destruct (dget c (links_of w' h)) as [[o|q|x q]|]; try reflexivity.
    - destruct (obj_same (h_file h) o); [reflexivity|]. apply IHc.
    - destruct (obj_same (h_file h) o); [reflexivity|]. apply IHc.
    - rewrite IHn. destruct (resolve nl w' _ (path_comps q)) as [y|e]; [|reflexivity]. apply IHc.
    - destruct (obj_same x 0); [reflexivity|]. rewrite IHn. destruct (resolve nl w' _ (path_comps q)) as [y|e]; [|reflexivity]. apply IHc.
  Qed.
  Lemma getitem_same : forall h n, getitem w h n = getitem w' h n.
  Proof. intros h [|a n]; [reflexivity|]. unfold getitem. apply resolve_same. Qed.
  Lemma getopt_same : forall h n, getopt w h n = getopt w' h n.
  Proof. intros h n. unfold getopt. rewrite getitem_same. reflexivity. Qed.
  Lemma path_valid_same : forall cs h, path_valid w h cs = path_valid w' h cs.
  Proof.
    induction cs as [|c cs IH]; intros h; [reflexivity|]. cbn [path_valid]. rewrite (links_same h). destruct cs as [|c2 cs]; [reflexivity|].
    destruct (dmem c (links_of w' h)); [|reflexivity]. rewrite resolve_same. destruct (resolve max_nlinks w' h [c]) as [t|e]; [|reflexivity].
    rewrite group_obj_same. destruct (is_group_obj w' t); [|reflexivity]. apply IH.
  Qed.
  Lemma contains_same : forall h n, contains w h n = contains w' h n.
  Proof. intros h [|a n]; [reflexivity|]. unfold contains. apply path_valid_same. Qed.
  Lemma py_in_same : forall h v, py_in w h v = py_in w' h v.
  Proof.
    intros h v. unfold py_in, obj_of. destruct (obj_same (h_file h) (h_oid h)) as [|o o' [k a a' _]]; [reflexivity|]. cbn [ob_kind].
    destruct k; try reflexivity. destruct v; try reflexivity. rewrite contains_same. reflexivity.
  Qed.
  Lemma link_same : forall h, isHdf5Link w h = isHdf5Link w' h.
  Proof. intros h. unfold isHdf5Link. rewrite resolve_same. destruct (resolve max_nlinks w' _ _) as [t|e]; [|reflexivity]. cbn [rbind]. rewrite links_same. reflexivity. Qed.

  (** ** attributes *)
  Definition plain (n : pystr) : Prop := ~ read_anyway n.
  Inductive arel (strict : Prop) : pystr * pyval -> pystr * pyval -> Prop :=
  | arel_same : forall n v, arel strict (n, v) (n, v)
  | arel_extra : forall n v v', plain n -> (strict -> ~ declared cl0 n) -> readable E v -> readable E v' -> arel strict (n, v) (n, v').
  Lemma attrs_same : forall h, Forall2 (arel (is_group_obj w h = true)) (attrs_of w h) (attrs_of w' h).
  Proof.
    intros h. unfold attrs_of, is_group_obj, obj_of. destruct (obj_same (h_file h) (h_oid h)) as [|o o' [k a a' H]]; [constructor|]. cbn [ob_attrs ob_kind].
    induction H as [|x y a a' H H2 IH]; constructor; [|exact IH]. destruct H as [n v|n v v' [N1 N2] R R']; [apply arel_same|]. apply arel_extra; auto.
    destruct k; try discriminate; auto.
  Qed.
  Lemma dget_rel : forall S n a a', Forall2 (arel S) a a' -> ~ plain n -> dget n a = dget n a'.
  Proof.
    intros S n a a' H N1. unfold dget. induction H as [|x y a a' H H2 IH]; [reflexivity|]. destruct H as [m v|m v v' Pm _ _ _]; cbn [aget].
    - rewrite IH. reflexivity.
    - destruct (str_eqb_spec n m) as [->|_]; [contradiction|exact IH].
  Qed.
  Lemma dget_same : forall h n, read_anyway n -> dget n (attrs_of w h) = dget n (attrs_of w' h).
  Proof. intros h n R. eapply dget_rel; [apply attrs_same|]. intros X. contradiction. Qed.
  Lemma sorted_rel : forall S a a', Forall2 (arel S) a a' -> Forall2 (arel S) (sorted_items a) (sorted_items a').
  Proof. intros S a a' H. unfold sorted_items, sorted_by. apply ssort_rel; [|exact H]. intros x x' y y' [] []; reflexivity. Qed.
  Lemma nexus_link_same : forall h, isNeXusLink E w h = isNeXusLink E w' h.
  Proof. intros h. unfold isNeXusLink. rewrite (dget_same h (py "target")) by constructor. reflexivity. Qed.

  (** ** items *)
  Record free (n : option pystr) (ad : option pystr) (cp : pystr) : Prop := {
    fr_name : exists m, n = Some m /\ plain m
      /\ (ad = None \/ exists a, ad = Some (a ++ [ch_at] ++ m))
      /\ (cp = NON_NEXUS \/ exists a, cp = a ++ [ch_at] ++ m)
  }.
  Inductive orel (P : Prop) : hobj -> hobj -> Prop :=
  | orel_node : forall h, (h_isfile h = true -> is_group_obj w h = true) -> orel P (ONode h) (ONode h)
  | orel_val : forall v, orel P (OVal v) (OVal v)
  | orel_free : forall v v', P -> orel P (OVal v) (OVal v').
  Inductive irel : vitem -> vitem -> Prop :=
  | irel_intro : forall q o o' n a c x v, orel (free n a c) o o' -> irel (mkItem q o n a c x v) (mkItem q o' n a c x v).
  Definition bound (it : vitem) : Prop := ~ free (it_name it) (it_addr it) (it_cp it).
  Lemma bound_same : forall it it', irel it it' -> bound it -> it_obj it = it_obj it'.
  Proof. intros it it' [q o o' n a c x v O] B. destruct O; try reflexivity. contradiction B. Qed.

  Inductive rrel {A B} (V : A -> B -> Prop) : res A -> res B -> Prop :=
  | rrel_ok : forall a b, V a b -> rrel V (Ok a) (Ok b)
  | rrel_exn : forall e, rrel V (Exn e) (Exn e).
  Lemma rrel_eq : forall A (r : res A), rrel eq r r.
  Proof. intros A [a|e]; constructor; reflexivity. Qed.

  Lemma isgroup_same : forall P o o', orel P o o' -> hobj_isgroup w o = hobj_isgroup w' o'.
  Proof. intros P o o' []; try reflexivity. apply group_same. Qed.
  Lemma isdataset_same : forall P o o', orel P o o' -> hobj_isdataset w o = hobj_isdataset w' o'.
  Proof. intros P o o' []; try reflexivity. apply dataset_same. Qed.
  Lemma isfile_same : forall P o o', orel P o o' -> hobj_isfile o = hobj_isfile o'.
  Proof. intros P o o' []; reflexivity. Qed.
  Lemma islink_same : forall P o o', orel P o o' -> hobj_islink w o = hobj_islink w' o'.
  Proof. intros P o o' []; try reflexivity. apply link_same. Qed.
  Lemma hobj_in_same : forall P o o' v, orel P o o' -> hobj_in w v o = hobj_in w' v o'.
  Proof. intros P o o' v []; try reflexivity. apply py_in_same. Qed.
  Lemma hobj_get_same : forall P o o' v, orel P o o' -> hobj_get w o v = hobj_get w' o' v.
  Proof. intros P o o' v [h _| |]; try reflexivity. cbn [hobj_get]. rewrite group_obj_same. destruct (is_group_obj w' h); [|reflexivity]. destruct v; try reflexivity. rewrite getopt_same. reflexivity. Qed.
  Lemma node_name_same : forall P o o', orel P o o' -> node_name o = node_name o'.
  Proof. intros P o o' []; reflexivity. Qed.
  Lemma hobj_getitem_same : forall P o o' n, orel P o o' -> hobj_getitem w o n = hobj_getitem w' o' n.
  Proof. intros P o o' n [h _| |]; try reflexivity. cbn [hobj_getitem]. rewrite group_obj_same, getitem_same. reflexivity. Qed.
  Lemma hobj_getopt_same : forall P o o' n, orel P o o' -> hobj_getopt w o n = hobj_getopt w' o' n.
  Proof. intros P o o' n [h _| |]; try reflexivity. cbn [hobj_getopt]. rewrite group_obj_same, getopt_same. reflexivity. Qed.
  Lemma hobj_attrs_same : forall P o o', orel P o o' -> rrel (Forall2 (arel (forall h, o = ONode h -> is_group_obj w h = true))) (hobj_attrs w o) (hobj_attrs w' o').
  Proof.
    intros P o o' [h _| |]; constructor. induction (attrs_same h) as [|x y a a' [n v|n v v' H1 H2 H3 H4] _ IH]; constructor; auto; [apply arel_same|]. apply arel_extra; auto.
  Qed.

  (** ** states: [D] says which items are known to have the property [Q] *)
  Definition stable (Q : vitem -> Prop) : Prop := forall it v, Q it -> Q (set_vals it v).
  Lemma bound_stable : stable bound.
  Proof. intros it v H. exact H. Qed.

  Definition listed (l : list vitem) (c : dict (list nat)) : Prop :=
    forall k ns i, In (k, ns) c -> In i ns -> exists it, nth_error l i = Some it /\ it_cp it = k.
  Definition known (D : nat -> Prop) (Q : vitem -> Prop) (l : list vitem) : Prop :=
    forall i, D i -> exists it, nth_error l i = Some it /\ Q it.

  Section Known.
  Variables (D : nat -> Prop) (Q : vitem -> Prop).
  Hypothesis HQ : stable Q.
  Inductive srel : vstate -> vstate -> Prop :=
  | srel_intro : forall l l' a c f k cl, Forall2 irel l l' -> strip_classes cl = strip_classes cl0 -> listed l c -> known D Q l ->
      srel (mkSt l a c f k cl) (mkSt l' a c f k cl).
  Definition mrel {A B} (V : A -> B -> Prop) (m : M A) (m' : M B) : Prop :=
    forall s s', srel s s' -> srel (fst (m s)) (fst (m' s')) /\ rrel V (snd (m s)) (snd (m' s')).

  Lemma m_ret : forall A B (V : A -> B -> Prop) a b, V a b -> mrel V (ret a) (ret b).
  Proof. intros A B V a b H s s' S. split; [exact S|constructor; exact H]. Qed.
  Lemma m_raise : forall A B (V : A -> B -> Prop) e, mrel V (raise e) (raise e).
  Proof. intros A B V e s s' S. split; [exact S|constructor]. Qed.
  Lemma m_lift : forall A B (V : A -> B -> Prop) r r', rrel V r r' -> mrel V (lift r) (lift r').
  Proof. intros A B V r r' H s s' S. split; [exact S|exact H]. Qed.
  Lemma m_lift_eq : forall A (r r' : res A), r = r' -> mrel eq (lift r) (lift r').
  Proof. intros A r r' <-. apply m_lift. apply rrel_eq. Qed.
  Lemma m_bind : forall A B A' B' (V : A -> A' -> Prop) (W : B -> B' -> Prop) m m' f f',
    mrel V m m' -> (forall a a', V a a' -> mrel W (f a) (f' a')) -> mrel W (bind m f) (bind m' f').
  Proof.
    intros A B A' B' V W m m' f f' H Hf s s' S. unfold bind. destruct (H s s' S) as [S1 R]. destruct (m s) as [s1 r], (m' s') as [s1' r']. cbn [fst snd] in *.
    destruct R as [a a' Va|e]; [apply Hf; assumption|]. split; [exact S1|constructor].
  Qed.
  Lemma m_get : mrel srel get get.
  Proof. intros s s' S. split; [exact S|constructor; exact S]. Qed.
  Lemma Forall2_nth : forall A B (R : A -> B -> Prop) l l', Forall2 R l l' -> forall i,
    match nth_error l i, nth_error l' i with Some a, Some b => R a b | None, None => True | _, _ => False end.
  Proof. intros A B R l l' H. induction H; intros [|i]; cbn; auto. apply IHForall2. Qed.
  Definition krel (i : nat) (it it' : vitem) : Prop := irel it it' /\ (D i -> Q it).
  Lemma m_item_known : forall i, mrel (krel i) (item i) (item i).
  Proof.
    intros i s s' S. pose proof S as S0. destruct S as [l l' a c f k cl H HC HL HK]. unfold item. cbn [st_items]. pose proof (Forall2_nth _ _ _ _ _ H i) as N1.
    destruct (nth_error l i) as [it|] eqn:L1, (nth_error l' i); try contradiction; (split; [exact S0|]); constructor. split; [exact N1|].
    intros Di. destruct (HK i Di) as [it2 [L2 Q2]]. congruence.
  Qed.
  Lemma m_item : forall i, mrel irel (item i) (item i).
  Proof.
    intros i s s' S. destruct (m_item_known i s s' S) as [S1 R]. split; [exact S1|]. destruct R as [a b [R _]|e]; constructor. exact R.
  Qed.
  Lemma listed_app : forall l c it, listed l c -> listed (l ++ [it]) c.
  Proof. intros l c it H k ns i I J. destruct (H k ns i I J) as [x [L X]]. exists x. split; [|exact X]. rewrite nth_error_app1; [exact L|]. apply nth_error_Some. congruence. Qed.
  Lemma known_app : forall l it, known D Q l -> known D Q (l ++ [it]).
  Proof. intros l it H i Di. destruct (H i Di) as [x [L X]]. exists x. split; [|exact X]. rewrite nth_error_app1; [exact L|]. apply nth_error_Some. congruence. Qed.
  Lemma length_rel : forall l l', Forall2 irel l l' -> List.length l = List.length l'.
  Proof. intros l l' H. induction H; cbn; congruence. Qed.
  Lemma m_new : forall it it', irel it it' -> mrel eq (new_item it) (new_item it').
  Proof.
    intros it it' R s s' S. destruct S as [l l' a c f k cl H HC HL HK]. unfold new_item, set_items. cbn.
    split; [constructor; [apply Forall2_app; auto|exact HC|apply listed_app; exact HL|apply known_app; exact HK]|]. constructor. apply length_rel. exact H.
  Qed.
  Lemma m_address : forall a, mrel eq (address_item a) (address_item a).
  Proof.
    intros x s s' S. pose proof S as S0. destruct S as [l l' a c f k cl H HC HL HK]. unfold address_item. cbn [st_addr].
    destruct (aget ostr_eqb x a); (split; [exact S0|constructor]); reflexivity.
  Qed.
  Lemma m_classpath : forall k, mrel eq (classpath_list k) (classpath_list k).
  Proof. intros x s s' S. pose proof S as S0. destruct S as [l l' a c f k cl H HC HL HK]. unfold classpath_list. cbn [st_cp]. split; [exact S0|constructor; reflexivity]. Qed.
  Lemma m_last : forall k, mrel eq (last_of_classpath k) (last_of_classpath k).
  Proof.
    intros x s s' S. pose proof S as S0. destruct S as [l l' a c f k cl H HC HL HK]. unfold last_of_classpath. cbn [st_cp].
    destruct (dget x c) as [y|]; [destruct (rev y)|]; (split; [exact S0|constructor]); reflexivity.
  Qed.
  Lemma m_register : forall it it', irel it it' -> mrel eq (register it) (register it').
  Proof.
    intros it it' R s s' S. destruct S as [l l' a c f k cl H HC HL HK]. unfold register, new_item, add_address, add_classpath, set_items, bind, ret.
    cbn [fst snd st_items st_addr st_cp st_find st_cache st_classes].
    assert (A : it_addr it = it_addr it' /\ it_cp it = it_cp it') by (destruct R; split; reflexivity). destruct A as [A1 A2]. rewrite <- A1, <- A2, <- (length_rel _ _ H).
    split; [|constructor; reflexivity]. constructor; [apply Forall2_app; auto|exact HC| |apply known_app; exact HK].
    intros kk ns i I J. apply NxdlFacts.dset_In_cases in I. destruct I as [I|[-> ->]]; [exact (listed_app _ _ it HL kk ns i I J)|].
    apply in_app_or in J. destruct J as [J|[<-|[]]].
    - destruct (dget (it_cp it) c) as [ns0|] eqn:G; [|destruct J]. apply dget_In in G. exact (listed_app _ _ it HL _ _ i G J).
    - exists it. split; [|reflexivity]. rewrite nth_error_app2 by lia. rewrite Nat.sub_diag. reflexivity.
  Qed.
  Lemma m_regexp : forall k q, mrel eq (cached_regexp k q) (cached_regexp k q).
  Proof.
    intros x q s s' S. pose proof S as S0. destruct S as [l l' a c f k cl H HC HL HK]. unfold cached_regexp. cbn [st_cache].
    destruct (dget x k); [split; [exact S0|constructor; reflexivity]|]. destruct (re_compile q); (split; [|constructor; reflexivity]); [constructor; assumption|exact S0].
  Qed.
  Lemma update_rel : forall i (f g : vitem -> vitem) l l', (forall x y, irel x y -> irel (f x) (g y)) -> Forall2 irel l l' -> Forall2 irel (update_nth i f l) (update_nth i g l').
  Proof. intros i f g l l' Hf H. revert i. induction H; intros [|i]; cbn; constructor; auto. Qed.
  Lemma update_keeps : forall (P : vitem -> Prop) (f : vitem -> vitem) j l i it, (forall x, P x -> P (f x)) -> nth_error l i = Some it -> P it ->
    exists it2, nth_error (update_nth j f l) i = Some it2 /\ P it2.
  Proof.
    intros P f j l. revert j. induction l as [|x l IH]; intros [|j] [|i] it Hf H1 H2; cbn in *; try discriminate; eauto.
    injection H1 as ->. eauto.
  Qed.
  Lemma m_record : forall i k st cm, mrel eq (record_finding i k st cm) (record_finding i k st cm).
  Proof.
    intros i k st cm. unfold record_finding. eapply m_bind; [apply m_item|]. intros it it' R s s' S. destruct S as [l l' a c f kk cl H HC HL HK]. cbn.
    destruct R as [q o o' n ad cp x v O]. cbn [it_addr]. split; [|constructor; reflexivity]. constructor; [|exact HC| |].
    - apply update_rel; [|exact H]. intros y y' [p2 o2 o2' n2 a2 c2 x2 v2 O2]. cbn. constructor. exact O2.
    - intros k0 ns j I J. destruct (HL k0 ns j I J) as [y [L X]]. apply (update_keeps (fun z => it_cp z = k0) _ i l j y); auto.
    - intros j Dj. destruct (HK j Dj) as [y [L X]]. apply (update_keeps Q _ i l j y); auto.
  Qed.
  Lemma m_store : forall a n z, mrel eq (store_minOccurs a n z) (store_minOccurs a n z).
  Proof.
    intros a n z s s' S. pose proof (strip_store a n z s) as X. destruct S as [l l' ad c f k cl H HC HL HK]. split; [|constructor; reflexivity].
    constructor; [exact H| |exact HL|exact HK]. etransitivity; [exact X|exact HC].
  Qed.
  Lemma m_for_each : forall A (f g : A -> M unit) l, (forall x, mrel eq (f x) (g x)) -> mrel eq (for_each f l) (for_each g l).
  Proof. intros A f g l H. induction l as [|x l IH]; [apply m_ret; reflexivity|]. cbn [for_each]. eapply m_bind; [apply H|]. intros; apply IH. Qed.
  Lemma m_for_each2 : forall A B (P : A -> B -> Prop) (f : A -> M unit) (g : B -> M unit) l r, (forall x y, P x y -> mrel eq (f x) (g y)) -> Forall2 P l r ->
    mrel eq (for_each f l) (for_each g r).
  Proof. intros A B P f g l r H G. induction G; [apply m_ret; reflexivity|]. cbn [for_each]. eapply m_bind; [apply H; assumption|]. intros. assumption. Qed.

  Ltac same :=
    repeat match goal with
    | O : orel ?P ?o ?o' |- context [hobj_isgroup w ?o] => rewrite (isgroup_same P o o' O)
    | O : orel ?P ?o ?o' |- context [hobj_isdataset w ?o] => rewrite (isdataset_same P o o' O)
    | O : orel ?P ?o ?o' |- context [hobj_isfile ?o] => rewrite (isfile_same P o o' O)
    | |- context [isHdf5Group w ?o] => rewrite (group_same o)
    | |- context [isHdf5Dataset w ?o] => rewrite (dataset_same o)
    | |- context [links_of w ?o] => rewrite (links_same o)
    end.
  Ltac items :=
    repeat match goal with
    | H : irel _ _ |- _ => destruct H; cbn [it_parent it_obj it_name it_addr it_cp it_nxclass it_vals] in *
    | H : ?a = _ |- _ => is_var a; subst a
    end.
  Ltac lifts :=
    apply m_lift_eq; first
       [ reflexivity | apply getitem_same | apply py_in_same | eapply hobj_getitem_same; eassumption | eapply hobj_getopt_same; eassumption
       | eapply hobj_in_same; eassumption | eapply hobj_get_same; eassumption | eapply node_name_same; eassumption ].
  Ltac step :=
    match goal with
    | |- mrel _ (ret _) _ => apply m_ret; try reflexivity
    | |- mrel _ (raise _) _ => apply m_raise
    | |- mrel _ (item _) _ => apply m_item
    | |- mrel _ (address_item _) _ => apply m_address
    | |- mrel _ (classpath_list _) _ => apply m_classpath
    | |- mrel _ (last_of_classpath _) _ => apply m_last
    | |- mrel _ (cached_regexp _ _) _ => apply m_regexp
    | |- mrel _ (record_finding _ _ _ _) _ => apply m_record
    | |- mrel _ (store_minOccurs _ _ _) _ => apply m_store
    | |- mrel _ (lift _) _ => lifts
    | |- mrel _ get _ => apply m_get
    | |- mrel _ (bind _ _) _ => eapply m_bind; [|intros]
    | |- mrel _ (for_each _ _) _ => apply m_for_each; intros
    | |- mrel _ (match ?x with _ => _ end) (match ?x with _ => _ end) => destruct x
    | |- mrel _ (let '(_, _) := ?x in _) _ => destruct x
    end.
  Ltac go := repeat (items; same; step; cbv beta).

  (** ** the catalogue *)
  Lemma determine_same : forall pcp h n, determine_NeXus_classpath E w pcp h n = determine_NeXus_classpath E w' pcp h n.
  Proof. intros pcp h n. unfold determine_NeXus_classpath. rewrite group_same, (dget_same h (py "NX_class")) by constructor. reflexivity. Qed.
  Lemma identify_same : forall h, identify_object_type E w (ONode h) = identify_object_type E w' (ONode h).
  Proof. intros h. unfold identify_object_type. rewrite nexus_link_same. unfold obj_of. destruct (obj_same (h_file h) (h_oid h)) as [|o o' []]; reflexivity. Qed.
  Inductive prel : option (nat * vitem) -> option (nat * vitem) -> Prop :=
  | prel_none : prel None None
  | prel_some : forall i it it', irel it it' -> prel (Some (i, it)) (Some (i, it')).
  Definition rooted (h : handle) : Prop := h_isfile h = true -> is_group_obj w h = true.
  Lemma getitem_rooted : forall h n t, getitem w h n = Ok t -> rooted t.
  Proof. intros h n t H X. apply CatalogFacts.getitem_notfile in H. congruence. Qed.
  Lemma node_item_same : forall q q' h, prel q q' -> rooted h -> rrel irel (node_item E w q h) (node_item E w' q' h).
  Proof.
    intros q q' h P H. unfold node_item. rewrite determine_same, identify_same.
    assert (A : option_map (fun q => it_cp (snd q)) q = option_map (fun q => it_cp (snd q)) q' /\ option_map fst q = option_map fst q') by (destruct P as [|i it it' []]; split; reflexivity).
    destruct A as [A1 A2]. rewrite A1, A2. cbv zeta. destruct (determine_NeXus_classpath E w' _ h _) as [cn|e]; [|constructor]. cbn [rbind].
    destruct (identify_object_type E w' (ONode h)); [|constructor]. cbn [rbind]. constructor. constructor. constructor. exact H.
  Qed.
  Lemma attr_item_same : forall i it it' v n, irel it it' -> irel (attr_item i it v n) (attr_item i it' v n).
  Proof. intros i it it' v n []. unfold attr_item. cbn [it_cp it_addr]. destruct (str_eqb c NON_NEXUS); constructor; constructor. Qed.
  Lemma attr_item_rel : forall S i it it' x y, irel it it' -> arel S x y -> irel (attr_item i it (snd x) (Some (fst x))) (attr_item i it' (snd y) (Some (fst y))).
  Proof.
    intros S i it it' x y R [n v|n v v' H1 _ _ _]; [apply attr_item_same; exact R|]. destruct R. unfold attr_item. cbn [it_cp it_addr fst snd ostr].
    destruct (str_eqb c NON_NEXUS); constructor; apply orel_free; split; exists n; (split; [reflexivity|]); (split; [exact H1|]); split; first [left; reflexivity | right; eexists; reflexivity].
  Qed.
  Lemma m_get_subject : forall q h, rooted h -> mrel eq (get_subject CC q h) (get_subject CD q h).
  Proof.
    intros q h H. unfold get_subject. cbn [c_env c_world].
    eapply m_bind with (V := prel).
    - destruct q as [pi|]; [|apply m_ret; constructor]. eapply m_bind; [apply m_item|]. intros a a' Ha. apply m_ret. constructor. exact Ha.
    - intros p1 p2 P. eapply m_bind; [apply m_lift; apply node_item_same; eassumption|]. intros it it' R.
      eapply m_bind; [apply m_register; exact R|]. intros i i2 <-.
      eapply m_bind; [eapply m_for_each2; [|apply sorted_rel; apply attrs_same]|intros; go].
      intros x y A. eapply m_bind; [apply m_register; eapply attr_item_rel; eassumption|]. intros. go.
  Qed.
  Lemma m_bind_lift : forall A B A' B' (V : A -> A' -> Prop) (W : B -> B' -> Prop) (r : res A) (r' : res A') f f',
    rrel V r r' -> (forall a a', r = Ok a -> r' = Ok a' -> V a a' -> mrel W (f a) (f' a')) -> mrel W (bind (lift r) f) (bind (lift r') f').
  Proof. intros A B A' B' V W r r' f f' [a a' H|e] Hf s s' S; unfold bind, lift; [apply (Hf a a' eq_refl eq_refl H s s' S)|]. split; [exact S|constructor]. Qed.
  Lemma m_catalog : forall n q h, rooted h -> mrel eq (group_address_catalog n CC q h) (group_address_catalog n CD q h).
  Proof.
    induction n as [|n IH]; intros q h H; cbn [group_address_catalog]; [go|].
    eapply m_bind; [apply m_get_subject; exact H|]. intros obj ? <-. eapply m_bind; [apply m_item|]. intros it it' R. items.
    eapply m_bind; [apply m_last|]. intros pp ? <-. cbn [c_world]. rewrite (links_same h). apply m_for_each. intros m.
    rewrite <- getitem_same. eapply m_bind_lift; [apply rrel_eq|]. intros y ? Y _ <-. rewrite group_same. destruct (isHdf5Group w' y); [apply IH|].
    - eapply getitem_rooted. exact Y.
    - eapply m_bind; [apply m_get_subject; eapply getitem_rooted; exact Y|]. intros. go.
  Qed.

  (** ** names *)
  Lemma m_first_match : forall o l, mrel eq (first_match CC o l) (first_match CD o l).
  Proof. intros o l. induction l as [|[k q] l IH]; cbn [first_match]; [go|]. cbn [c_env]. repeat first [exact IH | items; step; cbv beta]. Qed.
  Lemma m_match_key : forall o, mrel eq (validItemName_match_key CC o) (validItemName_match_key CD o).
  Proof. intros o. unfold validItemName_match_key. eapply m_bind; [apply m_first_match|]. intros; go. Qed.
  Lemma m_match_text : forall s, mrel eq (match_key_text CC s) (match_key_text CD s).
  Proof. intros s. apply m_match_key. Qed.
  Lemma m_match_name : forall n, mrel eq (match_key_name CC n) (match_key_name CD n).
  Proof. intros [n|]; [apply m_match_text|]. apply m_match_key. Qed.
  Lemma target_same : forall it it', irel it it' -> isNeXusLinkTarget CC it = isNeXusLinkTarget CD it'.
  Proof.
    intros it it' [q o o' n0 a cp x vs O]. unfold isNeXusLinkTarget. cbn [it_obj it_addr c_world c_env]. destruct O; try reflexivity. cbn [hobj_attrs rbind].
    rewrite (dget_same h (py "target")) by constructor. reflexivity.
  Qed.
  Lemma named_same : forall P o o', orel P o o' -> is_named_object CC o = is_named_object CD o'.
  Proof. intros P o o' O. unfold is_named_object. cbn [c_world]. same. rewrite (islink_same _ _ _ O). reflexivity. Qed.

  (** ** what reads the value of an item *)
  Definition knows (i : nat) : Prop := D i /\ forall it, Q it -> bound it.
  Lemma m_item_bound : forall i B B' (W : B -> B' -> Prop) f f', knows i ->
    (forall it it', irel it it' -> it_obj it = it_obj it' -> mrel W (f it) (f' it')) -> mrel W (bind (item i) f) (bind (item i) f').
  Proof.
    intros i B B' W f f' [Di Hb] H. eapply m_bind; [apply m_item_known|]. intros it it' [R K]. apply H; [exact R|]. apply bound_same; [exact R|]. auto.
  Qed.
  Lemma m_handle_class : forall i, knows i -> mrel eq (handle_NX_class CC i) (handle_NX_class CD i).
  Proof.
    intros i K. unfold handle_NX_class. apply m_item_bound; [exact K|]. intros it it' R O. rewrite O. cbn [c_patterns].
    eapply m_bind; [lifts|]. intros l ? <-. eapply m_bind; [apply m_first_match|]. intros; go.
  Qed.
  Lemma m_parent : forall it it', irel it it' -> mrel irel (parent_item it) (parent_item it').
  Proof. intros it it' R. items. unfold parent_item. cbn [it_parent]. go. Qed.
  Lemma irel_obj : forall it it', irel it it' -> orel (free (it_name it) (it_addr it) (it_cp it)) (it_obj it) (it_obj it').
  Proof. intros it it' R. destruct R. assumption. Qed.
  Lemma irel_addr : forall it it', irel it it' -> it_addr it = it_addr it'.
  Proof. intros it it' R. destruct R. reflexivity. Qed.
  Lemma m_axes : forall i, knows i -> mrel eq (axes_handler CC i) (axes_handler CD i).
  Proof.
    intros i K. unfold axes_handler. apply m_item_bound; [exact K|]. intros it it' R O. rewrite O. cbn [c_env].
    eapply m_bind; [lifts|]. intros ax ? <-. eapply m_bind; [apply m_parent; exact R|]. intros pit pit' P.
    eapply m_bind; [apply m_for_each|intros; go]. intros x. unfold axis_check. eapply m_bind; [apply m_match_key|]. intros k ? <-. destruct (name_verdict k) as [st txt].
    eapply m_bind; [apply m_record|]. intros _ _ _. destruct x; [go|]. cbn [c_world]. rewrite (hobj_get_same _ _ _ v (irel_obj _ _ P)). go.
  Qed.
  Lemma m_nxclass : forall i, knows i -> mrel eq (nxclass_handler CC i) (nxclass_handler CD i).
  Proof.
    intros i K. unfold nxclass_handler. apply m_item_bound; [exact K|]. intros it it' R O. rewrite O. cbn [c_env].
    eapply m_bind; [lifts|]. intros v ? <-. eapply m_bind; [apply m_get|]. intros s s' S. destruct S. cbn [st_classes]. destruct v; go.
  Qed.
  Lemma m_signal : forall i, knows i -> mrel eq (signal_handler CC i) (signal_handler CD i).
  Proof.
    intros i K. unfold signal_handler. apply m_item_bound; [exact K|]. intros it it' R O. rewrite O. cbn [c_env c_world].
    eapply m_bind; [lifts|]. intros ax ? <-. eapply m_bind; [apply m_parent; exact R|]. intros pit pit' P.
    pose proof (irel_obj _ _ P) as OP. same. destruct (hobj_isdataset w' (it_obj pit')); [go|].
    destruct (hobj_isgroup w' (it_obj pit')); [|unfold generic_handler; go].
    eapply m_bind; [apply m_match_key|]. intros k ? <-. destruct ax; [go|].
    eapply m_bind; [lifts|]. intros tn ? <-. destruct (name_verdict k). rewrite (hobj_in_same _ _ _ v OP). go.
  Qed.
  Lemma m_target_parts : forall i l a, mrel eq (target_parts CC i a l) (target_parts CD i a l).
  Proof.
    intros i. induction l as [|q l IH]; intros a; cbn [target_parts]; [go|]. eapply m_bind; [apply m_match_text|]. intros k ? <-.
    destruct k; [|go]. cbv zeta. cbn [c_world c_root]. eapply m_bind; [lifts|]. intros b ? <-. destruct b; [apply IH|go].
  Qed.
  Lemma m_target : forall i, knows i -> mrel eq (target_handler CC i) (target_handler CD i).
  Proof.
    intros i K. unfold target_handler. apply m_item_bound; [exact K|]. intros it it' R O. rewrite O. cbn [c_env c_world c_root].
    eapply m_bind; [lifts|]. intros t ? <-. destruct t as [|v]; [go|].
    destruct v; try solve [go]. destruct (negb (startswith s slash)); [go|].
    eapply m_bind; [apply m_target_parts|]. intros b ? <-. destruct b; [|go]. eapply m_bind; [lifts|]. intros; go.
  Qed.
  Lemma m_any_attribute : forall i, mrel eq (handle_any_attribute CC i) (handle_any_attribute CD i).
  Proof. intros i. unfold handle_any_attribute. eapply m_bind; [apply m_item|]. intros it it' R. items. eapply m_bind; [apply m_match_name|]. intros; go. Qed.
  Lemma m_groups_fields : forall i, mrel eq (handle_groups_and_fields CC i) (handle_groups_and_fields CD i).
  Proof. intros i. unfold handle_groups_and_fields. eapply m_bind; [apply m_item|]. intros it it' R. items. eapply m_bind; [apply m_match_name|]. intros; go. Qed.

  (** ** groups *)
  Lemma m_nx_attr : forall i n, mrel eq (validate_NX_class_attribute i n) (validate_NX_class_attribute i n).
  Proof. intros i n. unfold validate_NX_class_attribute. eapply m_bind; [apply m_get|]. intros s s' S. destruct S. cbn [st_classes]. cbv zeta. go. Qed.
  Lemma m_child_exists : forall t v it it' ai, irel it it' -> mrel eq (child_exists CC t v it ai) (child_exists CD t v it' ai).
  Proof. intros t v it it' ai R. unfold child_exists. items. cbn [c_world]. go. Qed.
  Lemma declared_attrs : forall cl n d, strip_classes cl = strip_classes cl0 -> dget n cl = Some d -> forall m, ~ declared cl0 m -> dget m (d_attrs d) = None.
  Proof.
    intros cl n d HC H m N1. pose proof (GroupRun.strip_get _ _ n HC) as X. rewrite H in X. destruct (dget n cl0) as [d0|] eqn:D0; [|discriminate].
    cbn [option_map] in X. assert (X1 : strip_def d = strip_def d0) by congruence. apply (f_equal d_attrs) in X1. unfold strip_def, set_d_groups in X1. cbn [d_attrs] in X1.
    rewrite X1. destruct (dget m (d_attrs d0)) as [spec|] eqn:S; [|reflexivity]. exfalso. apply N1. exists n, d0, spec. split; apply dget_In; assumption.
  Qed.
  Lemma m_group_attribute : forall (S : Prop) i d kv kv', (forall m, ~ declared cl0 m -> dget m (d_attrs d) = None) -> S -> arel S kv kv' ->
    mrel eq (group_attribute CC i d kv) (group_attribute CD i d kv').
  Proof.
    intros S i d kv kv' Hd HS A. unfold group_attribute. eapply m_bind; [apply m_item|]. intros it it' R. cbn [c_env]. cbv zeta.
    assert (B : it_addr it = it_addr it' /\ it_cp it = it_cp it') by (destruct R; split; reflexivity). destruct B as [A1 A2]. rewrite A1, A2.
    destruct A as [n v|n v v' H1 H2 [x H3] [x' H4]]; cbn [fst snd].
    - eapply m_bind; [lifts|]. intros u ? <-. eapply m_bind; [lifts|]. intros ad ? <-. eapply m_bind; [apply m_address|]. intros ai ? <-.
      eapply m_bind; [apply m_record|]. intros _ _ _. destruct (dget n (d_attrs d)) as [spec|]; [|go].
      eapply m_bind with (V := eq); [destruct (na_enums spec); go|]. intros _ _ _.
      repeat match goal with |- mrel _ (if ?b then _ else _) _ => destruct b end; try solve [go]; apply m_child_exists; exact R.
    - rewrite H3, H4. eapply m_bind with (V := fun _ _ => True); [apply m_lift; constructor; exact I|]. intros y y' _.
      eapply m_bind; [lifts|]. intros ad ? <-. eapply m_bind; [apply m_address|]. intros ai ? <-.
      eapply m_bind; [apply m_record|]. intros _ _ _. rewrite (Hd n (H2 HS)). go.
  Qed.
  Lemma m_group_child : forall h d n, mrel eq (group_child CC h d n) (group_child CD h d n).
  Proof. intros h d n. unfold group_child. cbn [c_world]. eapply m_bind; [lifts|]. intros o ? <-. go. Qed.
  Lemma m_base_field : forall i it it' n, irel it it' -> mrel eq (base_field CC i it n) (base_field CD i it' n).
  Proof. intros i it it' n R. unfold base_field. items. cbn [c_world]. go. Qed.
  Lemma m_base_group : forall i it it' cls g, irel it it' -> mrel eq (base_group CC i it cls g) (base_group CD i it' cls g).
  Proof. intros i it it' n g R. unfold base_group. items. cbn [c_world c_env]. go. Qed.
  Lemma m_base_items : forall i cls d, mrel eq (base_class_items_verify CC i cls d) (base_class_items_verify CD i cls d).
  Proof.
    intros i cls d. unfold base_class_items_verify. eapply m_bind; [apply m_item|]. intros it it' R.
    eapply m_bind; [apply m_for_each; intros; apply m_base_field; exact R|]. intros _ _ _. apply m_for_each. intros. apply m_base_group. exact R.
  Qed.
  Definition group_item (it : vitem) : Prop := forall h, it_obj it = ONode h -> is_group_obj w h = true.
  Lemma m_validate_group : forall i, D i -> (forall it, Q it -> group_item it) -> mrel eq (validate_group CC i) (validate_group CD i).
  Proof.
    intros i Di Hg. unfold validate_group. eapply m_bind; [apply m_item|]. intros it it' R.
    assert (A : it_cp it = it_cp it' /\ group_class it = group_class it') by (destruct R; split; reflexivity). destruct A as [A1 A2]. rewrite A1, A2.
    destruct (str_eqb (it_cp it') NON_NEXUS); [go|]. eapply m_bind; [lifts|]. intros n ? <-.
    eapply m_bind; [apply m_nx_attr|]. intros _ _ _. eapply m_bind; [apply m_get|]. intros s s' S. destruct S as [l l' a c f k cl H HC HL HK]. cbn [st_classes].
    destruct (dget n cl) as [d|] eqn:Dd; [|go].
    eapply m_bind with (V := eq).
    { unfold verify_group_attributes. cbn [c_world]. eapply m_bind; [apply m_item_known|]. intros it2 it2' [R2 K2].
      eapply m_bind; [apply m_lift; eapply hobj_attrs_same; apply irel_obj; exact R2|]. intros at1 at2 HA.
      eapply m_for_each2; [|apply sorted_rel; exact HA]. intros x y A. eapply m_group_attribute; [| |exact A].
      - eapply declared_attrs; eassumption.
      - intros h Hh. apply (Hg it2); auto. }
    intros _ _ _. eapply m_bind with (V := eq).
    { unfold verify_group_children. cbn [c_world]. eapply m_bind; [apply m_item|]. intros it2 it2' R2. destruct R2 as [q o o' nn aa cc xx vv O]. cbn [it_obj].
      destruct O as [h Hh| |]; [|go|go]. rewrite (links_same h). apply m_for_each. intros. apply m_group_child. }
    intros _ _ _. eapply m_bind; [apply m_base_items|]. intros. go.
  Qed.

  (** ** application definitions *)
  Lemma find_enum_same : forall l h, find_enum E w h l = find_enum E w' h l.
  Proof.
    induction l as [|e l IH]; intros h; [reflexivity|]. cbn [find_enum]. rewrite IH. destruct h as [h|]; [|reflexivity]. unfold field_value. rewrite read_same. reflexivity.
  Qed.
  Lemma m_ad_field : forall i it it' n fs, irel it it' -> mrel eq (ad_field CC i it n fs) (ad_field CD i it' n fs).
  Proof.
    intros i it it' n fs R. unfold ad_field. cbn [c_world c_env c_field_minOccurs]. cbv zeta. rewrite <- (hobj_getopt_same _ _ _ (fst fs) (irel_obj _ _ R)).
    eapply m_bind_lift; [apply rrel_eq|]. intros h ? G _ <-.
    eapply m_bind with (V := irel).
    { apply m_lift. destruct h as [h|]; cbn [field_item]; [apply node_item_same; [constructor; exact R|]|constructor; apply attr_item_same; exact R].
      destruct (it_obj it) as [g|v]; [|discriminate G]. cbn [hobj_getopt] in G. destruct (is_group_obj w g); [|discriminate G].
      unfold getopt in G. destruct (getitem w g (fst fs)) as [y|e] eqn:Gy; [|destruct e; discriminate G]. injection G as ->. eapply getitem_rooted. exact Gy. }
    intros vi vi' V. eapply m_bind; [apply m_new; exact V|]. intros v ? <-.
    eapply m_bind; [apply m_record|]. intros _ _ _. destruct (nf_enums (snd fs)) as [|e l]; [go|]. rewrite find_enum_same. go.
  Qed.
  Lemma definition_name_same : forall it it', irel it it' -> definition_name CC it = definition_name CD it'.
  Proof.
    intros it it' R. unfold definition_name. cbn [c_world c_env]. rewrite (hobj_getitem_same _ _ _ (py "definition") (irel_obj _ _ R)).
    destruct (hobj_getitem w' (it_obj it') (py "definition")); [|reflexivity]. cbn [rbind]. rewrite read_same. reflexivity.
  Qed.
  Lemma m_app : forall i, mrel eq (application_definition_verify CC i) (application_definition_verify CD i).
  Proof.
    intros i. unfold application_definition_verify. eapply m_bind; [apply m_item|]. intros it it' R. rewrite (definition_name_same _ _ R).
    eapply m_bind; [lifts|]. intros n ? <-. eapply m_bind; [apply m_get|]. intros s s' S. destruct S as [l l' ad c f kk cl H HC HL HK]. cbn [st_classes]. cbv zeta.
    eapply m_bind; [apply m_record|]. intros _ _ _. destruct (dget n cl) as [d|]; [|go].
    eapply m_bind with (V := eq); [go|]. intros _ _ _. eapply m_bind; [apply m_record|]. intros _ _ _.
    destruct (d_groups d) as [|[kg g] l0]; [go|]. apply m_for_each. intros x. apply m_ad_field. exact R.
  Qed.
  Lemma m_check_definition : forall i, mrel eq (check_definition CC i) (check_definition CD i).
  Proof. intros i. unfold check_definition. eapply m_bind; [apply m_item|]. intros it it' R. items. destruct q; [apply m_app|go]. Qed.

  (** ** default plot *)
  Lemma points_same : forall it it' n t, irel it it' -> read_anyway n -> attribute_points_at_target CC it n t = attribute_points_at_target CD it' n t.
  Proof.
    intros it it' n t R Rn. unfold attribute_points_at_target. cbn [c_world c_env]. destruct R as [q o o' nn aa cc xx vv O]. cbn [it_obj].
    destruct O as [h Hh| |]; try reflexivity. cbn [hobj_attrs rbind node_name hobj_in]. rewrite (dget_same h n Rn). destruct (dget n (attrs_of w' h)) as [x|]; [|reflexivity].
    destruct (build_h5_address E (h_name h) x); [|reflexivity]. cbn [rbind]. rewrite py_in_same. reflexivity.
  Qed.
  Lemma m_v3_item : forall i, mrel eq (v3_item CC i) (v3_item CD i).
  Proof.
    intros i. unfold v3_item. cbn [c_world c_env]. eapply m_bind; [apply m_item|]. intros it it' R. rewrite (irel_addr _ _ R).
    eapply m_bind; [lifts|]. intros [en da] ? <-.
    eapply m_bind; [apply m_address|]. intros di ? <-. eapply m_bind; [apply m_item|]. intros nd nd' RD.
    eapply m_bind; [apply m_address|]. intros ei ? <-. eapply m_bind; [apply m_item|]. intros ne ne' RE.
    eapply m_bind; [apply m_address|]. intros ri ? <-. eapply m_bind; [apply m_item|]. intros nr nr' RR.
    rewrite (node_name_same _ _ _ (irel_obj _ _ RD)), (irel_addr _ _ RE), (irel_addr _ _ RD).
    eapply m_bind; [apply m_lift; eapply hobj_attrs_same; apply irel_obj; exact RD|]. intros at1 at2 HA.
    replace (dgetitem (py "signal") at1) with (dgetitem (py "signal") at2) by (unfold dgetitem; rewrite (dget_rel _ _ _ _ HA); [reflexivity|intros X; apply X; constructor]).
    eapply m_bind; [lifts|]. intros ptr ? <-. eapply m_bind; [lifts|]. intros nm ? <-.
    eapply m_bind; [lifts|]. intros sa ? <-. eapply m_bind; [lifts|]. intros ea ? <-. eapply m_bind; [lifts|]. intros dd ? <-.
    rewrite (points_same _ _ (py "default") ea RR), (points_same _ _ (py "default") dd RE), (points_same _ _ (py "signal") sa RD) by constructor.
    eapply m_bind; [lifts|]. intros t1 ? <-. eapply m_bind; [lifts|]. intros t2 ? <-. eapply m_bind; [lifts|]. intros t3 ? <-.
    destruct (negb t3); [go|]. eapply m_bind; [apply m_address|]. intros si ? <-. eapply m_bind; [apply m_item|]. intros sit sit' RS.
    cbv zeta. rewrite (isdataset_same _ _ _ (irel_obj _ _ RS)). go.
  Qed.
  Lemma m_v3_loop : forall l a n, mrel eq (v3_loop CC a n l) (v3_loop CD a n l).
  Proof.
    induction l as [|i l IH]; intros a n; cbn [v3_loop].
    - destruct n as [|i [|j n]]; [go| |go]. eapply m_bind; [apply m_item|]. intros it it' R. rewrite (irel_addr _ _ R). go.
    - eapply m_bind; [apply m_v3_item|]. intros r ? <-. destruct r; [go|apply IH].
  Qed.
  Lemma m_v2_item : forall r i, knows i -> mrel eq (v2_item CC r i) (v2_item CD r i).
  Proof.
    intros r i K. unfold v2_item. cbn [c_world]. apply m_item_bound; [exact K|]. intros it it' R O. eapply m_bind; [apply m_parent; exact R|]. intros pit pit' P.
    cbv zeta. rewrite (isdataset_same _ _ _ (irel_obj _ _ P)), O, (irel_addr _ _ R). destruct (hobj_isdataset w' (it_obj pit')); [|go].
    eapply m_bind; [lifts|]. intros ad ? <-. destruct (str_eqb (hobj_str (it_obj it')) (py "1")); [|go].
    eapply m_bind; [apply m_record|]. intros _ _ _. eapply m_bind; [apply m_parent; exact P|]. intros gp gp' G. rewrite (irel_addr _ _ G). go.
  Qed.
  Lemma m_v2_collect : forall l r, (forall i, In i l -> knows i) -> mrel eq (v2_collect CC r l) (v2_collect CD r l).
  Proof.
    induction l as [|i l IH]; intros r K; cbn [v2_collect]; [go|]. eapply m_bind; [apply m_v2_item; apply K; left; reflexivity|]. intros r2 ? <-. apply IH.
    intros j J. apply K. right. exact J.
  Qed.
  Lemma m_v2_decide : forall l a, mrel eq (v2_decide a l) (v2_decide a l).
  Proof.
    induction l as [|[g [|i [|j x]]] l IH]; intros a; cbn [v2_decide]; [go|apply IH| |].
    - eapply m_bind; [apply m_item|]. intros it it' R. eapply m_bind; [apply m_parent; exact R|]. intros pit pit' P. rewrite (irel_addr _ _ R), (irel_addr _ _ P).
      eapply m_bind; [lifts|]. intros ad ? <-. eapply m_bind; [apply m_record|]. intros _ _ _. apply IH.
    - eapply m_bind; [apply m_item|]. intros it it' R. eapply m_bind; [apply m_parent; exact R|]. intros pit pit' P.
      eapply m_bind; [lifts|]. intros ad ? <-. eapply m_bind with (V := eq); [destruct P; cbn [it_parent]; go|]. intros gi ? <-.
      eapply m_bind; [apply m_record|]. intros _ _ _. apply IH.
  Qed.
  End Known.

  (** ** everything *)
  Definition nobody (i : nat) : Prop := False.
  Definition anything (it : vitem) : Prop := True.
  Lemma any_stable : stable anything.
  Proof. intros it v H. exact H. Qed.
  Lemma group_stable : stable group_item.
  Proof. intros it v H. exact H. Qed.
  Notation prelate := (mrel nobody anything).
  Lemma srel_weak : forall D Q s s', srel D Q s s' -> srel nobody anything s s'.
  Proof. intros D Q s s' [l l' a c f k cl H HC HL HK]. constructor; auto. intros i []. Qed.
  Lemma srel_focus : forall D Q s s', srel nobody anything s s' -> known D Q (st_items s) -> srel D Q s s'.
  Proof. intros D Q s s' [l l' a c f k cl H HC HL HK] K. constructor; auto. Qed.
  Lemma m_focus : forall i B B' (W : B -> B' -> Prop) f f',
    (forall it it', irel it it' -> exists Q, stable Q /\ Q it /\ mrel (eq i) Q W (f it) (f' it')) -> prelate W (bind (item i) f) (bind (item i) f').
  Proof.
    intros i B B' W f f' H s s' S. pose proof S as S0. destruct S as [l l' a c g k cl F HC HL HK]. unfold bind, item. cbn [st_items]. pose proof (Forall2_nth _ _ _ _ _ F i) as N1.
    destruct (nth_error l i) as [it|] eqn:L1, (nth_error l' i) as [it'|]; try contradiction; [|split; [exact S0|constructor]].
    destruct (H it it' N1) as (Q & HQ & Qi & R). destruct (R (mkSt l a c g k cl) (mkSt l' a c g k cl)) as [S2 R2]; [|split; [eapply srel_weak; exact S2|exact R2]].
    apply srel_focus; [exact S0|]. intros j <-. exists it. split; assumption.
  Qed.

  Lemma bound_class : forall it a, it_addr it = Some a -> endswith a (py "@NX_class") = true -> bound it.
  Proof.
    intros it a A H [[m (N1 & Pm & Ad & _)]]. apply endswith_spec in H. destruct H as [b ->]. rewrite A in Ad. destruct Ad as [Ad|[c Ad]]; [discriminate|].
    injection Ad as Ad. symmetry in Ad. apply (at_end c m (py "NX_class") b) in Ad; [|intros X; vm_compute in X; intuition discriminate].
    apply Pm. destruct Ad as [->|[c2 ->]]; [constructor|apply (reads_like_class c2)].
  Qed.
  Lemma bound_signal : forall it, endswith (it_cp it) (py "@signal") = true -> bound it.
  Proof.
    intros it H [[m (N1 & Pm & _ & Cp)]]. destruct Cp as [Cp|[c Cp]]; rewrite Cp in H; [vm_compute in H; discriminate|].
    apply endswith_spec in H. destruct H as [b H]. apply (at_end c m (py "signal") b) in H; [|intros X; vm_compute in X; intuition discriminate].
    apply Pm. destruct H as [->|[c2 ->]]; [constructor|apply (reads_like_signal c2)].
  Qed.
  Lemma bound_name : forall it n, it_name it = Some n -> read_anyway n -> bound it.
  Proof. intros it n H R [[m (N1 & Pm & _)]]. rewrite H in N1. injection N1 as <-. contradiction. Qed.
  Lemma knows_bound : forall i, knows (eq i) bound i.
  Proof. intros i. split; auto. Qed.

  Lemma m_item_name : forall i, prelate eq (item_name_verify CC i) (item_name_verify CD i).
  Proof.
    intros i. unfold item_name_verify. apply m_focus. intros it it' R.
    destruct (match it_addr it with Some a => endswith a (py "@NX_class") | None => false end) eqn:A.
    - exists bound. split; [exact bound_stable|]. split; [destruct (it_addr it) as [a|] eqn:Ha; [|discriminate]; eapply bound_class; eassumption|].
      unfold name_done. destruct R as [q o o' n a c x v O]. cbn [it_parent it_obj it_name it_addr it_cp it_nxclass it_vals] in *.
      destruct q as [pi|]; [|apply m_ret; reflexivity]. destruct (match n with Some n0 => dmem n0 v | None => false end); [apply m_ret; reflexivity|]. rewrite A.
      apply m_handle_class; [exact bound_stable|apply knows_bound].
    - exists anything. split; [exact any_stable|]. split; [exact I|].
      unfold name_done. destruct R as [q o o' n a c x v O]. cbn [it_parent it_obj it_name it_addr it_cp it_nxclass it_vals] in *.
      destruct q as [pi|]; [|apply m_ret; reflexivity]. destruct (match n with Some n0 => dmem n0 v | None => false end); [apply m_ret; reflexivity|]. rewrite A.
      destruct (has_char ch_at c).
      { eapply m_bind; [apply m_item|]. intros pit pit' R. eapply m_bind; [apply m_lift_eq; apply target_same; exact R|]. intros b ? <-.
        destruct b; [apply m_ret; reflexivity|]. apply m_any_attribute. exact any_stable. }
      eapply m_bind; [apply m_lift_eq; eapply named_same; eassumption|]. intros b ? <-. destruct b; [apply m_groups_fields; exact any_stable|].
      destruct (str_eqb c NON_NEXUS); [apply m_ret; reflexivity|]. apply m_record. exact any_stable.
  Qed.
  Lemma m_attribute : forall i, prelate eq (attribute_verify CC i) (attribute_verify CD i).
  Proof.
    intros i. unfold attribute_verify. apply m_focus. intros it it' R.
    assert (A : it_addr it = it_addr it' /\ it_name it = it_name it') by (destruct R; split; reflexivity). destruct A as [A1 A2]. rewrite <- A1, <- A2.
    assert (T : forall (m m' : M unit), mrel (eq i) anything eq m m' -> exists Q, stable Q /\ Q it /\ mrel (eq i) Q eq m m').
    { intros m m' H. exists anything. split; [exact any_stable|]. split; [exact I|exact H]. }
    assert (K : forall (m m' : M unit) n, it_name it = Some n -> read_anyway n -> mrel (eq i) bound eq m m' -> exists Q, stable Q /\ Q it /\ mrel (eq i) Q eq m m').
    { intros m m' n H1 H2 H. exists bound. split; [exact bound_stable|]. split; [eapply bound_name; eassumption|exact H]. }
    destruct (it_addr it) as [a|]; [|apply T; apply m_ret; reflexivity]. destruct (negb (has_char ch_at a)); [apply T; apply m_ret; reflexivity|].
    destruct (it_name it) as [n|]; [|apply T; apply m_raise].
    destruct (str_eqb_spec n (py "NX_class")) as [->|_]; [eapply K; [reflexivity|constructor|]; apply m_nxclass; [exact bound_stable|apply knows_bound]|].
    destruct (str_eqb_spec n (py "target")) as [->|_]; [eapply K; [reflexivity|constructor|]; apply m_target; [exact bound_stable|apply knows_bound]|].
    destruct (str_eqb_spec n (py "signal")) as [->|_]; [eapply K; [reflexivity|constructor|]; apply m_signal; [exact bound_stable|apply knows_bound]|].
    destruct (str_eqb_spec n (py "axes")) as [->|_]; [eapply K; [reflexivity|constructor|]; apply m_axes; [exact bound_stable|apply knows_bound]|].
    apply T. apply m_record. exact any_stable.
  Qed.
  Lemma m_check_item : forall i, prelate eq (check_item CC i) (check_item CD i).
  Proof. intros i. unfold check_item. eapply m_bind; [apply m_item_name|]. intros _ _ _. apply m_attribute. Qed.
  Lemma m_check_group : forall i, prelate eq (check_group CC i) (check_group CD i).
  Proof.
    intros i. unfold check_group. cbn [c_world]. apply m_focus. intros it it' R. pose proof (irel_obj _ _ R) as O.
    rewrite <- (isgroup_same _ _ _ O), <- (isfile_same _ _ _ O). destruct (hobj_isgroup w (it_obj it) || hobj_isfile (it_obj it)) eqn:G.
    - exists group_item. split; [exact group_stable|]. split; [|apply m_validate_group; auto; exact group_stable].
      intros h Hh. rewrite Hh in G, O. cbn [hobj_isgroup hobj_isfile] in G. inversion O as [h0 Hr| |]; subst. unfold isHdf5Group, isHdf5FileObject in G.
      destruct (is_group_obj w h) eqn:X; [reflexivity|]. cbn in G. specialize (Hr G). congruence.
    - exists anything. split; [exact any_stable|]. split; [exact I|apply m_ret; reflexivity].
  Qed.
  Lemma m_v2 : prelate eq (default_plot_v2 CC) (default_plot_v2 CD).
  Proof.
    intros s s' S. assert (Ec : st_cp s = st_cp s') by (destruct S; reflexivity).
    assert (U : forall c t, default_plot_v2 c t = (let* review := v2_collect c [] (signal_items (st_cp t)) in v2_decide None review) t) by reflexivity.
    rewrite !U, <- Ec. clear U.
    set (l := signal_items (st_cp s)). assert (S1 : srel (fun i => In i l) bound s s').
    { apply srel_focus; [exact S|]. intros i Hi. subst l. unfold signal_items in Hi. apply in_flat_map in Hi. destruct Hi as [[k ns] [I1 I2]]. cbn [fst snd] in I2.
      destruct (endswith k (py "@signal")) eqn:Ek; [|destruct I2]. destruct S as [l0 l' a c g kk cl F HC HL HK]. cbn [st_cp st_items] in *.
      destruct (HL k ns i I1 I2) as [it [L X]]. exists it. split; [exact L|]. apply bound_signal. rewrite X. exact Ek. }
    assert (X : mrel (fun i => In i l) bound eq (let* review := v2_collect CC [] l in v2_decide None review) (let* review := v2_collect CD [] l in v2_decide None review)).
    { eapply m_bind; [apply m_v2_collect; [exact bound_stable|]; intros i Hi; split; auto|]. intros rv ? <-. apply m_v2_decide. exact bound_stable. }
    destruct (X s s' S1) as [S2 R2]. split; [eapply srel_weak; exact S2|exact R2].
  Qed.
  Lemma m_default_plot : prelate eq (default_plot_verify CC) (default_plot_verify CD).
  Proof.
    unfold default_plot_verify. eapply m_bind; [apply m_address|]. intros obj ? <-. eapply m_bind with (V := eq).
    - cbn [try_methods]. eapply m_bind with (V := eq); [unfold default_plot_v3; eapply m_bind; [apply m_classpath|]; intros l ? <-; apply m_v3_loop; exact any_stable|].
      intros a ? <-. destruct a; [apply m_ret; reflexivity|]. eapply m_bind with (V := eq); [exact m_v2|].
      intros a ? <-. destruct a; [apply m_ret; reflexivity|]. unfold default_plot_v1. eapply m_bind with (V := eq); [apply m_ret; reflexivity|]. intros a ? <-. destruct a; apply m_ret; reflexivity.
    - intros r ? <-. destruct r as [[k ad]|]; [apply m_record; exact any_stable|]. eapply m_bind; [apply m_get|]. intros s s' S. destruct S. cbn [st_classes].
      eapply m_bind; [apply m_lift_eq; reflexivity|]. intros st ? <-. apply m_record. exact any_stable.
  Qed.
  Lemma m_validate : prelate eq (validate_open CC) (validate_open CD).
  Proof.
    unfold validate_open. eapply m_bind; [unfold build_address_catalog; cbn [c_reclimit c_root]; apply m_catalog; intros _; exact Hroot|]. intros _ _ _.
    eapply m_bind with (V := eq).
    { unfold step1. eapply m_bind; [apply m_get|]. intros s s' S. destruct S. cbn [st_cp]. apply m_for_each. intros. apply m_check_item. }
    intros _ _ _. eapply m_bind with (V := eq).
    { unfold step2. eapply m_bind; [apply m_get|]. intros s s' S. destruct S. cbn [st_addr]. apply m_for_each. intros. apply m_check_group. }
    intros _ _ _. eapply m_bind with (V := eq).
    { unfold step3. eapply m_bind; [apply m_get|]. intros s s' S. destruct S. cbn [st_cp]. apply m_for_each. intros. apply m_check_definition. exact any_stable. }
    intros _ _ _. apply m_default_plot.
  Qed.

  Lemma any_entry_same : forall names h, any_entry E w h names = any_entry E w' h names.
  Proof.
    assert (X : forall h n, (dor t <- getitem w h n ; isNeXusGroup E w t (py "NXentry")) = (dor t <- getitem w' h n ; isNeXusGroup E w' t (py "NXentry"))).
    { intros h n. rewrite getitem_same. destruct (getitem w' h n) as [t|e]; [|reflexivity]. cbn [rbind]. unfold isNeXusGroup. rewrite group_same, (dget_same t (py "NX_class")) by constructor. reflexivity. }
    induction names as [|n names IH]; intros h; [reflexivity|]. cbn [any_entry]. rewrite X. destruct (dor t <- _ ; _) as [[|]|e]; try reflexivity; [apply IH|]. destruct e; try reflexivity. apply IH.
  Qed.
End Extra.

Theorem validate_extra : forall u w w' v p v1 r1 v2 r2, same_but_extra (u_env u) (st_classes (v_st v)) w w' -> root_group w p ->
  validate u w v p = (v1, r1) -> validate u w' v p = (v2, r2) -> r1 = r2 /\ same_results v1 v2.
Proof.
  intros u w w' v p v1 r1 v2 r2 H G V1 V2.
  assert (T : forall f, dget p w = Some (FHdf5 f) -> is_group_obj w (open_root p) = true).
  { intros f Hf. destruct (G f Hf) as (links & at1 & rest & ->). unfold is_group_obj, obj_of, get_obj. cbn [open_root h_file h_oid]. rewrite Hf. reflexivity. }
  unfold validate in V1, V2. pose proof (H p) as D. destruct (dget p w) as [[f|]|]; inversion D as [E1 E2|E1 E2|g g' Hf E1 E2]; rewrite <- E2 in V2.
  - pose proof (m_validate (u_env u) (st_classes (v_st v)) w w' p (u_patterns u) (u_reclimit u) (u_field_minOccurs u) H (T f eq_refl)) as X.
    destruct (X (fresh_state (st_classes (v_st v))) (fresh_state (st_classes (v_st v)))) as [S1 R1].
    { constructor; [constructor|reflexivity|intros k ns i []|intros i []]. }
    unfold mk_ctx in V1, V2. destruct (validate_open _ _) as [s1 x1]. destruct (validate_open (mkCtx _ w' _ _ _ _) _) as [s2 x2]. cbn [fst snd] in S1, R1.
    inversion V1; subst. inversion V2; subst. split; [destruct R1; [subst; reflexivity|reflexivity]|].
    destruct S1 as [l l' a c ff k cl HF HC HL HK]. clear - HF. unfold same_results. cbn. repeat split; induction HF as [|y z l l' H0 H1 IH]; cbn [map]; try reflexivity; destruct H0; cbn; f_equal; exact IH.
  - inversion V1; subst. inversion V2; subst. split; [reflexivity|]. repeat split.
  - inversion V1; subst. inversion V2; subst. split; [reflexivity|]. repeat split.
Qed.

Theorem nexus_extra : forall E cl w w' p, same_but_extra E cl w w' -> isNeXusFile E w p = isNeXusFile E w' p.
Proof.
  intros E cl w w' p H. unfold isNeXusFile. pose proof (H p) as D. destruct (dget p w) as [[f|]|]; inversion D as [E1 E2|E1 E2|g g' Hf E1 E2]; try reflexivity.
  rewrite (links_same E cl w w' H). rewrite (any_entry_same E cl w w' H). reflexivity.
Qed.
