(** * Runs on two files with the same content, or the same but for data *)

From Coq Require Import List NArith ZArith Bool String Lia Permutation.
From Verif Require Import PyBase PyFacts Regex Utf8 H5 Findings Nxdl Core Catalog ItemName AttributeCheck
  GroupChecks AppDef DefaultPlot Validate H5Tree CheckFacts Spec_Copy Spec_Data.
From Verif Require GroupRun.
Import ListNotations.

Section Copy.
  Variables (w w' : world) (F : pystr -> pystr -> Prop).
  Hypothesis F_same : forall f g, F f g -> file_but_data (dget f w) (dget g w').
  Hypothesis F_link : forall f g objs o links n x p, F f g -> dget f w = Some (FHdf5 objs) -> In o objs -> ob_kind o = KGroup links ->
    In (n, LExt x p) links -> F x x.

  Inductive hrel : handle -> handle -> Prop :=
  | hrel_intro : forall f g o n b, F f g -> hrel (mkH f o n b) (mkH g o n b).
  Inductive orel : hobj -> hobj -> Prop :=
  | orel_node : forall h h', hrel h h' -> orel (ONode h) (ONode h')
  | orel_val : forall v, orel (OVal v) (OVal v).
  Inductive rrel {A B} (V : A -> B -> Prop) : res A -> res B -> Prop :=
  | rrel_ok : forall a b, V a b -> rrel V (Ok a) (Ok b)
  | rrel_exn : forall e, rrel V (Exn e) (Exn e).

  Lemma rrel_eq : forall A (r : res A), rrel eq r r.
  Proof. intros A [a|e]; constructor; reflexivity. Qed.
  Lemma rrel_bind : forall A B A' B' (V : A -> A' -> Prop) (W : B -> B' -> Prop) m m' f f',
    rrel V m m' -> (forall a a', V a a' -> rrel W (f a) (f' a')) -> rrel W (rbind m f) (rbind m' f').
  Proof. intros A B A' B' V W m m' f f' H Hf. destruct H; simpl; [apply Hf; auto|constructor]. Qed.

  (** ** HDF5 *)
  Inductive obj_alike : option h5obj -> option h5obj -> Prop :=
  | alike_none : obj_alike None None
  | alike_some : forall o o', but_data o o' -> obj_alike (Some o) (Some o').
  Lemma get_obj_same : forall f g o, F f g -> obj_alike (get_obj w f o) (get_obj w' g o).
  Proof.
    intros f g o H. unfold get_obj. destruct (F_same _ _ H) as [| |a b H2]; try constructor.
    revert o. induction H2 as [|x y a b Hx Hl IH]; intros [|o]; cbn [nth_error]; try constructor; auto.
  Qed.
  Lemma obj_same : forall h h', hrel h h' -> obj_alike (obj_of w h) (obj_of w' h').
  Proof. intros h h' H. destruct H as [f g o n b H]. unfold obj_of. cbn [h_file h_oid]. apply get_obj_same. exact H. Qed.
  Lemma attrs_same : forall h h', hrel h h' -> attrs_of w h = attrs_of w' h'.
  Proof. intros h h' H. unfold attrs_of. destruct (obj_same _ _ H) as [|o o' []]; reflexivity. Qed.
  Lemma links_same : forall h h', hrel h h' -> links_of w h = links_of w' h'.
  Proof. intros h h' H. unfold links_of. destruct (obj_same _ _ H) as [|o o' []]; reflexivity. Qed.
  Lemma group_obj_same : forall h h', hrel h h' -> is_group_obj w h = is_group_obj w' h'.
  Proof. intros h h' H. unfold is_group_obj. destruct (obj_same _ _ H) as [|o o' []]; reflexivity. Qed.
  Lemma dataset_same : forall h h', hrel h h' -> isHdf5Dataset w h = isHdf5Dataset w' h'.
  Proof. intros h h' H. unfold isHdf5Dataset. destruct (obj_same _ _ H) as [|o o' []]; reflexivity. Qed.
  Lemma isfile_same : forall h h', hrel h h' -> h_isfile h = h_isfile h'.
  Proof. intros h h' H. destruct H. reflexivity. Qed.
  Lemma name_same : forall h h', hrel h h' -> h_name h = h_name h'.
  Proof. intros h h' H. destruct H. reflexivity. Qed.
  Lemma oid_same : forall h h', hrel h h' -> h_oid h = h_oid h'.
  Proof. intros h h' H. destruct H. reflexivity. Qed.
  Lemma file_same : forall h h', hrel h h' -> F (h_file h) (h_file h').
  Proof. intros h h' H. destruct H. assumption. Qed.
  Lemma group_same : forall h h', hrel h h' -> isHdf5Group w h = isHdf5Group w' h'.
  Proof. intros h h' H. unfold isHdf5Group. rewrite (group_obj_same _ _ H), (isfile_same _ _ H). reflexivity. Qed.

  Lemma link_files : forall h h' n x p, hrel h h' -> dget n (links_of w h) = Some (LExt x p) -> F x x.
  Proof.
    intros h h' n x p H E. destruct H as [f g o m b H]. unfold links_of, obj_of, get_obj in E. cbn [h_file h_oid] in E.
    destruct (dget f w) as [[objs|]|] eqn:D; try discriminate E. destruct (nth_error objs o) as [ob|] eqn:N1; [|discriminate E].
    destruct (ob_kind ob) as [links| |] eqn:K; try discriminate E. apply nth_error_In in N1. apply dget_In in E.
    eapply F_link; eauto.
  Qed.

  Lemma resolve_same : forall nl cs h h', hrel h h' -> rrel hrel (resolve nl w h cs) (resolve nl w' h' cs).
  Proof.
    induction nl as [|nl IHn]; induction cs as [|c cs IHc]; intros h h' H; try (constructor; exact H);
      cbn [resolve]; rewrite <- (links_same _ _ H); destruct (dget c (links_of w h)) as [[o|p|x p]|] eqn:L; try constructor.
    - destruct (get_obj_same _ _ o (file_same _ _ H)); [constructor|].
      rewrite <- (name_same _ _ H). apply IHc. constructor. apply file_same. exact H.
    - destruct (get_obj_same _ _ o (file_same _ _ H)); [constructor|].
      rewrite <- (name_same _ _ H). apply IHc. constructor. apply file_same. exact H.
    - assert (R : hrel (if is_abs p then root_handle (h_file h) else h) (if is_abs p then root_handle (h_file h') else h')).
      { destruct (is_abs p); [constructor; apply file_same; exact H|exact H]. }
      specialize (IHn (path_comps p) _ _ R). destruct IHn as [t t' Ht|e]; [|constructor].
      rewrite <- (name_same _ _ H), <- (oid_same _ _ Ht). apply IHc. constructor. apply file_same. exact Ht.
    - pose proof (link_files _ _ _ _ _ H L) as Fx. destruct (get_obj_same _ _ 0 Fx); [constructor|].
      assert (R : hrel (root_handle x) (root_handle x)) by (constructor; exact Fx).
      specialize (IHn (path_comps p) _ _ R). destruct IHn as [t t' Ht|e]; [|constructor].
      rewrite <- (name_same _ _ Ht), <- (oid_same _ _ Ht). apply IHc. constructor. apply file_same. exact Ht.
  Qed.

  Lemma start_same : forall h h' b, hrel h h' ->
    hrel (if b : bool then root_handle (h_file h) else mkH (h_file h) (h_oid h) (h_name h) false)
         (if b then root_handle (h_file h') else mkH (h_file h') (h_oid h') (h_name h') false).
  Proof. intros h h' [] H; destruct H; constructor; assumption. Qed.

  Lemma getitem_same : forall h h' n, hrel h h' -> rrel hrel (getitem w h n) (getitem w' h' n).
  Proof. intros h h' [|a n] H; [constructor|]. unfold getitem. cbv zeta. apply resolve_same. apply start_same. exact H. Qed.
  Inductive oprel {A B} (V : A -> B -> Prop) : option A -> option B -> Prop :=
  | oprel_some : forall a b, V a b -> oprel V (Some a) (Some b)
  | oprel_none : oprel V None None.
  Lemma getopt_same : forall h h' n, hrel h h' -> rrel (oprel hrel) (getopt w h n) (getopt w' h' n).
  Proof.
    intros h h' n H. unfold getopt. destruct (getitem_same h h' n H) as [t t' Ht|e]; [constructor; constructor; exact Ht|].
    destruct e; constructor; constructor.
  Qed.
  Lemma path_valid_same : forall cs h h', hrel h h' -> path_valid w h cs = path_valid w' h' cs.
  Proof.
    induction cs as [|c cs IH]; intros h h' H; [reflexivity|]. cbn [path_valid]. rewrite <- (links_same _ _ H). destruct cs as [|c2 cs]; [reflexivity|].
    destruct (dmem c (links_of w h)); [|reflexivity].
    destruct (resolve_same max_nlinks [c] _ _ H) as [t t' Ht|e]; [|reflexivity]. rewrite <- (group_obj_same _ _ Ht).
    destruct (is_group_obj w t); [|reflexivity]. apply IH. exact Ht.
  Qed.
  Lemma contains_same : forall h h' n, hrel h h' -> contains w h n = contains w' h' n.
  Proof. intros h h' [|a n] H; [reflexivity|]. unfold contains. cbv zeta. apply path_valid_same. apply start_same. exact H. Qed.
  Lemma py_in_same : forall h h' v, hrel h h' -> py_in w h v = py_in w' h' v.
  Proof.
    intros h h' v H. unfold py_in. destruct (obj_same _ _ H) as [|o o' [o0|d d' at_ A]]; [reflexivity| |].
    - destruct (ob_kind o0); try reflexivity. destruct v; try reflexivity. rewrite (contains_same _ _ _ H). reflexivity.
    - cbn [ob_kind]. destruct d, d'; cbn [array] in A; try reflexivity; tauto.
  Qed.
  Lemma islink_same : forall h h', hrel h h' -> isHdf5Link w h = isHdf5Link w' h'.
  Proof.
    intros h h' H. unfold isHdf5Link. rewrite <- (name_same _ _ H).
    assert (R : hrel (root_handle (h_file h)) (root_handle (h_file h'))) by (constructor; apply file_same; exact H).
    destruct (resolve_same max_nlinks (dirname_comps (h_name h)) _ _ R) as [t t' Ht|e]; [|reflexivity]. cbn [rbind].
    rewrite <- (links_same _ _ Ht). reflexivity.
  Qed.
  Lemma nexus_group_same : forall E h h' t, hrel h h' -> isNeXusGroup E w h t = isNeXusGroup E w' h' t.
  Proof. intros E h h' t H. unfold isNeXusGroup. rewrite (group_same _ _ H), (attrs_same _ _ H). reflexivity. Qed.
  Lemma any_entry_same : forall E l h h', hrel h h' -> any_entry E w h l = any_entry E w' h' l.
  Proof.
    intros E. induction l as [|n l IH]; intros h h' H; [reflexivity|]. cbn [any_entry].
    destruct (getitem_same h h' n H) as [t t' Ht|e]; cbn [rbind].
    - rewrite (nexus_group_same E _ _ (py "NXentry") Ht). rewrite (IH _ _ H). reflexivity.
    - rewrite (IH _ _ H). reflexivity.
  Qed.
  Lemma nexus_link_same : forall E h h', hrel h h' -> isNeXusLink E w h = isNeXusLink E w' h'.
  Proof. intros E h h' H. unfold isNeXusLink. rewrite (attrs_same _ _ H), (name_same _ _ H). reflexivity. Qed.

  (** ** objects of items *)
  Lemma isgroup_same : forall o o', orel o o' -> hobj_isgroup w o = hobj_isgroup w' o'.
  Proof. intros o o' [h h' H|v]; [apply group_same; exact H|reflexivity]. Qed.
  Lemma isdataset_same : forall o o', orel o o' -> hobj_isdataset w o = hobj_isdataset w' o'.
  Proof. intros o o' [h h' H|v]; [apply dataset_same; exact H|reflexivity]. Qed.
  Lemma hobj_file_same : forall o o', orel o o' -> hobj_isfile o = hobj_isfile o'.
  Proof. intros o o' [h h' H|v]; [apply isfile_same; exact H|reflexivity]. Qed.
  Lemma hobj_attrs_same : forall o o', orel o o' -> hobj_attrs w o = hobj_attrs w' o'.
  Proof. intros o o' [h h' H|v]; [cbn [hobj_attrs]; rewrite (attrs_same _ _ H); reflexivity|reflexivity]. Qed.
  Lemma hobj_in_same : forall o o' v, orel o o' -> hobj_in w v o = hobj_in w' v o'.
  Proof. intros o o' v [h h' H|x]; [apply py_in_same; exact H|reflexivity]. Qed.
  Lemma hobj_str_same : forall o o', orel o o' -> hobj_str o = hobj_str o'.
  Proof. intros o o' [h h' H|v]; reflexivity. Qed.
  Lemma hobj_islink_same : forall o o', orel o o' -> hobj_islink w o = hobj_islink w' o'.
  Proof. intros o o' [h h' H|v]; [apply islink_same; exact H|reflexivity]. Qed.
  Lemma hobj_get_same : forall o o' v, orel o o' -> hobj_get w o v = hobj_get w' o' v.
  Proof.
    intros o o' v [h h' H|x]; [|reflexivity]. cbn [hobj_get]. rewrite (group_obj_same _ _ H). destruct (is_group_obj w' h'); [|reflexivity].
    destruct v; try reflexivity. destruct (getopt_same h h' s H) as [a b V|e]; [destruct V; reflexivity|reflexivity].
  Qed.
  Lemma node_name_same : forall o o', orel o o' -> node_name o = node_name o'.
  Proof. intros o o' [h h' H|v]; [cbn [node_name]; rewrite (name_same _ _ H); reflexivity|reflexivity]. Qed.
  Lemma hobj_getitem_same : forall o o' n, orel o o' -> rrel hrel (hobj_getitem w o n) (hobj_getitem w' o' n).
  Proof.
    intros o o' n [h h' H|v]; [|constructor]. cbn [hobj_getitem]. rewrite (group_obj_same _ _ H). destruct (is_group_obj w' h'); [|constructor].
    apply getitem_same. exact H.
  Qed.
  Lemma hobj_getopt_same : forall o o' n, orel o o' -> rrel (oprel hrel) (hobj_getopt w o n) (hobj_getopt w' o' n).
  Proof.
    intros o o' n [h h' H|v]; [|constructor]. cbn [hobj_getopt]. rewrite (group_obj_same _ _ H). destruct (is_group_obj w' h'); [|constructor].
    apply getopt_same. exact H.
  Qed.
  Lemma decode_same : forall E o o', orel o o' -> rrel orel (decode_obj E o) (decode_obj E o').
  Proof.
    intros E o o' [h h' H|v]; cbn [decode_obj]; [constructor; constructor; exact H|].
    destruct (decode_byte_string E v); cbn [rmap]; constructor. constructor.
  Qed.

  (** ** items and states *)
  Inductive irel : vitem -> vitem -> Prop :=
  | irel_intro : forall p o o' n a c x v, orel o o' -> irel (mkItem p o n a c x v) (mkItem p o' n a c x v).
  Variable cl0 : classes.
  Hypothesis kept_same : forall n h h' t t', read_by cl0 n -> hrel h h' -> getitem w h n = Ok t -> getitem w' h' n = Ok t' -> read_data w t = read_data w' t'.
  Inductive srel : vstate -> vstate -> Prop :=
  | srel_intro : forall l l' a c f k cl, Forall2 irel l l' -> strip_classes cl = strip_classes cl0 -> srel (mkSt l a c f k cl) (mkSt l' a c f k cl).
  Definition mrel {A B} (V : A -> B -> Prop) (m : M A) (m' : M B) : Prop :=
    forall s s', srel s s' -> srel (fst (m s)) (fst (m' s')) /\ rrel V (snd (m s)) (snd (m' s')).

  Lemma m_ret : forall A B (V : A -> B -> Prop) a b, V a b -> mrel V (ret a) (ret b).
  Proof. intros A B V a b H s s' S. split; [exact S|constructor; exact H]. Qed.
  Lemma m_raise : forall A B (V : A -> B -> Prop) e, mrel V (raise e) (raise e).
  Proof. intros A B V e s s' S. split; [exact S|constructor]. Qed.
  Lemma m_lift : forall A B (V : A -> B -> Prop) r r', rrel V r r' -> mrel V (lift r) (lift r').
  Proof. intros A B V r r' H s s' S. split; [exact S|exact H]. Qed.
  Lemma m_lift_eq : forall A (r r' : res A), r = r' -> mrel eq (lift r) (lift r').
  Proof. intros A r r' <-. apply m_lift. apply rrel_eq. Qed.
  Lemma m_bind : forall A B A' B' (V : A -> A' -> Prop) (W : B -> B' -> Prop) m m' f f',
    mrel V m m' -> (forall a a', V a a' -> mrel W (f a) (f' a')) -> mrel W (bind m f) (bind m' f').
  Proof.
    intros A B A' B' V W m m' f f' H Hf s s' S. unfold bind. destruct (H s s' S) as [S1 R]. destruct (m s) as [s1 r], (m' s') as [s1' r']. cbn [fst snd] in *.
    destruct R as [a a' Va|e]; [apply Hf; assumption|]. split; [exact S1|constructor].
  Qed.
  Lemma m_get : mrel srel get get.
  Proof. intros s s' S. split; [exact S|constructor; exact S]. Qed.
  Lemma Forall2_nth : forall A B (R : A -> B -> Prop) l l', Forall2 R l l' -> forall i,
    match nth_error l i, nth_error l' i with Some a, Some b => R a b | None, None => True | _, _ => False end.
  Proof. intros A B R l l' H. induction H; intros [|i]; cbn; auto. apply IHForall2. Qed.
  Lemma m_item : forall i, mrel irel (item i) (item i).
  Proof.
    intros i s s' S. destruct S as [l l' a c f k cl H HC]. unfold item. cbn [st_items]. pose proof (Forall2_nth _ _ _ _ _ H i) as N1.
    destruct (nth_error l i), (nth_error l' i); try contradiction; (split; [constructor; assumption|constructor]); exact N1.
  Qed.
  Lemma m_new : forall it it', irel it it' -> mrel eq (new_item it) (new_item it').
  Proof.
    intros it it' R s s' S. destruct S as [l l' a c f k cl H HC]. unfold new_item, set_items. cbn.
    split; [constructor; [apply Forall2_app; auto|exact HC]|]. constructor. clear - H. induction H; cbn; congruence.
  Qed.
  Lemma m_address : forall a, mrel eq (address_item a) (address_item a).
  Proof.
    intros x s s' S. pose proof S as S0. destruct S as [l l' a c f k cl H HC]. unfold address_item. cbn [st_addr].
    destruct (aget ostr_eqb x a); (split; [exact S0|constructor]); reflexivity.
  Qed.
  Lemma m_classpath : forall k, mrel eq (classpath_list k) (classpath_list k).
  Proof. intros x s s' S. pose proof S as S0. destruct S as [l l' a c f k cl H HC]. unfold classpath_list. cbn [st_cp]. split; [exact S0|constructor; reflexivity]. Qed.
  Lemma m_last : forall k, mrel eq (last_of_classpath k) (last_of_classpath k).
  Proof.
    intros x s s' S. pose proof S as S0. destruct S as [l l' a c f k cl H HC]. unfold last_of_classpath. cbn [st_cp].
    destruct (dget x c) as [y|]; [destruct (rev y)|]; (split; [exact S0|constructor]); reflexivity.
  Qed.
  Lemma m_add_address : forall a i, mrel eq (add_address a i) (add_address a i).
  Proof. intros x i s s' S. destruct S. unfold add_address. cbn. split; constructor; auto. Qed.
  Lemma m_add_classpath : forall a i, mrel eq (add_classpath a i) (add_classpath a i).
  Proof. intros x i s s' S. destruct S. unfold add_classpath. cbn. split; constructor; auto. Qed.
  Lemma m_regexp : forall k p, mrel eq (cached_regexp k p) (cached_regexp k p).
  Proof.
    intros x p s s' S. pose proof S as S0. destruct S as [l l' a c f k cl H HC]. unfold cached_regexp. cbn [st_cache].
    destruct (dget x k); [split; [exact S0|constructor; reflexivity]|]. destruct (re_compile p); (split; [|constructor; reflexivity]); [constructor; assumption|exact S0].
  Qed.
  Lemma update_rel : forall i (f g : vitem -> vitem) l l', (forall x y, irel x y -> irel (f x) (g y)) -> Forall2 irel l l' -> Forall2 irel (update_nth i f l) (update_nth i g l').
  Proof. intros i f g l l' Hf H. revert i. induction H; intros [|i]; cbn; constructor; auto. Qed.
  Lemma m_record : forall i k st cm, mrel eq (record_finding i k st cm) (record_finding i k st cm).
  Proof.
    intros i k st cm. unfold record_finding. eapply m_bind; [apply m_item|]. intros it it' R s s' S. destruct S as [l l' a c f kk cl H HC]. cbn.
    destruct R as [p o o' n ad cp x v O]. cbn [it_addr]. split; [|constructor; reflexivity]. constructor; [|exact HC]. apply update_rel; [|exact H].
    intros y y' [p2 o2 o2' n2 a2 c2 x2 v2 O2]. cbn. constructor. exact O2.
  Qed.
  Lemma m_store : forall a n z, mrel eq (store_minOccurs a n z) (store_minOccurs a n z).
  Proof.
    intros a n z s s' S. pose proof (strip_store a n z s) as X. destruct S as [l l' ad c f k cl H HC]. split; [|constructor; reflexivity].
    constructor; [exact H|]. etransitivity; [exact X|exact HC].
  Qed.
  Lemma m_for_each : forall A (f g : A -> M unit) l, (forall x, mrel eq (f x) (g x)) -> mrel eq (for_each f l) (for_each g l).
  Proof. intros A f g l H. induction l as [|x l IH]; [apply m_ret; reflexivity|]. cbn [for_each]. eapply m_bind; [apply H|]. intros; apply IH. Qed.

  Ltac same :=
    repeat match goal with
    | O : orel ?o ?o' |- context [hobj_isgroup w ?o] => rewrite (isgroup_same o o' O)
    | O : orel ?o ?o' |- context [hobj_isdataset w ?o] => rewrite (isdataset_same o o' O)
    | O : orel ?o ?o' |- context [hobj_isfile ?o] => rewrite (hobj_file_same o o' O)
    | O : orel ?o ?o' |- context [hobj_str ?o] => rewrite (hobj_str_same o o' O)
    | O : hrel ?o ?o' |- context [isHdf5Group w ?o] => rewrite (group_same o o' O)
    | O : hrel ?o ?o' |- context [isHdf5Dataset w ?o] => rewrite (dataset_same o o' O)
    | O : hrel ?o ?o' |- context [h_name ?o] => rewrite (name_same o o' O)
    | O : hrel ?o ?o' |- context [attrs_of w ?o] => rewrite (attrs_same o o' O)
    | O : hrel ?o ?o' |- context [links_of w ?o] => rewrite (links_same o o' O)
    end.
  Ltac items :=
    repeat match goal with
    | H : irel _ _ |- _ => destruct H; cbn [it_parent it_obj it_name it_addr it_cp it_nxclass it_vals] in *
    | H : ?a = _ |- _ => is_var a; subst a
    end.
  Ltac lifts :=
    first
    [ apply m_lift; apply decode_same; assumption
    | apply m_lift; apply getitem_same; assumption
    | apply m_lift; apply hobj_getitem_same; assumption
    | apply m_lift; apply hobj_getopt_same; assumption
    | apply m_lift_eq; first
       [ reflexivity | apply hobj_in_same; assumption | apply hobj_get_same; assumption | apply hobj_attrs_same; assumption
       | apply node_name_same; assumption ] ].
  Ltac step :=
    match goal with
    | |- mrel _ (ret _) _ => apply m_ret; try reflexivity
    | |- mrel _ (raise _) _ => apply m_raise
    | |- mrel _ (item _) _ => apply m_item
    | |- mrel _ (address_item _) _ => apply m_address
    | |- mrel _ (classpath_list _) _ => apply m_classpath
    | |- mrel _ (last_of_classpath _) _ => apply m_last
    | |- mrel _ (add_address _ _) _ => apply m_add_address
    | |- mrel _ (add_classpath _ _) _ => apply m_add_classpath
    | |- mrel _ (cached_regexp _ _) _ => apply m_regexp
    | |- mrel _ (record_finding _ _ _ _) _ => apply m_record
    | |- mrel _ (store_minOccurs _ _ _) _ => apply m_store
    | |- mrel _ (lift _) _ => lifts
    | |- mrel _ get _ => apply m_get
    | |- mrel _ (bind _ _) _ => eapply m_bind; [|intros]
    | |- mrel _ (for_each _ _) _ => apply m_for_each; intros
    | |- mrel _ (match ?x with _ => _ end) (match ?x with _ => _ end) => destruct x
    | |- mrel _ (let '(_, _) := ?x in _) _ => destruct x
    end.
  Ltac go := repeat (items; same; step; cbv beta).

  Variables (E : env) (root root' : handle) (pats : dict (list pystr)) (rl : nat) (fm : option Z).
  Hypothesis root_rel : hrel root root'.
  Local Notation CC := (mkCtx E w root pats rl fm).
  Local Notation CD := (mkCtx E w' root' pats rl fm).

  Lemma identify_same : forall o o', orel o o' -> identify_object_type E w o = identify_object_type E w' o'.
  Proof.
    intros o o' [h h' H|v]; [|reflexivity]. unfold identify_object_type. rewrite (nexus_link_same E _ _ H). destruct (obj_same _ _ H) as [|? ? []]; reflexivity.
  Qed.
  Lemma determine_same : forall pcp h h' n, hrel h h' -> determine_NeXus_classpath E w pcp h n = determine_NeXus_classpath E w' pcp h' n.
  Proof. intros pcp h h' n H. unfold determine_NeXus_classpath. rewrite (group_same _ _ H), (attrs_same _ _ H). reflexivity. Qed.
  Inductive prel : option (nat * vitem) -> option (nat * vitem) -> Prop :=
  | prel_none : prel None None
  | prel_some : forall i it it', irel it it' -> prel (Some (i, it)) (Some (i, it')).
  Lemma prel_cp : forall p p', prel p p' -> option_map (fun p => it_cp (snd p)) p = option_map (fun p => it_cp (snd p)) p' /\ option_map fst p = option_map fst p'.
  Proof. intros p p' [|i it it' [? ? ? ? ? ? ? ? ?]]; split; reflexivity. Qed.
  Lemma node_item_same : forall p p' h h', prel p p' -> hrel h h' -> rrel irel (node_item E w p h) (node_item E w' p' h').
  Proof.
    intros p p' h h' P H. unfold node_item. destruct (prel_cp _ _ P) as [P1 P2]. rewrite P1, P2, (name_same _ _ H), (determine_same _ _ _ _ H). cbv zeta.
    destruct (determine_NeXus_classpath E w' _ h' _) as [cn|e]; [|constructor]. cbn [rbind].
    rewrite (identify_same _ _ (orel_node _ _ H)). destruct (identify_object_type E w' (ONode h')); [|constructor]. cbn [rbind].
    constructor. constructor. constructor. exact H.
  Qed.
  Lemma attr_item_same : forall i it it' v n, irel it it' -> irel (attr_item i it v n) (attr_item i it' v n).
  Proof. intros i it it' v n [p o o' n0 a cp x vs O]. unfold attr_item. cbn [it_cp it_addr]. destruct (str_eqb cp NON_NEXUS); constructor; constructor. Qed.
  Lemma m_register : forall it it', irel it it' -> mrel eq (register it) (register it').
  Proof. intros it it' R. unfold register. eapply m_bind; [apply m_new; exact R|]. intros i ? <-. go. Qed.
  Lemma m_get_subject : forall p h h', hrel h h' -> mrel eq (get_subject CC p h) (get_subject CD p h').
  Proof.
    intros p h h' H. unfold get_subject. cbn [c_env c_world].
    eapply m_bind with (V := prel).
    - destruct p as [pi|]; [|apply m_ret; constructor]. eapply m_bind; [apply m_item|]. intros a a' Ha. apply m_ret. constructor. exact Ha.
    - intros p1 p2 P. eapply m_bind; [apply m_lift; apply node_item_same; eassumption|]. intros it it' R.
      eapply m_bind; [apply m_register; exact R|]. intros i i2 <-. rewrite (attrs_same _ _ H).
      eapply m_bind; [apply m_for_each|intros; go]. intros ka. eapply m_bind; [apply m_register; apply attr_item_same; exact R|]. intros. go.
  Qed.
  Lemma m_catalog : forall n p h h', hrel h h' -> mrel eq (group_address_catalog n CC p h) (group_address_catalog n CD p h').
  Proof.
    induction n as [|n IH]; intros p h h' H; cbn [group_address_catalog]; [go|].
    eapply m_bind; [apply m_get_subject; exact H|]. intros obj ? <-. eapply m_bind; [apply m_item|]. intros it it' R. items.
    eapply m_bind; [apply m_last|]. intros q ? <-. cbn [c_world]. rewrite (links_same _ _ H). apply m_for_each. intros m.
    eapply m_bind; [lifts|]. intros y y' Ha. same. destruct (isHdf5Group w' y'); [apply IH; exact Ha|].
    eapply m_bind; [apply m_get_subject; exact Ha|]. intros. go.
  Qed.
  Lemma match_value_same : forall r o o', orel o o' -> match_value E r o = match_value E r o'.
  Proof. intros r o o' [h h' H|v]; reflexivity. Qed.
  Lemma m_first_match : forall o o' l, orel o o' -> mrel eq (first_match CC o l) (first_match CD o' l).
  Proof.
    intros o o' l O. induction l as [|[k p] l IH]; cbn [first_match]; [go|]. cbn [c_env].
    eapply m_bind; [apply m_regexp|]. intros r ? <-. eapply m_bind; [lifts|]. intros a a' Ha.
    eapply m_bind; [apply m_lift_eq; apply match_value_same; exact Ha|]. intros b ? <-. destruct b; [go|exact IH].
  Qed.
  Lemma m_match_key : forall o o', orel o o' -> mrel eq (validItemName_match_key CC o) (validItemName_match_key CD o').
  Proof. intros o o' O. unfold validItemName_match_key. eapply m_bind; [apply m_first_match; exact O|]. intros; go. Qed.
  Lemma m_match_text : forall s, mrel eq (match_key_text CC s) (match_key_text CD s).
  Proof. intros s. apply m_match_key. constructor. Qed.
  Lemma m_match_name : forall n, mrel eq (match_key_name CC n) (match_key_name CD n).
  Proof. intros [n|]; [apply m_match_text|]. apply m_match_key. constructor. Qed.
  Lemma target_same : forall it it', irel it it' -> isNeXusLinkTarget CC it = isNeXusLinkTarget CD it'.
  Proof. intros it it' [p o o' n0 a cp x vs O]. unfold isNeXusLinkTarget. cbn. rewrite (hobj_attrs_same _ _ O). reflexivity. Qed.
  Lemma named_same : forall o o', orel o o' -> is_named_object CC o = is_named_object CD o'.
  Proof. intros o o' O. unfold is_named_object. cbn [c_world]. same. rewrite (hobj_islink_same _ _ O). reflexivity. Qed.
  Lemma m_item_name : forall i, mrel eq (item_name_verify CC i) (item_name_verify CD i).
  Proof.
    intros i. unfold item_name_verify. eapply m_bind; [apply m_item|]. intros it it' R. unfold name_done. items. destruct p as [pi|]; [|go].
    destruct (match n with Some n0 => dmem n0 v | None => false end); [go|].
    destruct (match a with Some a0 => endswith a0 _ | None => false end).
    { unfold handle_NX_class. eapply m_bind; [apply m_item|]. intros it it' R. items. cbn [c_patterns].
      eapply m_bind; [lifts|]. intros l ? <-. eapply m_bind; [apply m_first_match; assumption|]. intros; go. }
    destruct (has_char ch_at c).
    { eapply m_bind; [apply m_item|]. intros pit pit' R. eapply m_bind; [apply m_lift_eq; apply target_same; exact R|]. intros b ? <-.
      destruct b; [go|]. unfold handle_any_attribute. eapply m_bind; [apply m_item|]. intros it it' R2. items.
      eapply m_bind; [apply m_match_name|]. intros; go. }
    eapply m_bind; [apply m_lift_eq; apply named_same; assumption|]. intros b ? <-. destruct b; [|go].
    unfold handle_groups_and_fields. eapply m_bind; [apply m_item|]. intros it it' R2. items.
    eapply m_bind; [apply m_match_name|]. intros; go.
  Qed.

  (** ** attributes *)
  Lemma m_parent : forall it it', irel it it' -> mrel irel (parent_item it) (parent_item it').
  Proof. intros it it' R. items. unfold parent_item. cbn [it_parent]. go. Qed.
  Lemma m_axis : forall i o o' a a', orel o o' -> orel a a' -> mrel eq (axis_check CC i o a) (axis_check CD i o' a').
  Proof.
    intros i o o' a a' O A. unfold axis_check. eapply m_bind; [apply m_match_key; exact A|]. intros k ? <-. destruct (name_verdict k) as [st txt].
    rewrite (hobj_str_same _ _ A). eapply m_bind; [apply m_record|]. intros _ _ _. destruct A; [go|]. cbn [c_world]. go.
  Qed.
  Lemma axes_values_same : forall o o', orel o o' -> Forall2 orel (axes_values o) (axes_values o').
  Proof.
    intros o o' [h h' H|v]; [constructor; constructor; exact H|]. destruct v; cbn [axes_values]; try (constructor; constructor);
      induction l; cbn [map]; constructor; try constructor; auto.
  Qed.
  Lemma m_for_each2 : forall A B (P : A -> B -> Prop) (f : A -> M unit) (g : B -> M unit) l r, (forall x y, P x y -> mrel eq (f x) (g y)) -> Forall2 P l r ->
    mrel eq (for_each f l) (for_each g r).
  Proof. intros A B P f g l r H G. induction G; [apply m_ret; reflexivity|]. cbn [for_each]. eapply m_bind; [apply H; assumption|]. intros. assumption. Qed.
  Lemma m_axes : forall i, mrel eq (axes_handler CC i) (axes_handler CD i).
  Proof.
    intros i. unfold axes_handler. eapply m_bind; [apply m_item|]. intros it it' R. cbn [c_env].
    eapply m_bind; [apply m_lift; apply decode_same; destruct R; assumption|]. intros ax ax' A.
    eapply m_bind; [apply m_parent; exact R|]. intros pit pit' P.
    eapply m_bind; [eapply m_for_each2; [|apply axes_values_same; exact A]|intros; go].
    intros x y Hxy. apply m_axis; [destruct P; assumption|exact Hxy].
  Qed.
  Lemma m_nxclass : forall i, mrel eq (nxclass_handler CC i) (nxclass_handler CD i).
  Proof.
    intros i. unfold nxclass_handler. eapply m_bind; [apply m_item|]. intros it it' R. cbn [c_env].
    eapply m_bind; [apply m_lift; apply decode_same; destruct R; assumption|]. intros ax ax' A.
    eapply m_bind; [apply m_get|]. intros s s' S. destruct S. cbn [st_classes]. destruct A; go.
  Qed.
  Lemma py_int_same : forall o o', orel o o' -> py_int E o = py_int E o'.
  Proof. intros o o' [h h' H|v]; reflexivity. Qed.
  Lemma m_signal : forall i, mrel eq (signal_handler CC i) (signal_handler CD i).
  Proof.
    intros i. unfold signal_handler. eapply m_bind; [apply m_item|]. intros it it' R. cbn [c_env c_world].
    eapply m_bind; [apply m_lift; apply decode_same; destruct R; assumption|]. intros ax ax' A.
    eapply m_bind; [apply m_parent; exact R|]. intros pit pit' P. assert (O : orel (it_obj pit) (it_obj pit')) by (destruct P; assumption).
    same. destruct (hobj_isdataset w' (it_obj pit')).
    { eapply m_bind with (V := eq).
      - destruct (py_isdigit E (hobj_str ax')); [|go]. eapply m_bind; [apply m_lift_eq; apply py_int_same; exact A|]. intros n ? <-. go.
      - intros b ? <-. destruct b; go. }
    destruct (hobj_isgroup w' (it_obj pit')); [|unfold generic_handler; go].
    eapply m_bind; [apply m_match_key; exact A|]. intros k ? <-. destruct A; [go|].
    eapply m_bind; [lifts|]. intros tn ? <-. destruct (name_verdict k). go.
  Qed.
  Lemma m_target_parts : forall i l a, mrel eq (target_parts CC i a l) (target_parts CD i a l).
  Proof.
    intros i. induction l as [|p l IH]; intros a; cbn [target_parts]; [go|]. eapply m_bind; [apply m_match_text|]. intros k ? <-.
    destruct k; [|go]. cbv zeta. cbn [c_world c_root]. eapply m_bind; [apply m_lift_eq; apply py_in_same; exact root_rel|]. intros b ? <-.
    destruct b; [apply IH|go].
  Qed.
  Lemma m_target : forall i, mrel eq (target_handler CC i) (target_handler CD i).
  Proof.
    intros i. unfold target_handler. eapply m_bind; [apply m_item|]. intros it it' R. cbn [c_env c_world c_root].
    eapply m_bind; [apply m_lift; apply decode_same; destruct R; assumption|]. intros ax ax' A. destruct A as [|v]; [go|].
    destruct v; try solve [go]. destruct (negb (startswith s slash)); [go|].
    eapply m_bind; [apply m_target_parts|]. intros b ? <-. destruct b; [|go].
    eapply m_bind; [apply m_lift_eq; apply py_in_same; exact root_rel|]. intros; go.
  Qed.
  Lemma m_attribute : forall i, mrel eq (attribute_verify CC i) (attribute_verify CD i).
  Proof.
    intros i. unfold attribute_verify. eapply m_bind; [apply m_item|]. intros it it' R. items. destruct a as [a|]; [|go].
    destruct (negb (has_char ch_at a)); [go|]. destruct n as [n|]; [|go].
    destruct (str_eqb n (py "NX_class")); [apply m_nxclass|]. destruct (str_eqb n (py "target")); [apply m_target|].
    destruct (str_eqb n (py "signal")); [apply m_signal|]. destruct (str_eqb n (py "axes")); [apply m_axes|]. unfold generic_handler. go.
  Qed.

  (** ** groups *)
  Lemma m_nx_attr : forall i n, mrel eq (validate_NX_class_attribute i n) (validate_NX_class_attribute i n).
  Proof. intros i n. unfold validate_NX_class_attribute. eapply m_bind; [apply m_get|]. intros s s' S. destruct S. cbn [st_classes]. cbv zeta. go. Qed.
  Lemma m_child_exists : forall t v it it' ai, irel it it' -> mrel eq (child_exists CC t v it ai) (child_exists CD t v it' ai).
  Proof. intros t v it it' ai R. unfold child_exists. items. cbn [c_world]. go. Qed.
  Lemma m_group_attribute : forall i d kv, mrel eq (group_attribute CC i d kv) (group_attribute CD i d kv).
  Proof.
    intros i d kv. unfold group_attribute. eapply m_bind; [apply m_item|]. intros it it' R. cbn [c_env]. cbv zeta.
    eapply m_bind; [lifts|]. intros v ? <-. assert (A : it_addr it = it_addr it' /\ it_cp it = it_cp it') by (destruct R; split; reflexivity).
    destruct A as [A1 A2]. rewrite A1, A2. eapply m_bind; [lifts|]. intros ad ? <-. eapply m_bind; [apply m_address|]. intros ai ? <-.
    eapply m_bind; [apply m_record|]. intros _ _ _. destruct (dget (fst kv) (d_attrs d)) as [spec|]; [|go].
    eapply m_bind with (V := eq); [destruct (na_enums spec); go|]. intros _ _ _.
    repeat match goal with |- mrel _ (if ?b then _ else _) _ => destruct b end; try solve [go]; apply m_child_exists; exact R.
  Qed.
  Lemma m_group_child : forall h h' d n, hrel h h' -> mrel eq (group_child CC h d n) (group_child CD h' d n).
  Proof.
    intros h h' d n H. unfold group_child. cbn [c_world]. eapply m_bind; [lifts|]. intros o o' O. same. go.
  Qed.
  Lemma m_base_field : forall i it it' n, irel it it' -> mrel eq (base_field CC i it n) (base_field CD i it' n).
  Proof. intros i it it' n R. unfold base_field. items. cbn [c_world]. go. Qed.
  Lemma m_base_group : forall i it it' cls g, irel it it' -> mrel eq (base_group CC i it cls g) (base_group CD i it' cls g).
  Proof. intros i it it' n g R. unfold base_group. items. cbn [c_world c_env]. go. Qed.
  Lemma m_base_items : forall i cls d, mrel eq (base_class_items_verify CC i cls d) (base_class_items_verify CD i cls d).
  Proof.
    intros i cls d. unfold base_class_items_verify. eapply m_bind; [apply m_item|]. intros it it' R.
    eapply m_bind; [apply m_for_each; intros; apply m_base_field; exact R|]. intros _ _ _. apply m_for_each. intros. apply m_base_group. exact R.
  Qed.
  Lemma group_class_same : forall it it', irel it it' -> group_class it = group_class it'.
  Proof. intros it it' R. destruct R. reflexivity. Qed.
  Lemma m_validate_group : forall i, mrel eq (validate_group CC i) (validate_group CD i).
  Proof.
    intros i. unfold validate_group. eapply m_bind; [apply m_item|]. intros it it' R. assert (A : it_cp it = it_cp it') by (destruct R; reflexivity).
    rewrite A. destruct (str_eqb (it_cp it') NON_NEXUS); [go|]. rewrite (group_class_same _ _ R). eapply m_bind; [lifts|]. intros n ? <-.
    eapply m_bind; [apply m_nx_attr|]. intros _ _ _. eapply m_bind; [apply m_get|]. intros s s' S. destruct S. cbn [st_classes].
    destruct (dget n cl) as [d|]; [|go].
    eapply m_bind with (V := eq).
    { unfold verify_group_attributes. cbn [c_world]. eapply m_bind; [apply m_item|]. intros it2 it2' R2. items.
      eapply m_bind; [lifts|]. intros at1 ? <-. apply m_for_each. intros. apply m_group_attribute. }
    intros _ _ _. eapply m_bind with (V := eq).
    { unfold verify_group_children. cbn [c_world]. eapply m_bind; [apply m_item|]. intros it2 it2' R2. destruct R2 as [p o o' nn aa cc xx vv O]. cbn [it_obj].
      destruct O as [h h' Hh|]; [|go]. rewrite (links_same _ _ Hh). apply m_for_each. intros. apply m_group_child. exact Hh. }
    intros _ _ _. eapply m_bind; [apply m_base_items|]. intros. go.
  Qed.

  (** ** application definitions *)
  Definition value_same (h h' : option handle) : Prop := forall t t', h = Some t -> h' = Some t' -> read_data w t = read_data w' t'.
  Lemma field_value_same : forall h h', oprel hrel h h' -> value_same h h' -> field_value w h = field_value w' h'.
  Proof. intros h h' [a b V|] K; [|reflexivity]. cbn [field_value]. rewrite (K _ _ eq_refl eq_refl). reflexivity. Qed.
  Lemma find_enum_same : forall l h h', oprel hrel h h' -> value_same h h' -> find_enum E w h l = find_enum E w' h' l.
  Proof.
    induction l as [|e l IH]; intros h h' H K; [reflexivity|]. cbn [find_enum]. rewrite (field_value_same _ _ H K), (IH _ _ H K). reflexivity.
  Qed.
  Lemma field_item_same : forall i it it' h h', irel it it' -> oprel hrel h h' -> rrel irel (field_item E w i it h) (field_item E w' i it' h').
  Proof.
    intros i it it' h h' R H. destruct H as [a b V|]; cbn [field_item]; [apply node_item_same; [constructor; exact R|exact V]|].
    constructor. apply attr_item_same. exact R.
  Qed.
  Lemma is_some_same : forall h h', oprel hrel h h' -> is_some h = is_some h'.
  Proof. intros h h' [a b V|]; reflexivity. Qed.
  Lemma getopt_kept : forall o o' n h h', read_by cl0 n -> orel o o' -> hobj_getopt w o n = Ok h -> hobj_getopt w' o' n = Ok h' -> value_same h h'.
  Proof.
    intros o o' n h h' K [x x' H|v] A B t t' -> ->; [|discriminate]. cbn [hobj_getopt] in A, B. destruct (is_group_obj w x); [|discriminate]. destruct (is_group_obj w' x'); [|discriminate].
    unfold getopt in A, B. destruct (getitem w x n) as [y|e] eqn:Gy; [|destruct e; discriminate A]. destruct (getitem w' x' n) as [y'|e'] eqn:Gy'; [|destruct e'; discriminate B].
    injection A as ->. injection B as ->. eapply kept_same; eauto.
  Qed.
  Lemma m_bind_lift : forall A B A' B' (V : A -> A' -> Prop) (W : B -> B' -> Prop) (r : res A) (r' : res A') f f',
    rrel V r r' -> (forall a a', r = Ok a -> r' = Ok a' -> V a a' -> mrel W (f a) (f' a')) -> mrel W (bind (lift r) f) (bind (lift r') f').
  Proof. intros A B A' B' V W r r' f f' [a a' H|e] Hf s s' S; unfold bind, lift; [apply (Hf a a' eq_refl eq_refl H s s' S)|]. split; [exact S|constructor]. Qed.
  Lemma m_ad_field : forall i it it' n fs, (nf_enums (snd fs) <> [] -> read_by cl0 (fst fs)) -> irel it it' -> mrel eq (ad_field CC i it n fs) (ad_field CD i it' n fs).
  Proof.
    intros i it it' n fs K R. unfold ad_field. cbn [c_world c_env c_field_minOccurs]. cbv zeta.
    eapply m_bind_lift; [apply hobj_getopt_same; destruct R; assumption|]. intros h h' G G' H.
    eapply m_bind; [apply m_lift; apply field_item_same; eassumption|]. intros vi vi' V.
    eapply m_bind; [apply m_new; exact V|]. intros v ? <-. rewrite (is_some_same _ _ H).
    eapply m_bind; [apply m_record|]. intros _ _ _. destruct (nf_enums (snd fs)) as [|e l]; [go|].
    rewrite (find_enum_same _ _ _ H); [go|]. eapply getopt_kept; [apply K; discriminate| |exact G|exact G']. destruct R; assumption.
  Qed.
  Lemma definition_name_same : forall it it', irel it it' -> definition_name CC it = definition_name CD it'.
  Proof.
    intros it it' R. unfold definition_name. cbn [c_world c_env]. destruct R as [p o o' nn aa cc xx vv O]. cbn [it_obj].
    destruct O as [h h' H|v]; [|reflexivity]. cbn [hobj_getitem]. rewrite (group_obj_same _ _ H). destruct (is_group_obj w' h'); [|reflexivity].
    pose proof (kept_same (py "definition") h h') as K. destruct (getitem_same h h' (py "definition") H) as [t t' T|e]; [|reflexivity].
    cbn [rbind]. rewrite (K t t' (read_definition _) H eq_refl eq_refl). reflexivity.
  Qed.
  Lemma listed_fields : forall cl n d k g l0, strip_classes cl = strip_classes cl0 -> dget n cl = Some d -> d_groups d = (k, g) :: l0 ->
    forall fs, In fs (g_fields g) -> nf_enums (snd fs) <> [] -> read_by cl0 (fst fs).
  Proof.
    intros cl n d k g l0 HC D G [m spec] I En. pose proof (GroupRun.strip_get _ _ n HC) as X. rewrite D in X. destruct (dget n cl0) as [d0|] eqn:D0; [|discriminate].
    cbn [option_map] in X. assert (X1 : strip_def d = strip_def d0) by congruence. apply (f_equal d_groups) in X1. unfold strip_def, set_d_groups in X1. cbn [d_groups] in X1. rewrite G in X1.
    destruct (d_groups d0) as [|[k0 g0] l1] eqn:G0; [discriminate|]. cbn [map fst snd] in X1.
    assert (X2 : strip_group g = strip_group g0) by congruence. assert (X3 : g_fields g = g_fields g0) by (destruct g, g0; cbn in X2 |- *; congruence).
    eapply (read_listed cl0 n d0 k0 g0 m spec); eauto; [rewrite G0; left; reflexivity|rewrite <- X3; exact I].
  Qed.
  Lemma m_for_in : forall A (f g : A -> M unit) l, (forall x, In x l -> mrel eq (f x) (g x)) -> mrel eq (for_each f l) (for_each g l).
  Proof.
    intros A f g l. induction l as [|x l IH]; intros H; [apply m_ret; reflexivity|]. cbn [for_each]. eapply m_bind; [apply H; left; reflexivity|]. intros; apply IH. intros y Hy. apply H. right. exact Hy.
  Qed.
  Lemma m_app : forall i, mrel eq (application_definition_verify CC i) (application_definition_verify CD i).
  Proof.
    intros i. unfold application_definition_verify. eapply m_bind; [apply m_item|]. intros it it' R. rewrite (definition_name_same _ _ R).
    eapply m_bind; [lifts|]. intros n ? <-. eapply m_bind; [apply m_get|]. intros s s' S. destruct S as [l l' ad c f kk cl H HC]. cbn [st_classes]. cbv zeta.
    eapply m_bind; [apply m_record|]. intros _ _ _. destruct (dget n cl) as [d|] eqn:D; [|go].
    eapply m_bind with (V := eq); [go|]. intros _ _ _. eapply m_bind; [apply m_record|]. intros _ _ _.
    destruct (d_groups d) as [|[kg g] l0] eqn:G; [go|]. apply m_for_in. intros x Hx. apply m_ad_field; [|exact R]. eapply listed_fields; eauto.
  Qed.
  Lemma m_check_definition : forall i, mrel eq (check_definition CC i) (check_definition CD i).
  Proof. intros i. unfold check_definition. eapply m_bind; [apply m_item|]. intros it it' R. items. destruct p; [apply m_app|go]. Qed.

  (** ** default plot *)
  Lemma points_same : forall it it' n t, irel it it' -> attribute_points_at_target CC it n t = attribute_points_at_target CD it' n t.
  Proof.
    intros it it' n t R. unfold attribute_points_at_target. cbn [c_world c_env]. destruct R as [p o o' nn aa cc xx vv O]. cbn [it_obj].
    rewrite (hobj_attrs_same _ _ O), (node_name_same _ _ O). destruct (hobj_attrs w' o'); [|reflexivity]. cbn [rbind].
    destruct (dget n a); [|reflexivity]. destruct (node_name o'); [|reflexivity]. cbn [rbind].
    destruct (build_h5_address E a0 p0); [|reflexivity]. cbn [rbind]. rewrite (hobj_in_same _ _ (VStr a1) O). reflexivity.
  Qed.
  Lemma irel_obj : forall it it', irel it it' -> orel (it_obj it) (it_obj it').
  Proof. intros it it' R. destruct R. assumption. Qed.
  Lemma irel_addr : forall it it', irel it it' -> it_addr it = it_addr it'.
  Proof. intros it it' R. destruct R. reflexivity. Qed.
  Lemma m_v3_item : forall i, mrel eq (v3_item CC i) (v3_item CD i).
  Proof.
    intros i. unfold v3_item. cbn [c_world c_env]. eapply m_bind; [apply m_item|]. intros it it' R. rewrite (irel_addr _ _ R).
    eapply m_bind; [lifts|]. intros [en da] ? <-.
    eapply m_bind; [apply m_address|]. intros di ? <-. eapply m_bind; [apply m_item|]. intros nd nd' RD.
    eapply m_bind; [apply m_address|]. intros ei ? <-. eapply m_bind; [apply m_item|]. intros ne ne' RE.
    eapply m_bind; [apply m_address|]. intros ri ? <-. eapply m_bind; [apply m_item|]. intros nr nr' RR.
    rewrite (hobj_attrs_same _ _ (irel_obj _ _ RD)), (node_name_same _ _ (irel_obj _ _ RD)), (irel_addr _ _ RE), (irel_addr _ _ RD).
    eapply m_bind; [lifts|]. intros at1 ? <-. eapply m_bind; [lifts|]. intros ptr ? <-. eapply m_bind; [lifts|]. intros nm ? <-.
    eapply m_bind; [lifts|]. intros sa ? <-. eapply m_bind; [lifts|]. intros ea ? <-. eapply m_bind; [lifts|]. intros dd ? <-.
    rewrite (points_same _ _ (py "default") ea RR), (points_same _ _ (py "default") dd RE), (points_same _ _ (py "signal") sa RD).
    eapply m_bind; [lifts|]. intros t1 ? <-. eapply m_bind; [lifts|]. intros t2 ? <-. eapply m_bind; [lifts|]. intros t3 ? <-.
    destruct (negb t3); [go|]. eapply m_bind; [apply m_address|]. intros si ? <-. eapply m_bind; [apply m_item|]. intros sit sit' RS.
    cbv zeta. rewrite (isdataset_same _ _ (irel_obj _ _ RS)). go.
  Qed.
  Lemma m_v3_loop : forall l a n, mrel eq (v3_loop CC a n l) (v3_loop CD a n l).
  Proof.
    induction l as [|i l IH]; intros a n; cbn [v3_loop].
    - destruct n as [|i [|j n]]; [go| |go]. eapply m_bind; [apply m_item|]. intros it it' R. rewrite (irel_addr _ _ R). go.
    - eapply m_bind; [apply m_v3_item|]. intros r ? <-. destruct r; [go|apply IH].
  Qed.
  Lemma m_v2_item : forall r i, mrel eq (v2_item CC r i) (v2_item CD r i).
  Proof.
    intros r i. unfold v2_item. cbn [c_world]. eapply m_bind; [apply m_item|]. intros it it' R. eapply m_bind; [apply m_parent; exact R|]. intros pit pit' P.
    cbv zeta. rewrite (isdataset_same _ _ (irel_obj _ _ P)), (hobj_str_same _ _ (irel_obj _ _ R)), (irel_addr _ _ R). destruct (hobj_isdataset w' (it_obj pit')); [|go].
    eapply m_bind; [lifts|]. intros ad ? <-. destruct (str_eqb (hobj_str (it_obj it')) (py "1")); [|go].
    eapply m_bind; [apply m_record|]. intros _ _ _. eapply m_bind; [apply m_parent; exact P|]. intros gp gp' G. rewrite (irel_addr _ _ G). go.
  Qed.
  Lemma m_v2_collect : forall l r, mrel eq (v2_collect CC r l) (v2_collect CD r l).
  Proof. induction l as [|i l IH]; intros r; cbn [v2_collect]; [go|]. eapply m_bind; [apply m_v2_item|]. intros r2 ? <-. apply IH. Qed.
  Lemma m_v2_decide : forall l a, mrel eq (v2_decide a l) (v2_decide a l).
  Proof.
    induction l as [|[g [|i [|j x]]] l IH]; intros a; cbn [v2_decide]; [go|apply IH| |].
    - eapply m_bind; [apply m_item|]. intros it it' R. eapply m_bind; [apply m_parent; exact R|]. intros pit pit' P. rewrite (irel_addr _ _ R), (irel_addr _ _ P).
      eapply m_bind; [lifts|]. intros ad ? <-. eapply m_bind; [apply m_record|]. intros _ _ _. apply IH.
    - eapply m_bind; [apply m_item|]. intros it it' R. eapply m_bind; [apply m_parent; exact R|]. intros pit pit' P.
      eapply m_bind; [lifts|]. intros ad ? <-. eapply m_bind with (V := eq); [destruct P; cbn [it_parent]; go|]. intros gi ? <-.
      eapply m_bind; [apply m_record|]. intros _ _ _. apply IH.
  Qed.
  Lemma m_default_plot : mrel eq (default_plot_verify CC) (default_plot_verify CD).
  Proof.
    unfold default_plot_verify. eapply m_bind; [apply m_address|]. intros obj ? <-. eapply m_bind with (V := eq).
    - cbn [try_methods]. eapply m_bind with (V := eq); [unfold default_plot_v3; eapply m_bind; [apply m_classpath|]; intros l ? <-; apply m_v3_loop|].
      intros a ? <-. destruct a; [go|]. eapply m_bind with (V := eq).
      { unfold default_plot_v2. eapply m_bind; [apply m_get|]. intros s s' S. destruct S. cbn [st_cp]. eapply m_bind; [apply m_v2_collect|]. intros rv ? <-. apply m_v2_decide. }
      intros a ? <-. destruct a; [go|]. unfold default_plot_v1. go.
    - intros r ? <-. destruct r as [[k ad]|]; [go|]. eapply m_bind; [apply m_get|]. intros s s' S. destruct S. cbn [st_classes]. go.
  Qed.

  (** ** everything *)
  Lemma m_check_item : forall i, mrel eq (check_item CC i) (check_item CD i).
  Proof. intros i. unfold check_item. eapply m_bind; [apply m_item_name|]. intros _ _ _. apply m_attribute. Qed.
  Lemma m_check_group : forall i, mrel eq (check_group CC i) (check_group CD i).
  Proof.
    intros i. unfold check_group. cbn [c_world]. eapply m_bind; [apply m_item|]. intros it it' R.
    rewrite (isgroup_same _ _ (irel_obj _ _ R)), (hobj_file_same _ _ (irel_obj _ _ R)). destruct (_ || _); [apply m_validate_group|go].
  Qed.
  Lemma m_validate : mrel eq (validate_open CC) (validate_open CD).
  Proof.
    unfold validate_open. eapply m_bind; [unfold build_address_catalog; cbn [c_reclimit c_root]; apply m_catalog; exact root_rel|]. intros _ _ _.
    eapply m_bind with (V := eq).
    { unfold step1. eapply m_bind; [apply m_get|]. intros s s' S. destruct S. cbn [st_cp]. apply m_for_each. intros. apply m_check_item. }
    intros _ _ _. eapply m_bind with (V := eq).
    { unfold step2. eapply m_bind; [apply m_get|]. intros s s' S. destruct S. cbn [st_addr]. apply m_for_each. intros. apply m_check_group. }
    intros _ _ _. eapply m_bind with (V := eq).
    { unfold step3. eapply m_bind; [apply m_get|]. intros s s' S. destruct S. cbn [st_cp]. apply m_for_each. intros. apply m_check_definition. }
    intros _ _ _. apply m_default_plot.
  Qed.

  (** ** the tree *)
  Variables (up : pystr -> pystr) (ds ds' : handle -> dsview) (nexus : bool) (mm : Z) (at_ : bool).
  Hypothesis ds_same : forall h h', hrel h h' -> ds h = ds' h'.

  Lemma render_attributes_same : forall h h' d x, hrel h h' -> render_attributes E w at_ h d x = render_attributes E w' at_ h' d x.
  Proof. intros h h' d x H. unfold render_attributes. rewrite (attrs_same _ _ H). reflexivity. Qed.
  Lemma render_linked_same : forall h h' n d, hrel h h' -> render_linked E w h n d = render_linked E w' h' n d.
  Proof. intros h h' n d H. unfold render_linked. rewrite (attrs_same _ _ H). reflexivity. Qed.
  Lemma dataset_lines_same : forall h h' n d, hrel h h' -> dataset_lines E up ds nexus mm h n d = dataset_lines E up ds' nexus mm h' n d.
  Proof. intros h h' n d H. unfold dataset_lines. rewrite (ds_same _ _ H). reflexivity. Qed.
  Lemma elsewhere_same : forall h h', hrel h h' -> dataset_elsewhere E w nexus h = dataset_elsewhere E w' nexus h'.
  Proof. intros h h' H. unfold dataset_elsewhere. rewrite (attrs_same _ _ H), (name_same _ _ H). reflexivity. Qed.
  Lemma render_dataset_same : forall h h' n d, hrel h h' -> render_dataset E up w ds nexus mm at_ h n d = render_dataset E up w' ds' nexus mm at_ h' n d.
  Proof.
    intros h h' n d H. unfold render_dataset. rewrite (elsewhere_same _ _ H), (render_linked_same _ _ n d H), (dataset_lines_same _ _ n d H), (render_attributes_same _ _ d [] H).
    reflexivity.
  Qed.
  Lemma class_suffix_same : forall h h', hrel h h' -> class_suffix E w h = class_suffix E w' h'.
  Proof. intros h h' H. unfold class_suffix. rewrite (attrs_same _ _ H). reflexivity. Qed.

  Inductive shrel : shown -> shown -> Prop :=
  | shrel_now : forall l, shrel (Now l) (Now l)
  | shrel_later : forall h h' n md, hrel h h' -> shrel (Later h n md) (Later h' n md).

  Lemma dmem_file : forall f, F f f -> dmem f w = dmem f w'.
  Proof. intros f H. unfold dmem, amem. pose proof (F_same _ _ H) as D. unfold dget in D. destruct D; reflexivity. Qed.

  Lemma follow_same : forall h h' d n l, hrel h h' ->
    rrel shrel
     (dor v <- getitem w h n ; dor b <- isNeXusLink E w v ;
      if b then rmap Now (render_linked E w v n d)
      else if is_group_obj w v then Ok (Later v n l)
      else if isHdf5Dataset w v then
        dor s <- render_dataset E up w ds nexus mm at_ v n d ; dor x <- link_lines E at_ l d ; Ok (Now (s ++ x))
      else Exn RuntimeError)
     (dor v <- getitem w' h' n ; dor b <- isNeXusLink E w' v ;
      if b then rmap Now (render_linked E w' v n d)
      else if is_group_obj w' v then Ok (Later v n l)
      else if isHdf5Dataset w' v then
        dor s <- render_dataset E up w' ds' nexus mm at_ v n d ; dor x <- link_lines E at_ l d ; Ok (Now (s ++ x))
      else Exn RuntimeError).
  Proof.
    intros h h' d n l H. eapply rrel_bind; [apply getitem_same; exact H|]. intros v v' V. rewrite (nexus_link_same E _ _ V).
    destruct (isNeXusLink E w' v') as [b|e]; [|constructor]. cbn [rbind]. destruct b.
    - rewrite (render_linked_same _ _ n d V). destruct (render_linked E w' v' n d); constructor. constructor.
    - rewrite (group_obj_same _ _ V). destruct (is_group_obj w' v'); [constructor; constructor; exact V|].
      rewrite (dataset_same _ _ V). destruct (isHdf5Dataset w' v'); [|constructor].
      rewrite (render_dataset_same _ _ n d V). destruct (render_dataset E up w' ds' nexus mm at_ v' n d); [|constructor]. cbn [rbind].
      destruct (link_lines E at_ l d); constructor. constructor.
  Qed.

  Lemma render_member_same : forall h h' d n l, hrel h h' -> (forall x p, l = LExt x p -> F x x) ->
    rrel shrel (render_member E up w ds nexus mm at_ h d (n, l)) (render_member E up w' ds' nexus mm at_ h' d (n, l)).
  Proof.
    intros h h' d n l H L. unfold render_member. cbv zeta. destruct l as [o|p|x p].
    - apply follow_same. exact H.
    - constructor. constructor.
    - pose proof (L x p eq_refl) as Fx. rewrite (dmem_file _ Fx). destruct (dmem x w').
      + apply follow_same. exact H.
      + destruct (link_lines E at_ (LExt x p) d); constructor. constructor.
  Qed.

  Lemma traverse_rel : forall A B B' (V : B -> B' -> Prop) (f : A -> res B) (g : A -> res B') l, (forall x, In x l -> rrel V (f x) (g x)) ->
    rrel (Forall2 V) (traverse f l) (traverse g l).
  Proof.
    intros A B B' V f g l. induction l as [|x l IH]; intros H; [constructor; constructor|]. cbn [traverse].
    eapply rrel_bind; [apply H; left; reflexivity|]. intros b b' Hb. eapply rrel_bind; [apply IH; intros; apply H; right; assumption|].
    intros bs bs' Hbs. constructor. constructor; assumption.
  Qed.
  Lemma traverse_rel2 : forall A A' B (P : A -> A' -> Prop) (f : A -> res B) (g : A' -> res B) l l', Forall2 P l l' -> (forall x y, P x y -> f x = g y) ->
    traverse f l = traverse g l'.
  Proof.
    intros A A' B P f g l l' H Hf. induction H as [|x y l l' H0 H1 IH]; [reflexivity|]. cbn [traverse]. rewrite (Hf _ _ H0), IH. reflexivity.
  Qed.
  Lemma links_ext : forall h h' n x p, hrel h h' -> In (n, LExt x p) (links_of w h) -> F x x.
  Proof.
    intros h h' n x p H I. destruct H as [f g o m b H]. unfold links_of, obj_of, get_obj in I. cbn [h_file h_oid] in I.
    destruct (dget f w) as [[objs|]|] eqn:D; try contradiction I. destruct (nth_error objs o) as [ob|] eqn:N1; [|contradiction I].
    destruct (ob_kind ob) as [links| |] eqn:K; try contradiction I. apply nth_error_In in N1. eapply F_link; eauto.
  Qed.
  Definition lrel (a b : handle * pystr * link) : Prop := hrel (fst (fst a)) (fst (fst b)) /\ snd (fst a) = snd (fst b) /\ snd a = snd b.
  Lemma now_same : forall l l', Forall2 shrel l l' -> map now_of l = map now_of l'.
  Proof. intros l l' H. induction H as [|x y l l' H0 H1 IH]; [reflexivity|]. cbn [map]. rewrite IH. destruct H0; reflexivity. Qed.
  Lemma later_same : forall l l', Forall2 shrel l l' -> Forall2 lrel (List.concat (map later_of l)) (List.concat (map later_of l')).
  Proof.
    intros l l' H. induction H as [|x y l l' H0 H1 IH]; [constructor|]. cbn [map List.concat]. destruct H0; cbn [later_of app]; [exact IH|].
    constructor; [|exact IH]. split; [assumption|split; reflexivity].
  Qed.

  Definition below (k : nat) (h : handle) (d : nat) (md : link) (wx : world) (dx : handle -> dsview) : res (pystr * list line) :=
    match k with
    | O => Exn RecursionError
    | S k =>
        dor suffix <- class_suffix E wx h ;
        dor a <- render_attributes E wx at_ h d (link_extra md) ;
        dor ms <- traverse (render_member E up wx dx nexus mm at_ h (S d)) (sorted_items (links_of wx h)) ;
        dor gs <- traverse (fun g => render_group E up wx dx nexus mm at_ k (fst (fst g)) (snd (fst g)) (S d) (snd g)) (List.concat (map later_of ms)) ;
        Ok (suffix, a ++ List.concat (map now_of ms) ++ List.concat gs)
    end.
  Lemma render_below : forall k h n d md wx dx, render_group E up wx dx nexus mm at_ k h n d md
    = rmap (fun r => mkLine d (BGroup n (fst r)) :: snd r) (below k h d md wx dx).
  Proof.
    intros [|k] h n d md wx dx; [reflexivity|]. cbn [render_group below]. destruct (class_suffix E wx h); [|reflexivity]. cbn [rbind].
    destruct (render_attributes E wx at_ h d (link_extra md)); [|reflexivity]. cbn [rbind].
    destruct (traverse (render_member _ _ _ _ _ _ _ _ _) _); [|reflexivity]. cbn [rbind].
    destruct (traverse _ (List.concat (map later_of a1))); reflexivity.
  Qed.
  Lemma below_same : forall k h h' d md, hrel h h' -> below k h d md w ds = below k h' d md w' ds'.
  Proof.
    induction k as [|k IH]; intros h h' d md H; [reflexivity|]. cbn [below]. rewrite (class_suffix_same _ _ H), (render_attributes_same _ _ d _ H).
    destruct (class_suffix E w' h'); [|reflexivity]. cbn [rbind]. destruct (render_attributes E w' at_ h' d (link_extra md)); [|reflexivity]. cbn [rbind].
    assert (T : rrel (Forall2 shrel) (traverse (render_member E up w ds nexus mm at_ h (S d)) (sorted_items (links_of w h)))
                     (traverse (render_member E up w' ds' nexus mm at_ h' (S d)) (sorted_items (links_of w h)))).
    { apply traverse_rel. intros [n l] I. apply (Permutation_in _ (sorted_by_perm _ _)) in I. apply render_member_same; [exact H|].
      intros x p ->. eapply links_ext; eassumption. }
    rewrite (links_same _ _ H) in T at 2. destruct T as [ms ms' T|e]; [|reflexivity]. cbn [rbind]. rewrite (now_same _ _ T).
    rewrite (traverse_rel2 _ _ _ lrel _ (fun g => render_group E up w' ds' nexus mm at_ k (fst (fst g)) (snd (fst g)) (S d) (snd g)) _ _ (later_same _ _ T)).
    - reflexivity.
    - intros [[x n] l] [[y n'] l'] [R [R2 R3]]. cbn [fst snd] in *. subst n' l'. rewrite !render_below. rewrite (IH _ _ (S d) l R). reflexivity.
  Qed.
End Copy.

(** ** files with the same content *)
Definition pairs (w : world) (p p' : pystr) (f g : pystr) : Prop := (f = p /\ g = p') \/ (f = g /\ linked w p f).

Lemma pairs_same : forall w p w' p', same_content w p w' p' -> forall f g, pairs w p p' f g -> dget f w = dget g w'.
Proof. intros w p w' p' [H1 H2] f g [[-> ->]|[<- L]]; auto. Qed.
Lemma pairs_link : forall w p p' f g objs o links n x q, pairs w p p' f g -> dget f w = Some (FHdf5 objs) -> In o objs -> ob_kind o = KGroup links ->
    In (n, LExt x q) links -> pairs w p p' x x.
Proof.
  intros w p p' f g objs o links n x q [[-> ->]|[<- L]] D I K J; right; (split; [reflexivity|]).
  - eapply linked_direct; eassumption.
  - eapply linked_step; [exact L|]. eapply linked_direct; eassumption.
Qed.

Lemma same_but_refl : forall x, file_but_data x x.
Proof. intros [[f|]|]; constructor. induction f; constructor; auto. constructor. Qed.
Lemma pairs_alike : forall w p w' p', same_content w p w' p' -> forall f g, pairs w p p' f g -> file_but_data (dget f w) (dget g w').
Proof. intros w p w' p' H f g P. rewrite (pairs_same _ _ _ _ H _ _ P). apply same_but_refl. Qed.
Lemma pairs_read : forall w p w' p', same_content w p w' p' -> forall cl0 n h h' t t', read_by cl0 n -> hrel (pairs w p p') h h' -> getitem w h n = Ok t -> getitem w' h' n = Ok t' ->
  read_data w t = read_data w' t'.
Proof.
  intros w p w' p' H cl0 n h h' t t' _ R G G'. pose proof (getitem_same w w' _ (pairs_alike _ _ _ _ H) (pairs_link w p p') _ _ n R) as X. rewrite G, G' in X.
  inversion X as [a b Y|]; subst. destruct Y as [f g o m b P]. unfold read_data, obj_of, get_obj. cbn [h_file h_oid]. rewrite (pairs_same _ _ _ _ H _ _ P). reflexivity.
Qed.

Lemma srel_results : forall F cl0 s s', srel F cl0 s s' -> forall a b a' b', same_results (mkV a b s) (mkV a' b' s').
Proof.
  intros F cl0 s s' S a b a' b'. destruct S as [l l' x c f k cl H HC]. unfold same_results. cbn.
  repeat split; induction H as [|y z l l' H0 H1 IH]; cbn [map]; try reflexivity; destruct H0; cbn; f_equal; exact IH.
Qed.
Lemma same_results_refl : forall s a b a' b', same_results (mkV a b s) (mkV a' b' s).
Proof. intros. unfold same_results. cbn. repeat split. Qed.

Theorem validate_same : forall u w p w' p' v v1 r1 v2 r2, same_content w p w' p' ->
  validate u w v p = (v1, r1) -> validate u w' v p' = (v2, r2) -> r1 = r2 /\ same_results v1 v2.
Proof.
  intros u w p w' p' v v1 r1 v2 r2 H V1 V2. pose proof (proj1 H) as D. unfold validate in V1, V2. rewrite <- D in V2.
  destruct (dget p w) as [[objs|]|].
  - unfold mk_ctx in V1, V2.
    assert (R : hrel (pairs w p p') (open_root p) (open_root p')) by (constructor; left; split; reflexivity).
    assert (S : srel (pairs w p p') (st_classes (v_st v)) (fresh_state (st_classes (v_st v))) (fresh_state (st_classes (v_st v)))) by (constructor; [constructor|reflexivity]).
    pose proof (m_validate w w' (pairs w p p') (pairs_alike _ _ _ _ H) (pairs_link w p p') (st_classes (v_st v)) (pairs_read _ _ _ _ H _) (u_env u) _ _ (u_patterns u) (u_reclimit u) (u_field_minOccurs u) R _ _ S) as [S1 R1].
    destruct (validate_open _ _) as [s1 x1]. destruct (validate_open (mkCtx _ w' _ _ _ _) _) as [s2 x2]. cbn [fst snd] in S1, R1.
    inversion V1; subst. inversion V2; subst. split; [destruct R1; [subst; reflexivity|reflexivity]|]. eapply srel_results. exact S1.
  - inversion V1; subst. inversion V2; subst. split; [reflexivity|]. apply same_results_refl.
  - inversion V1; subst. inversion V2; subst. split; [reflexivity|]. destruct v2. apply same_results_refl.
Qed.

Theorem nexus_same : forall E w p w' p', same_content w p w' p' -> isNeXusFile E w p = isNeXusFile E w' p'.
Proof.
  intros E w p w' p' H. unfold isNeXusFile. rewrite <- (proj1 H). destruct (dget p w) as [[objs|]|]; try reflexivity.
  assert (R : hrel (pairs w p p') (open_root p) (open_root p')) by (constructor; left; split; reflexivity).
  rewrite (links_same w w' _ (pairs_alike _ _ _ _ H) _ _ R).
  rewrite (any_entry_same w w' _ (pairs_alike _ _ _ _ H) (pairs_link w p p') E _ _ _ R). reflexivity.
Qed.

Lemma map_rmap : forall A B C (f : A -> B) (g : B -> C) r, rmap g (rmap f r) = rmap (fun x => g (f x)) r.
Proof. intros A B C f g [a|e]; reflexivity. Qed.

Definition tree_of (E : env) (up : pystr -> pystr) (w : world) (d : handle -> dsview) (fuel : nat) (p : pystr) (attrs : bool) : res (option (list pystr)) :=
  dor t <- new_tree E w p ; tree_report E up w d fuel t attrs.

Theorem tree_same : forall E up w p w' p' d d' fuel attrs, same_content w p w' p' ->
  (forall f g o n b, (f = p /\ g = p') \/ (f = g /\ linked w p f) -> d (mkH f o n b) = d' (mkH g o n b)) ->
  exists r, tree_of E up w d fuel p attrs = rmap (option_map (fun x => (p ++ fst x) :: snd x)) r
         /\ tree_of E up w' d' fuel p' attrs = rmap (option_map (fun x => (p' ++ fst x) :: snd x)) r.
Proof.
  intros E up w p w' p' d d' fuel attrs H D. unfold tree_of, new_tree. rewrite <- (nexus_same E _ _ _ _ H). rewrite <- (proj1 H).
  destruct (dget p w) as [fs|] eqn:G; [|exists (Ok None); split; reflexivity].
  destruct (isNeXusFile E w p) as [b|e] eqn:N1; [|exists (Exn e); split; reflexivity]. cbn [rbind].
  unfold tree_report, tree_lines. cbn [t_filename t_nexus t_items]. rewrite <- (proj1 H), G.
  destruct fs as [objs|]; [|exists (Exn OSError); split; reflexivity]. cbv zeta.
  set (nx := match b with Some true => true | _ => false end).
  assert (R : hrel (pairs w p p') (open_root p) (open_root p')) by (constructor; left; split; reflexivity).
  assert (D2 : forall h h', hrel (pairs w p p') h h' -> d h = d' h').
  { intros h h' X. destruct X as [f g o n bb X]. apply D. exact X. }
  pose proof (below_same w w' _ (pairs_alike _ _ _ _ H) (pairs_link w p p') E up d d' nx 5 attrs D2 fuel _ _ 0 (LHard 0) R) as B.
  rewrite !render_below. rewrite <- B. destruct (below E up nx 5 attrs fuel (open_root p) 0 (LHard 0) w d) as [[sfx ls]|e]; [|exists (Exn e); split; reflexivity].
  exists (Ok (Some ((if nx then py " : NeXus data file" else []) ++ sfx, map text_of ls))).
  cbn [rmap option_map fst snd rbind map]. unfold text_of at 1 3, indent. cbn [ln_depth ln_body body_text repeat Nat.mul app].
  rewrite !app_assoc. split; reflexivity.
Qed.

(** the files external links of some file name *)
Definition targets_of (fs : fstate) : list pystr :=
  match fs with
  | FHdf5 objs => flat_map (fun o => match ob_kind o with
                                     | KGroup links => flat_map (fun nl => match snd nl with LExt f _ => [f] | _ => [] end) links
                                     | _ => []
                                     end) objs
  | FOther => []
  end.
Definition targets (w : world) : list pystr := flat_map (fun nf => targets_of (snd nf)) w.
Lemma linked_target : forall w p f, linked w p f -> In f (targets w).
Proof.
  intros w p f L. induction L as [p objs o links n f q D I K J|p f g L1 IH1 L2 IH2]; [|exact IH2].
  apply dget_In in D. unfold targets. apply in_flat_map. exists (p, FHdf5 objs). split; [exact D|]. cbn [snd targets_of].
  apply in_flat_map. exists o. split; [exact I|]. rewrite K. apply in_flat_map. exists (n, LExt f q). split; [exact J|]. left. reflexivity.
Qed.

(** ** files that differ in their data *)
Lemma hrel_eq : forall h h', hrel eq h h' -> h = h'.
Proof. intros h h' H. destruct H as [f g o n b <-]. reflexivity. Qed.
Lemma irel_eq : forall l l', Forall2 (irel eq) l l' -> l = l'.
Proof.
  intros l l' H. induction H as [|x y l l' R H IH]; [reflexivity|]. rewrite IH. f_equal. destruct R as [p o o' n a c x v O]. f_equal. destruct O as [h h' O|]; [|reflexivity].
  rewrite (hrel_eq _ _ O). reflexivity.
Qed.
Lemma srel_eq : forall cl0 s s', srel eq cl0 s s' -> s = s'.
Proof. intros cl0 s s' [l l' a c f k cl H _]. rewrite (irel_eq _ _ H). reflexivity. Qed.
Lemma hrel_refl : forall h, hrel eq h h.
Proof. intros [f o n b]. constructor. reflexivity. Qed.
Lemma same_but_files : forall w w', same_but_data w w' -> forall f g, f = g -> file_but_data (dget f w) (dget g w').
Proof. intros w w' H f g <-. apply H. Qed.

Theorem validate_data : forall u w w' v p, same_but_data w w' -> (forall n, read_by (st_classes (v_st v)) n -> kept w w' n) -> validate u w v p = validate u w' v p.
Proof.
  intros u w w' v p H K. unfold validate. pose proof (H p) as D. destruct D as [| |f f' Hf]; try reflexivity. unfold mk_ctx.
  assert (FL : forall (f g : pystr) (objs : h5file) (o : h5obj) (links : dict link) (n x q : pystr), f = g -> dget f w = Some (FHdf5 objs) -> In o objs -> ob_kind o = KGroup links ->
    In (n, LExt x q) links -> x = x) by reflexivity.
  assert (RD : forall n h h' t t', read_by (st_classes (v_st v)) n -> hrel eq h h' -> getitem w h n = Ok t -> getitem w' h' n = Ok t' -> read_data w t = read_data w' t').
  { intros n h h' t t' R E G G'. pose proof (getitem_same w w' eq (same_but_files _ _ H) FL _ _ n E) as X. rewrite G, G' in X. inversion X as [a b Y|]; subst. rewrite <- (hrel_eq _ _ Y).
    unfold read_data. rewrite (K n R h t G). reflexivity. }
  assert (S : srel eq (st_classes (v_st v)) (fresh_state (st_classes (v_st v))) (fresh_state (st_classes (v_st v)))) by (constructor; [constructor|reflexivity]).
  pose proof (m_validate w w' eq (same_but_files _ _ H) FL (st_classes (v_st v)) RD (u_env u) _ _ (u_patterns u) (u_reclimit u) (u_field_minOccurs u) (hrel_refl (open_root p)) _ _ S) as [S1 R1].
  destruct (validate_open _ _) as [s1 x1]. destruct (validate_open (mkCtx _ w' _ _ _ _) _) as [s2 x2]. cbn [fst snd] in S1, R1.
  rewrite (srel_eq _ _ _ S1). destruct R1 as [a b R1|e]; [rewrite R1|]; reflexivity.
Qed.
