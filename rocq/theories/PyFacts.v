(** * Facts about the Python base library of [PyBase] *)

From Coq Require Import List NArith ZArith Bool Ascii String Lia Permutation Sorted.
From Verif Require Import PyBase.
Import ListNotations.

(** ** Text equality *)
Lemma str_eqb_refl : forall a, str_eqb a a = true.
Proof. induction a; simpl; auto. rewrite N.eqb_refl; auto. Qed.

Lemma str_eqb_eq : forall a b, str_eqb a b = true <-> a = b.
Proof.
  induction a; destruct b; simpl; split; intros; try congruence; auto.
  - apply andb_true_iff in H as [H1 H2]. apply N.eqb_eq in H1. apply IHa in H2. congruence.
  - inversion H; subst. rewrite N.eqb_refl. apply IHa. auto.
Qed.

Lemma str_eqb_neq : forall a b, str_eqb a b = false <-> a <> b.
Proof.
  intros. rewrite <- str_eqb_eq. destruct (str_eqb a b); split; congruence.
Qed.

Lemma str_eqb_spec : forall a b, reflect (a = b) (str_eqb a b).
Proof. intros. apply iff_reflect. symmetry. apply str_eqb_eq. Qed.

Lemma str_eqb_sym : forall a b, str_eqb a b = str_eqb b a.
Proof.
  intros. destruct (str_eqb_spec a b), (str_eqb_spec b a); congruence.
Qed.

Definition str_eq_dec (a b : pystr) : {a = b} + {a <> b} := list_eq_dec N.eq_dec a b.

Lemma ostr_eqb_eq : forall a b, ostr_eqb a b = true <-> a = b.
Proof.
  destruct a, b; simpl; split; intros; try congruence; auto.
  - apply str_eqb_eq in H. congruence.
  - inversion H. apply str_eqb_refl.
Qed.

(** ** startswith / endswith / contains *)
Lemma startswith_spec : forall s p, startswith s p = true <-> exists t, s = p ++ t.
Proof.
  intros s p. revert s. induction p; intros s; simpl.
  - split; eauto.
  - destruct s as [|y s].
    + split; [discriminate | intros [t H]; discriminate].
    + rewrite andb_true_iff, N.eqb_eq, IHp. split.
      * intros [-> [t ->]]. exists t. reflexivity.
      * intros [t H]. inversion H. split; eauto.
Qed.

Lemma startswith_app : forall p t, startswith (p ++ t) p = true.
Proof. intros. apply startswith_spec. eauto. Qed.

Lemma endswith_spec : forall s p, endswith s p = true <-> exists t, s = t ++ p.
Proof.
  intros. unfold endswith. rewrite startswith_spec. split; intros [t H].
  - exists (rev t). rewrite <- (rev_involutive s), H, rev_app_distr, rev_involutive. reflexivity.
  - exists (rev t). rewrite H, rev_app_distr. reflexivity.
Qed.

Lemma contains_sub_spec : forall s p, contains_sub s p = true <-> exists a b, s = a ++ p ++ b.
Proof.
  intros s p. induction s as [|x s IH]; simpl.
  - rewrite orb_false_r, startswith_spec. split.
    + intros [t H]. exists [], t. exact H.
    + intros [a [b H]]. symmetry in H. apply app_eq_nil in H as [-> H].
      exists b. simpl. symmetry. exact H.
  - rewrite orb_true_iff, startswith_spec, IH. split.
    + intros [[t H] | [a [b H]]].
      * exists [], t. exact H.
      * exists (x :: a), b. simpl. congruence.
    + intros [[|y a] [b H]].
      * left. exists b. exact H.
      * right. exists a, b. simpl in H. congruence.
Qed.

Lemma has_char_spec : forall c s, has_char c s = true <-> In c s.
Proof.
  intros. unfold has_char. rewrite existsb_exists. split.
  - intros [x [H E]]. apply N.eqb_eq in E. congruence.
  - intros. exists c. split; auto. apply N.eqb_refl.
Qed.

Lemma has_char_false : forall c s, has_char c s = false <-> ~ In c s.
Proof. intros. rewrite <- has_char_spec. destruct (has_char c s); split; congruence. Qed.

Lemma has_char_app : forall c a b, has_char c (a ++ b) = has_char c a || has_char c b.
Proof. intros. unfold has_char. apply existsb_app. Qed.

(** ** split *)
Lemma split_nonnil : forall c s, split c s <> [].
Proof.
  intros c s. destruct s; simpl; try discriminate.
  destruct (N.eqb n c); try discriminate. destruct (split c s); discriminate.
Qed.

Lemma split_no_sep : forall c s, ~ In c s -> split c s = [s].
Proof.
  induction s as [|x s IH]; simpl; intros; auto.
  destruct (N.eqb_spec x c). { subst. tauto. }
  rewrite IH by tauto. reflexivity.
Qed.

Lemma split_app_sep : forall c a b, ~ In c a -> split c (a ++ c :: b) = a :: split c b.
Proof.
  induction a as [|x a IH]; simpl; intros.
  - rewrite N.eqb_refl. reflexivity.
  - destruct (N.eqb_spec x c). { subst. tauto. }
    rewrite IH by tauto. reflexivity.
Qed.

Lemma split_parts_no_sep : forall c s w, In w (split c s) -> ~ In c w.
Proof.
  induction s as [|x s IH]; simpl; intros w H.
  - destruct H as [<-|[]]. tauto.
  - destruct (N.eqb_spec x c).
    + destruct H as [<-|H]; [tauto | auto].
    + destruct (split c s) as [|w0 ws] eqn:E.
      * destruct H as [<-|[]]. simpl. intuition.
      * destruct H as [<-|H].
        -- simpl. intros [->|Hin]; [congruence|]. apply (IH w0); [left; reflexivity | exact Hin].
        -- apply IH. right. exact H.
Qed.

Lemma join_split : forall c s, join [c] (split c s) = s.
Proof.
  induction s as [|x s IH]; simpl; auto.
  destruct (N.eqb_spec x c).
  - subst. destruct (split c s) eqn:E. { destruct (split_nonnil c s E). }
    simpl in *. rewrite IH. reflexivity.
  - destruct (split c s) as [|w ws] eqn:E. { destruct (split_nonnil c s E). }
    destruct ws; simpl in *; rewrite <- IH; reflexivity.
Qed.

(** the last part of a text with a separator *)
Lemma last_part_app : forall c a b, ~ In c b -> last_part c (a ++ c :: b) = b.
Proof.
  intros c a b Hb. unfold last_part. induction a as [|x a IH]; simpl.
  - rewrite N.eqb_refl, (split_no_sep c b Hb). reflexivity.
  - destruct (N.eqb_spec x c).
    + destruct (split c (a ++ c :: b)) eqn:E. { destruct (split_nonnil _ _ E). }
      simpl. simpl in IH. exact IH.
    + destruct (split c (a ++ c :: b)) as [|w ws] eqn:E. { destruct (split_nonnil _ _ E). }
      destruct ws as [|w2 ws].
      * exfalso. assert (H : In c (join [c] (split c (a ++ c :: b)))).
        { rewrite join_split. apply in_or_app. right. left. reflexivity. }
        rewrite E in H. simpl in H.
        assert (Hw : ~ In c w). { apply (split_parts_no_sep c (a ++ c :: b)). rewrite E. left. reflexivity. }
        tauto.
      * simpl in *. exact IH.
Qed.

Lemma last_In : forall {A} (l : list A) d, l <> [] -> In (last l d) l.
Proof.
  induction l as [|x l IH]; intros; [congruence|]. destruct l as [|y l].
  - left. reflexivity.
  - right. apply IH. discriminate.
Qed.

Lemma last_part_no_sep : forall c s, ~ In c (last_part c s).
Proof.
  intros. apply (split_parts_no_sep c s). apply last_In. apply split_nonnil.
Qed.

(** ** Dictionaries *)
Section DictFacts.
  Context {K V : Type} (keqb : K -> K -> bool).
  Hypothesis keqb_eq : forall a b, keqb a b = true <-> a = b.

  Lemma keqb_refl : forall a, keqb a a = true.
  Proof. intros. apply keqb_eq. reflexivity. Qed.

  Lemma aget_aset_same : forall k (v : V) d, aget keqb k (aset keqb k v d) = Some v.
  Proof.
    induction d as [|[k' v'] d IH]; simpl.
    - rewrite keqb_refl. reflexivity.
    - destruct (keqb k k') eqn:E; simpl; rewrite E; auto.
  Qed.

  Lemma aget_aset_other : forall k k' (v : V) d, k <> k' ->
    aget keqb k' (aset keqb k v d) = aget keqb k' d.
  Proof.
    intros k k' v d Hne. induction d as [|[k0 v0] d IH]; simpl.
    - destruct (keqb k' k) eqn:E; auto. apply keqb_eq in E. congruence.
    - destruct (keqb k k0) eqn:E; simpl.
      + apply keqb_eq in E. subst k0. destruct (keqb k' k) eqn:E'; auto.
        apply keqb_eq in E'. congruence.
      + destruct (keqb k' k0); auto.
  Qed.

  Lemma aget_In : forall k (v : V) d, aget keqb k d = Some v -> In (k, v) d.
  Proof.
    induction d as [|[k' v'] d IH]; simpl; intros; [discriminate|].
    destruct (keqb k k') eqn:E.
    - apply keqb_eq in E. left. congruence.
    - right. auto.
  Qed.

  Lemma aget_None : forall k (d : list (K * V)), aget keqb k d = None <-> ~ In k (map fst d).
  Proof.
    induction d as [|[k' v'] d IH]; simpl; [tauto|].
    destruct (keqb k k') eqn:E.
    - apply keqb_eq in E. split; [discriminate | intros H; exfalso; apply H; auto].
    - rewrite IH. split; intros H; [intros [->|H']; [|tauto] | tauto].
      rewrite keqb_refl in E. discriminate.
  Qed.

  Lemma amem_In : forall k (d : list (K * V)), amem keqb k d = true <-> In k (map fst d).
  Proof.
    intros. unfold amem. destruct (aget keqb k d) eqn:E.
    - apply aget_In in E. split; auto. intros _. apply in_map_iff. exists (k, v). auto.
    - apply aget_None in E. split; [discriminate | tauto].
  Qed.

  Lemma In_aget_NoDup : forall k (v : V) d, NoDup (map fst d) -> In (k, v) d -> aget keqb k d = Some v.
  Proof.
    induction d as [|[k' v'] d IH]; simpl; intros Hnd H; [tauto|].
    inversion Hnd; subst. destruct H as [H|H].
    - inversion H; subst. rewrite keqb_refl. reflexivity.
    - destruct (keqb k k') eqn:E; auto. apply keqb_eq in E. subst.
      exfalso. apply H2. apply in_map_iff. exists (k', v). auto.
  Qed.

  Lemma aset_keys_mem : forall k (v : V) d, amem keqb k d = true -> map fst (aset keqb k v d) = map fst d.
  Proof.
    unfold amem. induction d as [|[k' v'] d IH]; simpl; intros; [discriminate|].
    destruct (keqb k k') eqn:E; simpl; auto. f_equal. auto.
  Qed.

  Lemma aset_fresh : forall k (v : V) d, amem keqb k d = false -> aset keqb k v d = d ++ [(k, v)].
  Proof.
    unfold amem. induction d as [|[k' v'] d IH]; simpl; intros; auto.
    destruct (keqb k k') eqn:E; [discriminate|]. rewrite IH; auto.
  Qed.

  Lemma aset_NoDup : forall k (v : V) d, NoDup (map fst d) -> NoDup (map fst (aset keqb k v d)).
  Proof.
    intros. destruct (amem keqb k d) eqn:E.
    - rewrite aset_keys_mem; auto.
    - rewrite aset_fresh; auto. rewrite map_app. simpl.
      rewrite <- rev_involutive at 1. apply NoDup_rev. rewrite rev_app_distr. simpl.
      constructor.
      + rewrite <- in_rev. intros H'. apply amem_In in H'. congruence.
      + apply NoDup_rev. auto.
  Qed.

  Lemma In_aset : forall k (v : V) d k' v', In (k', v') (aset keqb k v d) ->
    (k' = k /\ v' = v) \/ In (k', v') d.
  Proof.
    induction d as [|[k0 v0] d IH]; simpl; intros k' v' H.
    - destruct H as [H|[]]. inversion H. auto.
    - destruct (keqb k k0) eqn:E.
      + destruct H as [H|H]; auto. inversion H; subst. apply keqb_eq in E. auto.
      + destruct H as [H|H]; auto. apply IH in H. tauto.
  Qed.

  Lemma In_keys_aset : forall k (v : V) d k', In k' (map fst (aset keqb k v d)) <-> k' = k \/ In k' (map fst d).
  Proof.
    induction d as [|[k0 v0] d IH]; simpl; intros k'.
    - intuition.
    - destruct (keqb k k0) eqn:E; simpl.
      + apply keqb_eq in E. subst. intuition.
      + rewrite IH. intuition.
  Qed.

  Lemma aget_app : forall k (d1 d2 : list (K * V)),
    aget keqb k (d1 ++ d2) = match aget keqb k d1 with Some v => Some v | None => aget keqb k d2 end.
  Proof.
    induction d1 as [|[k' v'] d1 IH]; simpl; intros; auto. destruct (keqb k k'); auto.
  Qed.
End DictFacts.

Lemma dget_dset_same : forall V k (v : V) d, dget k (dset k v d) = Some v.
Proof. intros. apply aget_aset_same. apply str_eqb_eq. Qed.

Lemma dget_dset_other : forall V k k' (v : V) d, k <> k' -> dget k' (dset k v d) = dget k' d.
Proof. intros. apply aget_aset_other; auto. apply str_eqb_eq. Qed.

Lemma dget_In : forall V k (v : V) d, dget k d = Some v -> In (k, v) d.
Proof. intros. eapply aget_In; eauto. apply str_eqb_eq. Qed.

Lemma dget_None : forall V k (d : dict V), dget k d = None <-> ~ In k (map fst d).
Proof. intros. apply aget_None. apply str_eqb_eq. Qed.

Lemma dmem_In : forall V k (d : dict V), dmem k d = true <-> In k (map fst d).
Proof. intros. apply amem_In. apply str_eqb_eq. Qed.

Lemma dset_NoDup : forall V k (v : V) d, NoDup (map fst d) -> NoDup (map fst (dset k v d)).
Proof. intros. apply aset_NoDup; auto. apply str_eqb_eq. Qed.

Lemma dset_fresh : forall V k (v : V) d, dmem k d = false -> dset k v d = d ++ [(k, v)].
Proof. intros. apply aset_fresh; auto. Qed.

(** ** Order on text *)
Lemma str_leb_refl : forall a, str_leb a a = true.
Proof. induction a; simpl; auto. rewrite N.ltb_irrefl, N.eqb_refl. auto. Qed.

Lemma str_leb_total : forall a b, str_leb a b = true \/ str_leb b a = true.
Proof.
  induction a; destruct b; simpl; auto.
  destruct (N.ltb_spec a n); auto. destruct (N.ltb_spec n a); auto.
  assert (a = n) by lia. subst. rewrite N.eqb_refl. apply IHa.
Qed.

Lemma str_leb_trans : forall a b c, str_leb a b = true -> str_leb b c = true -> str_leb a c = true.
Proof.
  induction a; destruct b; destruct c; simpl; auto; try discriminate.
  destruct (N.ltb_spec a n).
  - intros _. destruct (N.ltb_spec n n0).
    + intros _. destruct (N.ltb_spec a n0); auto. lia.
    + destruct (N.eqb_spec n n0); [|discriminate]. intros _.
      destruct (N.ltb_spec a n0); auto. lia.
  - destruct (N.eqb_spec a n); [|discriminate]. subst. intros H1.
    destruct (N.ltb_spec n n0); auto.
    destruct (N.eqb_spec n n0); [|discriminate]. apply IHa. exact H1.
Qed.

Lemma str_leb_antisym : forall a b, str_leb a b = true -> str_leb b a = true -> a = b.
Proof.
  induction a; destruct b; simpl; intros H1 H2; auto; try discriminate.
  destruct (N.ltb_spec a n); destruct (N.ltb_spec n a); try lia.
  - destruct (N.eqb_spec n a); [lia | discriminate].
  - destruct (N.eqb_spec a n); [lia | discriminate].
  - destruct (N.eqb_spec a n); [|discriminate]. subst.
    rewrite N.eqb_refl in H2. f_equal. apply IHa; auto.
Qed.

(** ** Sorting *)
Section SortFacts.
  Context {A : Type} (leb : A -> A -> bool).
  Hypothesis leb_total : forall x y, leb x y = true \/ leb y x = true.
  Hypothesis leb_trans : forall x y z, leb x y = true -> leb y z = true -> leb x z = true.

  Lemma sinsert_perm : forall x l, Permutation (sinsert leb x l) (x :: l).
  Proof.
    induction l as [|y l IH]; simpl; auto. destruct (leb x y); auto.
    rewrite IH. apply perm_swap.
  Qed.

  Lemma ssort_perm : forall l, Permutation (ssort leb l) l.
  Proof. induction l; simpl; auto. rewrite sinsert_perm. auto. Qed.

  Lemma sinsert_sorted : forall x l,
    StronglySorted (fun a b => leb a b = true) l ->
    StronglySorted (fun a b => leb a b = true) (sinsert leb x l).
  Proof.
    induction l as [|y l IH]; simpl; intros H.
    - repeat constructor.
    - inversion H; subst. destruct (leb x y) eqn:E.
      + constructor; auto. constructor; auto.
        eapply Forall_impl; [|exact H3]. intros a Ha. eapply leb_trans; eauto.
      + constructor; auto.
        assert (Hyx : leb y x = true). { destruct (leb_total x y); congruence. }
        eapply Permutation_Forall; [apply Permutation_sym, sinsert_perm|]. constructor; auto.
  Qed.

  Lemma ssort_sorted : forall l, StronglySorted (fun a b => leb a b = true) (ssort leb l).
  Proof. induction l; simpl; [constructor | apply sinsert_sorted; auto]. Qed.

  (** stability: elements that are equivalent to a pivot keep their order *)
  Definition equiv (p x : A) : bool := leb p x && leb x p.

  Lemma sinsert_filter_equiv : forall p x l,
    StronglySorted (fun a b => leb a b = true) l ->
    filter (equiv p) (sinsert leb x l) = filter (equiv p) (x :: l).
  Proof.
    induction l as [|y l IH]; intros H; [reflexivity|].
    inversion H; subst. simpl sinsert. destruct (leb x y) eqn:E; [reflexivity|].
    simpl filter at 1. rewrite IH by assumption. simpl.
    destruct (equiv p x) eqn:Ex; auto. destruct (equiv p y) eqn:Ey; auto.
    exfalso. unfold equiv in *. apply andb_true_iff in Ex as [? Ex].
    apply andb_true_iff in Ey as [Ey ?].
    rewrite (leb_trans x p y) in E; auto; discriminate.
  Qed.

  Lemma ssort_stable : forall p l, filter (equiv p) (ssort leb l) = filter (equiv p) l.
  Proof.
    induction l; simpl; auto. rewrite sinsert_filter_equiv by apply ssort_sorted.
    simpl. rewrite IHl. reflexivity.
  Qed.
End SortFacts.

Section SortedByFacts.
  Context {A : Type} (f : A -> pystr).
  Lemma sorted_by_perm : forall l, Permutation (sorted_by f l) l.
  Proof. intros. apply ssort_perm. Qed.
  Lemma sorted_by_sorted : forall l,
    StronglySorted (fun a b => str_leb (f a) (f b) = true) (sorted_by f l).
  Proof.
    intros. unfold sorted_by. apply (ssort_sorted (fun x y => str_leb (f x) (f y))).
    - intros. apply str_leb_total.
    - intros x y z. apply str_leb_trans.
  Qed.
  Lemma sorted_by_stable : forall k l,
    filter (fun x => str_eqb (f x) k) (sorted_by f l) = filter (fun x => str_eqb (f x) k) l.
  Proof.
    intros k l.
    destruct (existsb (fun x => str_eqb (f x) k) l) eqn:E.
    - apply existsb_exists in E as [p [_ Hp]]. apply str_eqb_eq in Hp.
      assert (Heq : forall x, equiv (fun x y => str_leb (f x) (f y)) p x = str_eqb (f x) k).
      { intros x. unfold equiv. rewrite Hp.
        destruct (str_eqb_spec (f x) k) as [->|Hne].
        - rewrite !str_leb_refl. reflexivity.
        - apply andb_false_iff. destruct (str_leb k (f x)) eqn:E1; auto.
          destruct (str_leb (f x) k) eqn:E2; auto. exfalso. apply Hne. apply str_leb_antisym; auto. }
      rewrite <- (filter_ext _ _ Heq), <- (filter_ext _ _ Heq).
      apply ssort_stable.
      + intros. apply str_leb_total.
      + intros x y z. apply str_leb_trans.
    - assert (H : forall l', Permutation l' l -> filter (fun x => str_eqb (f x) k) l' = []).
      { intros l' HP. destruct (filter (fun x => str_eqb (f x) k) l') as [|x r] eqn:F; auto.
        exfalso. assert (Hx : In x (filter (fun x => str_eqb (f x) k) l')) by (rewrite F; left; auto).
        apply filter_In in Hx as [Hin Hx].
        assert (existsb (fun x => str_eqb (f x) k) l = true); [|congruence].
        apply existsb_exists. exists x. split; auto. eapply Permutation_in; eauto. }
      rewrite H by apply sorted_by_perm. rewrite H by auto. reflexivity.
  Qed.
  Lemma sorted_by_In : forall x l, In x (sorted_by f l) <-> In x l.
  Proof.
    intros. split; apply Permutation_in; [apply sorted_by_perm | apply Permutation_sym, sorted_by_perm].
  Qed.
End SortedByFacts.

Lemma sorted_by_NoDup_keys : forall V (d : dict V), NoDup (map fst d) -> NoDup (map fst (sorted_by fst d)).
Proof.
  intros. eapply Permutation_NoDup; [|exact H]. apply Permutation_map, Permutation_sym, sorted_by_perm.
Qed.
