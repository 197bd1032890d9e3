(** * Facts about loading NXDL files *)

From Coq Require Import List NArith ZArith Bool String Lia Permutation Sorted.
From Verif Require Import PyBase PyFacts NameFacts Nxdl NxdlLoad Spec_Nxdl.
Import ListNotations.
Open Scope string_scope.
Open Scope list_scope.

(** ** The search for a free name *)
Lemma used_In : forall names n, used names n = true <-> In n names.
Proof.
  intros. unfold used. rewrite existsb_exists. split.
  - intros [x [Hx E]]. apply str_eqb_eq in E. subst. auto.
  - intros. exists n. split; auto. apply str_eqb_refl.
Qed.

Lemma used_false : forall names n, used names n = false <-> ~ In n names.
Proof.
  intros. rewrite <- used_In. destruct (used names n); split; intros; auto; try discriminate.
  exfalso. auto.
Qed.

Lemma free_suffix_spec : forall fuel names base i0 i,
  free_suffix fuel names base i0 = Some i ->
  i0 <= i /\ ~ In (base ++ str_nat i) names /\ forall j, i0 <= j < i -> In (base ++ str_nat j) names.
Proof.
  induction fuel; simpl; intros; try discriminate.
  destruct (used names (base ++ str_nat i0)) eqn:E.
  - apply IHfuel in H as (A & B & C). split; [lia|]. split; auto.
    intros j Hj. destruct (Nat.eq_dec j i0) as [-> | N]; [apply used_In; auto | apply C; lia].
  - inversion H; subst. split; [lia|]. split; [apply used_false; auto | intros; lia].
Qed.

Lemma free_suffix_none : forall fuel names base i0,
  free_suffix fuel names base i0 = None -> forall j, i0 <= j < i0 + fuel -> In (base ++ str_nat j) names.
Proof.
  induction fuel; simpl; intros; try lia.
  destruct (used names (base ++ str_nat i0)) eqn:E; try discriminate.
  destruct (Nat.eq_dec j i0) as [-> | N]; [apply used_In; auto|].
  eapply IHfuel; eauto. lia.
Qed.

Lemma NoDup_map_inj : forall {A B} (f : A -> B) l, (forall x y, In x l -> In y l -> f x = f y -> x = y) ->
  NoDup l -> NoDup (map f l).
Proof.
  induction l; simpl; intros Hi Hn; constructor; inversion Hn; subst.
  - rewrite in_map_iff. intros [y [E Hy]]. apply Hi in E; auto. subst. contradiction.
  - apply IHl; auto.
Qed.

Lemma free_suffix_total : forall names base i0 fuel, List.length names < fuel ->
  exists i, free_suffix fuel names base i0 = Some i.
Proof.
  intros names base i0 fuel Hf. destruct (free_suffix fuel names base i0) eqn:E; eauto.
  exfalso. pose proof (free_suffix_none _ _ _ _ E) as H.
  assert (Hn : NoDup (map (fun j => base ++ str_nat j) (seq i0 fuel))).
  { apply NoDup_map_inj; [|apply seq_NoDup]. intros x y _ _ Q. apply app_inv_head in Q. apply str_nat_inj; auto. }
  assert (Hi : incl (map (fun j => base ++ str_nat j) (seq i0 fuel)) names).
  { intros x Hx. apply in_map_iff in Hx as [j [<- Hj]]. apply in_seq in Hj. apply H. lia. }
  pose proof (NoDup_incl_length Hn Hi) as L. rewrite map_length, seq_length in L. unfold pystr in *. lia.
Qed.

Lemma smallest_free_unique : forall names base i i',
  1 <= i -> 1 <= i' -> ~ In (base ++ str_nat i) names -> ~ In (base ++ str_nat i') names ->
  (forall j, 1 <= j < i -> In (base ++ str_nat j) names) ->
  (forall j, 1 <= j < i' -> In (base ++ str_nat j) names) -> i = i'.
Proof.
  intros names base i i' H1 H2 N1 N2 F1 F2. destruct (Nat.lt_trichotomy i i') as [L | [L | L]]; auto.
  - exfalso. apply N1, F2. lia.
  - exfalso. apply N2, F1. lia.
Qed.

(** the search ends, whatever the bound on the rounds, at the same number *)
Lemma search_ends : forall names base, exists i,
  1 <= i <= S (List.length names) /\ ~ In (base ++ str_nat i) names
  /\ (forall j, 1 <= j < i -> In (base ++ str_nat j) names)
  /\ forall fuel, List.length names < fuel -> free_suffix fuel names base 1 = Some i.
Proof.
  intros. destruct (free_suffix_total names base 1 (S (List.length names)) (Nat.lt_succ_diag_r _)) as [i E].
  destruct (free_suffix_spec _ _ _ _ _ E) as (A & B & C).
  exists i. split; [|split; [auto | split; [auto|]]].
  - split; auto.
    assert (Hn : NoDup (map (fun j => base ++ str_nat j) (seq 1 (i - 1)))).
    { apply NoDup_map_inj; [|apply seq_NoDup]. intros x y _ _ Q. apply app_inv_head in Q. apply str_nat_inj; auto. }
    assert (Hi : incl (map (fun j => base ++ str_nat j) (seq 1 (i - 1))) names).
    { intros x Hx. apply in_map_iff in Hx as [j [<- Hj]]. apply in_seq in Hj. apply C. lia. }
    pose proof (NoDup_incl_length Hn Hi) as L. rewrite map_length, seq_length in L. unfold pystr in *. lia.
  - intros fuel Hf. destruct (free_suffix_total names base 1 fuel Hf) as [i' E'].
    destruct (free_suffix_spec _ _ _ _ _ E') as (A' & B' & C').
    rewrite E'. f_equal. eapply smallest_free_unique; eauto.
Qed.

Lemma ensure_unique_ok : forall names name, exists new,
  ensure_unique_name names name = Ok new /\ new_name names name new.
Proof.
  intros. unfold ensure_unique_name. destruct (used names name) eqn:U.
  - destruct (search_ends names name) as (i & A & B & C & D). rewrite D by apply Nat.lt_succ_diag_r.
    eexists. split; eauto. apply nn_number; auto; [apply used_In; auto | lia].
  - eexists. split; eauto. apply nn_own, used_false; auto.
Qed.

Lemma ensure_unique_spec : forall names name new, ensure_unique_name names name = Ok new -> new_name names name new.
Proof.
  intros. destruct (ensure_unique_ok names name) as (n & E & S). rewrite H in E. inversion E; subst. auto.
Qed.

Lemma new_name_fresh : forall taken raw new, new_name taken raw new -> ~ In new taken.
Proof. destruct 1; auto. Qed.

Lemma new_name_fun : forall taken raw a b, new_name taken raw a -> new_name taken raw b -> a = b.
Proof.
  destruct 1; destruct 1; try contradiction; auto.
  f_equal. f_equal. eapply smallest_free_unique; eauto.
Qed.

Lemma ensure_unique_exact : forall names name new, ensure_unique_name names name = Ok new <-> new_name names name new.
Proof.
  split; [apply ensure_unique_spec|]. intros H. destruct (ensure_unique_ok names name) as (n & E & S).
  rewrite E. f_equal. eapply new_name_fun; eauto.
Qed.

Lemma NoDup_snoc : forall {A} (l : list A) x, NoDup l -> ~ In x l -> NoDup (l ++ [x]).
Proof.
  intros. eapply Permutation_NoDup; [apply Permutation_cons_append|]. constructor; auto.
Qed.

Lemma names_given_NoDup : forall raws keys, names_given raws keys -> NoDup keys.
Proof.
  induction 1; [constructor|]. apply NoDup_snoc; auto. eapply new_name_fresh; eauto.
Qed.

Lemma names_given_length : forall raws keys, names_given raws keys -> List.length raws = List.length keys.
Proof. induction 1; auto. rewrite !app_length. simpl. lia. Qed.

(** an element whose name is neither an earlier name nor an earlier name with a
    number keeps its name *)
Lemma names_given_keeps : forall raws keys, names_given raws keys ->
  forall before raw after, raws = before ++ raw :: after ->
  ~ In raw before -> (forall r i, In r before -> raw <> r ++ str_nat i) ->
  nth_error keys (List.length before) = Some raw.
Proof.
  assert (Hk : forall raws keys, names_given raws keys -> forall k, In k keys ->
            In k raws \/ exists r i, In r raws /\ k = r ++ str_nat i).
  { induction 1; intros k Hk; [destruct Hk|]. apply in_app_iff in Hk as [Hk | [<- | []]].
    - destruct (IHnames_given _ Hk) as [A | (r & i & A & B)]; [left | right; exists r, i]; rewrite ?in_app_iff; auto.
    - destruct H0; [left | right; exists raw, i]; rewrite in_app_iff; simpl; auto. }
  intros raws keys H. induction H; intros before r after E Hn Hd.
  - destruct before; discriminate.
  - destruct (exists_last (l := r :: after)) as (init & z & Ez); [discriminate|].
    destruct init as [|i0 init].
    + simpl in Ez. inversion Ez; subst. apply app_inj_tail in E as [-> ->].
      rewrite nth_error_app2 by (rewrite (names_given_length _ _ H); lia).
      rewrite (names_given_length _ _ H), Nat.sub_diag. simpl. f_equal.
      inversion H0; subst; auto.
      exfalso. destruct (Hk _ _ H _ H1) as [A | (r & j & A & B)]; [auto | exact (Hd _ _ A B)].
    + inversion Ez; subst. change (raws ++ [raw] = before ++ (i0 :: init) ++ [z]) in E.
      rewrite app_assoc in E. apply app_inj_tail in E as [-> ->].
      rewrite nth_error_app1; [eapply IHnames_given; eauto|].
      rewrite <- (names_given_length _ _ H), app_length. simpl. lia.
Qed.

(** ** Parsing the parts *)
Lemma lbind_ok : forall {A B} (m : LM A) (f : A -> LM B) d d' r,
  lbind m f d = (d', Ok r) -> exists d1 a, m d = (d1, Ok a) /\ f a d1 = (d', Ok r).
Proof.
  unfold lbind. intros. destruct (m d) as [d1 [a | e]]; [eauto | inversion H].
Qed.

Lemma llift_ok : forall {A} (x : res A) d d' r, llift x d = (d', Ok r) -> x = Ok r /\ d' = d.
Proof. unfold llift. intros. inversion H; auto. Qed.

Lemma lret_ok : forall {A} (x : A) d d' r, lret x d = (d', Ok r) -> x = r /\ d' = d.
Proof. unfold lret. intros. inversion H; auto. Qed.

Ltac lm_inv := repeat match goal with
  | H : lbind _ _ _ = (_, Ok _) |- _ =>
      let d := fresh "d" in let a := fresh "a" in let E := fresh "E" in
      apply lbind_ok in H as (d & a & E & H)
  | H : llift _ _ = (_, Ok _) |- _ => apply llift_ok in H as [H ?]
  | H : lret _ _ = (_, Ok _) |- _ => apply lret_ok in H as [H ?]
  | H : lraise _ _ = (_, Ok _) |- _ => discriminate H
  end; subst.

Lemma getname : forall n a, dgetitem (py "name") (x_attrib n) = Ok a -> element_name n = a.
Proof.
  intros. unfold dgetitem in H. unfold element_name, attr_text. destruct (dget (py "name") (x_attrib n)); congruence.
Qed.

Lemma dset_new : forall {V} k (v : V) d, ~ In k (dkeys d) -> dset k v d = d ++ [(k, v)].
Proof.
  intros. apply dset_fresh. destruct (dmem k d) eqn:E; auto. exfalso. apply H. apply dmem_In; auto.
Qed.

Lemma parse_attribute_content : forall n a, parse_attribute n = Ok a -> attribute_content n (na_name a, a) /\ na_name a = element_name n.
Proof.
  intros n a H. unfold parse_attribute in H. destruct (dgetitem (py "name") (x_attrib n)) eqn:G; cbn [rbind] in H; [|discriminate].
  apply (f_equal (fun r => match r with Ok y => y | Exn _ => a end)) in H. cbv beta iota in H. subst a.
  pose proof (getname _ _ G) as N. cbn [na_name]. split; [|auto]. split; [auto|]. split; [auto|]. cbn [snd na_enums].
  unfold enumeration_items, elements.
  change (filter (fun k => str_eqb (x_tag k) (py "enumeration")) (x_kids n)) with (kids_named (py "enumeration") n).
  induction (kids_named (py "enumeration") n) as [|x l IH]; cbn [map flat_map List.concat]; auto.
  rewrite flat_map_app, IH. reflexivity.
Qed.

Lemma parse_attributes_spec : forall cat nodes acc d d' r,
  parse_attributes cat acc nodes d = (d', Ok r) -> exists new, r = acc ++ new /\ Forall2 attribute_content nodes new.
Proof.
  induction nodes as [|n nodes IH]; simpl; intros; lm_inv.
  - exists []. rewrite app_nil_r. auto.
  - destruct (dmem (na_name a) acc) eqn:M; lm_inv.
    apply parse_attribute_content in E as [E _].
    apply IH in H as (new & -> & F). rewrite dset_fresh by auto.
    exists ((na_name a, a) :: new). rewrite <- app_assoc. split; [reflexivity|]. constructor; auto.
Qed.

Lemma parse_attributes_names : forall cat nodes acc d d' r,
  parse_attributes cat acc nodes d = (d', Ok r) -> map fst r = map fst acc ++ map element_name nodes.
Proof.
  intros cat nodes acc d d' r H. apply parse_attributes_spec in H as (new & -> & F). rewrite map_app. f_equal.
  induction F as [|x y l l' A F IH]; cbn [map]; auto. rewrite IH, (proj1 A). auto.
Qed.

Lemma parse_attributes_all : forall cat nodes d d' r,
  parse_attributes cat [] nodes d = (d', Ok r) -> Forall2 attribute_content nodes r.
Proof. intros cat nodes d d' r H. apply parse_attributes_spec in H as (new & -> & F). exact F. Qed.

Lemma group_attrs_get : forall attrib acc, NoDup (map fst attrib) -> forall k,
  dget k (fold_left (fun d kv => if str_eqb (fst kv) (py "name") || str_eqb (fst kv) (py "type") then d
                         else dset (fst kv) (GAText (snd kv)) d) attrib acc)
  = match dget k attrib with
    | Some text => if str_eqb k (py "name") || str_eqb k (py "type") then dget k acc else Some (GAText text)
    | None => dget k acc
    end.
Proof.
  induction attrib as [|[x y] l IH]; intros acc ND k; cbn [fold_left]; [reflexivity|].
  inversion ND as [|? ? NI ND']; subst. rewrite IH by auto. cbn [fst snd].
  change (dget k ((x, y) :: l)) with (if str_eqb k x then Some y else dget k l).
  destruct (str_eqb_spec k x) as [<- | NE].
  - assert (Z : dget k l = None). { apply dget_None. exact NI. }
    rewrite Z. destruct (str_eqb k (py "name") || str_eqb k (py "type")); auto. apply dget_dset_same.
  - destruct (dget k l); destruct (str_eqb x (py "name") || str_eqb x (py "type")); auto; rewrite dget_dset_other by auto; auto.
Qed.

Lemma group_attrs_spec : forall n attrs, Forall2 attribute_content (elements (py "attribute") n) attrs ->
  group_attributes n (group_attrs attrs (x_attrib n)).
Proof.
  intros n attrs F. exists attrs. split; auto. intros ND k. unfold group_attrs. rewrite group_attrs_get by auto.
  assert (Z : dget k (map (fun ka => (fst ka, GAObj (snd ka))) attrs) = option_map GAObj (dget k attrs)).
  { clear F. induction attrs as [|[a b] l IH]; cbn [map fst snd]; auto. unfold dget in *. cbn [aget]. destruct (str_eqb k a); auto. }
  rewrite Z. reflexivity.
Qed.

(** ** Dimensions *)
Definition add_dim (acc : list (option pystr * nxdim)) (n : xnode) : list (option pystr * nxdim) := aset ostr_eqb (index_of n) (parse_dim n) acc.

Lemma parse_dims_fold : forall nodes acc d d' r, parse_dims acc nodes d = (d', Ok r) -> d' = d /\ r = fold_left add_dim nodes acc.
Proof.
  induction nodes as [|n nodes IH]; cbn [parse_dims fold_left]; intros acc d d' r H.
  - unfold lret in H. injection H as <- <-. auto.
  - destruct (df_dim d); [|discriminate]. apply IH in H. exact H.
Qed.

Lemma add_dims_distinct : forall nodes acc, NoDup (map fst acc) -> NoDup (map fst (fold_left add_dim nodes acc)).
Proof. induction nodes; intros; cbn [fold_left]; auto. apply IHnodes. apply aset_NoDup; auto. apply ostr_eqb_eq. Qed.

Lemma add_dims_keys : forall nodes acc i, In i (map fst (fold_left add_dim nodes acc)) <-> In i (map fst acc) \/ In i (map index_of nodes).
Proof.
  induction nodes; intros; cbn [fold_left map In]; [tauto|]. rewrite IHnodes. unfold add_dim at 1. rewrite In_keys_aset by apply ostr_eqb_eq. intuition congruence.
Qed.

Lemma add_dims_entry : forall nodes acc i y, NoDup (map fst acc) -> In (i, y) (fold_left add_dim nodes acc) ->
  (In (i, y) acc /\ ~ In i (map index_of nodes)) \/ exists k, last_with_index k nodes /\ index_of k = i /\ y = parse_dim k.
Proof.
  induction nodes as [|n nodes IH]; intros acc i y ND I; cbn [fold_left map In] in *; [left; tauto|].
  apply IH in I; [|apply aset_NoDup; auto; apply ostr_eqb_eq]. destruct I as [[I N]|(k & (b & a & -> & L) & K1 & K2)].
  - unfold add_dim in I. destruct (ostr_eqb (index_of n) i) eqn:E.
    + apply ostr_eqb_eq in E. subst i. right. exists n. split; [exists [], nodes; split; auto|]. split; auto.
      assert (G : NoDup (map fst (aset ostr_eqb (index_of n) (parse_dim n) acc))) by (apply aset_NoDup; auto; apply ostr_eqb_eq).
      eapply In_aget_NoDup in I; [|apply ostr_eqb_eq|exact G]. rewrite aget_aset_same in I by apply ostr_eqb_eq. congruence.
    + left. assert (NE : index_of n <> i) by (intros X; apply ostr_eqb_eq in X; congruence). split; [|tauto].
      apply In_aset in I; [|apply ostr_eqb_eq]. destruct I as [[X _]|I]; [congruence|auto].
  - right. exists k. split; [exists (n :: b), a; auto|auto].
Qed.

Lemma add_dims_order : forall nodes acc, NoDup (map fst acc ++ map index_of nodes) -> fold_left add_dim nodes acc = acc ++ map (fun n => (index_of n, parse_dim n)) nodes.
Proof.
  induction nodes as [|n nodes IH]; intros acc ND; cbn [fold_left map]; [rewrite app_nil_r; auto|].
  assert (F : add_dim acc n = acc ++ [(index_of n, parse_dim n)]).
  { apply aset_fresh. destruct (amem ostr_eqb (index_of n) acc) eqn:E; auto. exfalso. apply amem_In in E; [|apply ostr_eqb_eq]. cbn [map] in ND. apply NoDup_remove_2 in ND. apply ND. apply in_or_app. auto. }
  rewrite F, IH.
  - rewrite <- app_assoc. reflexivity.
  - rewrite map_app. cbn [map fst]. rewrite <- app_assoc. exact ND.
Qed.

Lemma dims_in_order : forall l, Forall2 (fun k (iy : option pystr * nxdim) => fst iy = index_of k /\ dim_content k (snd iy)) l (map (fun n => (index_of n, parse_dim n)) l).
Proof. induction l; cbn [map]; constructor; auto. split; [reflexivity|]. repeat split. Qed.

Lemma parse_dimensions_state : forall n d d' x, parse_dimensions n d = (d', Ok x) -> d' = d.
Proof.
  unfold parse_dimensions. intros n d d' x H. destruct (df_dimensions d); [|discriminate]. unfold lbind in H.
  destruct (parse_dims [] (kids_named (py "dim") n) d) as [d1 [l|e]] eqn:E; [|discriminate]. apply parse_dims_fold in E as [-> ->].
  unfold lret in H. injection H as <- <-. reflexivity.
Qed.

Lemma parse_dimensions_content : forall n d d' x, parse_dimensions n d = (d', Ok x) -> dimensions_content n x.
Proof.
  unfold parse_dimensions. intros n d d' x H. destruct (df_dimensions d); [|discriminate]. unfold lbind in H.
  destruct (parse_dims [] (kids_named (py "dim") n) d) as [d1 [l|e]] eqn:E; [|discriminate]. apply parse_dims_fold in E as [-> ->].
  unfold lret in H. injection H as <- <-. change (kids_named (py "dim") n) with (elements (py "dim") n).
  constructor; cbn [ds_rank ds_dims].
  - reflexivity.
  - apply add_dims_distinct. constructor.
  - intros i. rewrite add_dims_keys. simpl. tauto.
  - intros i y I. apply add_dims_entry in I; [|constructor]. destruct I as [[[] _]|(k & K1 & K2 & ->)]. exists k. split; auto. split; auto. repeat split.
  - intros ND. rewrite add_dims_order by exact ND. cbn [app]. apply dims_in_order.
Qed.

Lemma parse_field_content : forall cat n d d' f,
  parse_field cat n d = (d', Ok f) -> nf_name f = element_name n /\ field_content n f.
Proof.
  unfold parse_field. intros. lm_inv. simpl. rewrite (getname _ _ E). split; auto.
  split; [|split]; cbn [nf_attrs nf_dims nf_enums].
  - apply parse_attributes_all in E0. exact E0.
  - change (elements (py "dimensions") n) with (kids_named (py "dimensions") n).
    destruct (kids_named (py "dimensions") n) as [|k [|k' l]]; lm_inv; auto. eexists. split; eauto. eapply parse_dimensions_content; eauto.
  - unfold enumeration_items, elements. rewrite concat_map, map_map, flat_map_concat_map. reflexivity.
Qed.

Lemma app_field_ok : forall cat d d' u, app_field cat d = (d', Ok u) ->
  d' = (if str_eqb cat (py "applications") then mkDf (df_attr_optional d) (Some (DInt 1)) (df_group_minOccurs d) (df_dimensions d) (df_dim d) else d).
Proof.
  unfold app_field. intros. destruct (str_eqb cat (py "applications")); [|congruence].
  destruct (df_field_minOccurs d); congruence.
Qed.

Lemma snoc_given : forall others keys raws raw new, names_given raws (others ++ keys) ->
  new_name (others ++ keys) raw new -> names_given (raws ++ [raw]) (others ++ keys ++ [new]).
Proof. intros. rewrite app_assoc. constructor; auto. Qed.

Definition field_entry (k : xnode) (kf : pystr * nxfield) := nf_name (snd kf) = fst kf /\ field_content k (snd kf).
Definition link_entry (k : xnode) (kl : pystr * nxlink) := nl_name (snd kl) = fst kl /\ nl_target (snd kl) = dget (py "target") (x_attrib k).
Definition group_entry (k : xnode) (kg : pystr * nxgroup) := g_name (snd kg) = fst kg /\ loaded_group k (snd kg).

Lemma parse_fields_spec : forall cat groups nodes acc d d' r,
  parse_fields cat groups acc nodes d = (d', Ok r) ->
  exists new, r = acc ++ new /\ Forall2 field_entry nodes new
    /\ forall raws, names_given raws (groups ++ map fst acc) -> names_given (raws ++ map element_name nodes) (groups ++ map fst r).
Proof.
  induction nodes as [|n nodes IH]; intros acc d d' r H; cbn [parse_fields] in H; lm_inv.
  - exists []. rewrite app_nil_r. split; auto. split; [constructor|]. intros. simpl. rewrite app_nil_r. auto.
  - apply parse_field_content in E as [En Ec]. apply ensure_unique_spec in E1. unfold dkeys in E1.
    assert (Hf : ~ In a1 (map fst acc)).
    { intros Hi. apply (new_name_fresh _ _ _ E1). apply in_app_iff. auto. }
    rewrite dset_new in H by auto. apply IH in H as (new & -> & HF & HN).
    exists ((a1, rename_field a1 a) :: new). rewrite <- app_assoc. split; auto. split.
    + constructor; auto. split; [reflexivity|]. exact Ec.
    + intros raws Hr. specialize (HN (raws ++ [nf_name a])). rewrite map_app in HN. cbn [map fst] in HN.
      specialize (HN (snoc_given _ _ _ _ _ Hr E1)). rewrite <- !app_assoc in HN. simpl in HN. simpl. rewrite <- En. exact HN.
Qed.

Lemma parse_links_spec : forall others nodes acc d d' r,
  parse_links others acc nodes d = (d', Ok r) ->
  exists new, r = acc ++ new /\ Forall2 link_entry nodes new
    /\ forall raws, names_given raws (others ++ map fst acc) -> names_given (raws ++ map element_name nodes) (others ++ map fst r).
Proof.
  induction nodes as [|n nodes IH]; intros acc d d' r H; cbn [parse_links] in H; lm_inv.
  - exists []. rewrite app_nil_r. split; auto. split; [constructor|]. intros. simpl. rewrite app_nil_r. auto.
  - unfold parse_link in E. destruct (dgetitem (py "name") (x_attrib n)) as [nm|] eqn:G; cbn [rbind] in E; [|discriminate].
    inversion E; subst a. clear E. apply getname in G. apply ensure_unique_spec in E0. unfold dkeys in E0. cbn [nl_name] in E0.
    assert (Hf : ~ In a0 (map fst acc)).
    { intros Hi. apply (new_name_fresh _ _ _ E0). apply in_app_iff. auto. }
    rewrite dset_new in H by auto. apply IH in H as (new & -> & HF & HN).
    eexists ((a0, _) :: new). rewrite <- app_assoc. split; [reflexivity|]. split.
    + constructor; auto. split; reflexivity.
    + intros raws Hr. specialize (HN (raws ++ [nm])). rewrite map_app in HN. cbn [map fst] in HN.
      specialize (HN (snoc_given _ _ _ _ _ Hr E0)). rewrite <- !app_assoc in HN. simpl in HN. simpl. rewrite G. exact HN.
Qed.

Lemma parse_groups_spec : forall (one : xnode -> LM nxgroup) cat nodes,
  Forall (fun n => forall d d' g, one n d = (d', Ok g) -> g_name g = group_name n /\ loaded_group n g) nodes ->
  forall acc d d' r, parse_groups_with one cat acc nodes d = (d', Ok r) ->
  exists new, r = acc ++ new /\ Forall2 group_entry (filter (has_tag (py "group")) nodes) new
    /\ forall raws, names_given raws (map fst acc) ->
       names_given (raws ++ map group_name (filter (has_tag (py "group")) nodes)) (map fst r).
Proof.
  induction nodes as [|n nodes IH]; intros HA acc d d' r H; cbn [parse_groups_with] in H.
  - lm_inv. exists []. rewrite app_nil_r. split; auto. split; [constructor|]. intros. simpl. rewrite app_nil_r. auto.
  - inversion HA as [|? ? H1 H2]; subst. cbn [filter]. destruct (has_tag (py "group") n); [|apply IH in H; auto].
    lm_inv. apply H1 in E as [En Ec]. apply ensure_unique_spec in E1. unfold dkeys in E1.
    rewrite dset_new in H by (eapply new_name_fresh; eauto). apply IH in H as (new & -> & HF & HN); auto.
    exists ((a1, rename_group a1 a) :: new). rewrite <- app_assoc. split; auto. split.
    + constructor; auto. split; [reflexivity|]. cbn [snd]. destruct Ec as [q1 q2 q3 q4].
      destruct a; constructor; auto.
    + intros raws Hr. specialize (HN (raws ++ [g_name a])). rewrite map_app in HN. cbn [map fst] in HN.
      specialize (HN (ng_next _ _ _ _ Hr E1)). rewrite <- !app_assoc in HN. simpl in HN. simpl. rewrite <- En. exact HN.
Qed.

Section XnodeInd.
  Variable P : xnode -> Prop.
  Hypothesis HP : forall t a kids, Forall P kids -> P (XN t a kids).
  Fixpoint xnode_ind' (n : xnode) : P n :=
    match n with
    | XN t a kids => HP t a kids ((fix go l : Forall P l :=
        match l with [] => Forall_nil _ | k :: r => Forall_cons _ (xnode_ind' k) (go r) end) kids)
    end.
End XnodeInd.

Lemma parse_content : forall cat n (one : xnode -> LM nxgroup) d0 d1 d2 d3 groups fields links,
  Forall (fun n => forall d d' g, one n d = (d', Ok g) -> g_name g = group_name n /\ loaded_group n g) (x_kids n) ->
  parse_groups_with one cat [] (x_kids n) d0 = (d1, Ok groups) ->
  parse_fields cat (dkeys groups) [] (elements (py "field") n) d1 = (d2, Ok fields) ->
  parse_links (dkeys groups ++ dkeys fields) [] (elements (py "link") n) d2 = (d3, Ok links) ->
  names_given (raw_names n) (map fst groups ++ map fst fields ++ map fst links)
  /\ Forall2 group_entry (elements (py "group") n) groups
  /\ Forall2 field_entry (elements (py "field") n) fields
  /\ Forall2 link_entry (elements (py "link") n) links.
Proof.
  intros cat n one d0 d1 d2 d3 groups fields links HA G F L.
  apply parse_groups_spec in G as (g' & -> & GF & GN); auto. simpl in *.
  apply parse_fields_spec in F as (f' & -> & FF & FN). simpl in *.
  apply parse_links_spec in L as (l' & -> & LF & LN). simpl in *.
  split; [|split; [exact GF | split; [exact FF | exact LF]]].
  unfold raw_names. specialize (GN [] ng_nil). simpl in GN. unfold dkeys in *.
  specialize (FN _ ltac:(rewrite app_nil_r; exact GN)).
  specialize (LN _ ltac:(rewrite app_nil_r; exact FN)).
  rewrite <- !app_assoc in LN. exact LN.
Qed.

Lemma parse_group_spec : forall cat n d d' g,
  parse_group cat n d = (d', Ok g) -> g_name g = group_name n /\ loaded_group n g.
Proof.
  intros cat n. induction n as [t a kids IH] using xnode_ind'. intros d d' g H. cbn [parse_group] in H. lm_inv.
  split.
  - unfold group_name, attr_text. cbn [g_name x_attrib]. unfold dgetitem in E. destruct (dget (py "name") a); auto.
    destruct (dget (py "type") a); congruence.
  - destruct (parse_content cat (XN t a kids) (parse_group cat) _ _ _ _ _ _ _ IH E1 E2 E3) as (A & B & C & D).
    constructor; auto. apply parse_attributes_all in E0. apply (group_attrs_spec (XN t a kids)). exact E0.
Qed.

Lemma parse_symbols_spec : forall n, exists named, parse_symbols n = map element_name named
  /\ named = filter (fun s => dmem (py "name") (x_attrib s)) (List.concat (map (elements (py "symbol")) (elements (py "symbols") n))).
Proof.
  intros n. eexists. split; [|reflexivity]. unfold parse_symbols. change (kids_named (py "symbols") n) with (elements (py "symbols") n).
  induction (elements (py "symbols") n) as [|s l IH]; [reflexivity|]. cbn [flat_map map List.concat]. rewrite IH, filter_app, map_app. f_equal. clear.
  change (kids_named (py "symbol") s) with (elements (py "symbol") s). induction (elements (py "symbol") s) as [|k l IH]; [reflexivity|].
  cbn [flat_map filter]. rewrite IH.
  destruct (dget (py "name") (x_attrib k)) as [nm|] eqn:E.
  - replace (dmem (py "name") (x_attrib k)) with true by (unfold dmem, amem; unfold dget in E; rewrite E; reflexivity).
    cbn [map app]. f_equal. unfold element_name, attr_text. rewrite E. reflexivity.
  - replace (dmem (py "name") (x_attrib k)) with false by (unfold dmem, amem; unfold dget in E; rewrite E; reflexivity). reflexivity.
Qed.

Lemma parse_definition_spec : forall valid fname root d d' def,
  parse_definition valid fname root d = (d', Ok def) -> loaded_def root def /\ d_title def = title_of fname /\ d_category def = category_of fname.
Proof.
  unfold parse_definition. intros. destruct (negb (valid root)); lm_inv.
  destruct (parse_content (category_of fname) root (parse_group (category_of fname)) _ _ _ _ _ _ _
              ltac:(apply Forall_forall; intros; eapply parse_group_spec; eauto) E0 E1 E2) as (A & B & C & D).
  split; [|auto]. constructor; auto; [apply parse_attributes_all in E; exact E | apply parse_symbols_spec].
Qed.

Lemma Forall2_In2 : forall {A B} (R : A -> B -> Prop) l1 l2, Forall2 R l1 l2 -> forall y, In y l2 -> exists x, In x l1 /\ R x y.
Proof.
  induction 1; simpl; intros; [contradiction|]. destruct H1 as [-> | H1]; [eauto|].
  destruct (IHForall2 _ H1) as (z & A1 & A2). eauto.
Qed.

Lemma loaded_inside : forall root d g, loaded_def root d -> inside d g -> exists n, loaded_group n g.
Proof.
  intros root d g HD H. induction H as [k g H | k g g' H IH H'].
  - destruct HD as [_ HG _ _ _ _]. destruct (Forall2_In2 _ _ _ HG _ H) as (x & _ & _ & L). simpl in L. eauto.
  - destruct IH as [n L]. destruct L as [_ HG _ _]. destruct (Forall2_In2 _ _ _ HG _ H') as (x & _ & _ & L). simpl in L. eauto.
Qed.

Lemma dset_In_cases : forall {V} k (v : V) d x y, In (x, y) (dset k v d) -> In (x, y) d \/ (x = k /\ y = v).
Proof.
  intros V k v d x y. unfold dset. induction d as [|[a b] d IH]; simpl.
  - intros [E | []]. inversion E; auto.
  - destruct (str_eqb k a) eqn:Q; simpl.
    + apply str_eqb_eq in Q. subst. intros [E | H]; [inversion E; auto | auto].
    + intros [E | H]; [auto | destruct (IH H); auto].
Qed.

Lemma load_files_spec : forall valid content files acc d d' cl,
  load_files valid content acc files d = (d', Ok cl) ->
  forall t def, In (t, def) cl -> In (t, def) acc \/
    exists file root, In file files /\ content file = Some root /\ loaded_def root def
      /\ t = title_of file /\ d_title def = t /\ d_category def = category_of file.
Proof.
  induction files as [|f files IH]; intros acc d d' cl H t def Hi; cbn [load_files] in H.
  - lm_inv. auto.
  - destruct (content f) as [root|] eqn:C; lm_inv.
    destruct (IH _ _ _ _ H _ _ Hi) as [Ha | (file & root' & A & B)].
    + apply dset_In_cases in Ha as [Ha | [-> ->]]; auto.
      apply parse_definition_spec in E as (L & T & K). right. exists f, root. simpl. rewrite T. auto 10.
    + right. exists file, root'. simpl. tauto.
Qed.

(** ** The shared default *)
Definition moved (P : Prop) (d d' : defaults) : Prop :=
  (P /\ df_field_minOccurs d' = Some (DInt 1)) \/ (~ P /\ df_field_minOccurs d' = df_field_minOccurs d).

Lemma moved_iff : forall P Q d d', (P <-> Q) -> moved P d d' -> moved Q d d'.
Proof. unfold moved. intros. tauto. Qed.
Lemma moved_seq : forall P Q d d1 d2, moved P d d1 -> moved Q d1 d2 -> moved (P \/ Q) d d2.
Proof. unfold moved. intros P Q d d1 d2 [[A B] | [A B]] [[C D] | [C D]]; rewrite ?D, ?B; tauto. Qed.
Lemma moved_no : forall (P : Prop) d d', ~ P -> df_field_minOccurs d' = df_field_minOccurs d -> moved P d d'.
Proof. unfold moved. auto. Qed.

Lemma app_attr_field : forall cat d d' u, app_attr cat d = (d', Ok u) -> df_field_minOccurs d' = df_field_minOccurs d.
Proof.
  unfold app_attr. intros. destruct (str_eqb cat (py "applications")); [|congruence].
  destruct (df_attr_optional d); inversion H; auto.
Qed.
Lemma app_group_field : forall cat d d' u, app_group cat d = (d', Ok u) -> df_field_minOccurs d' = df_field_minOccurs d.
Proof.
  unfold app_group. intros. destruct (str_eqb cat (py "applications")); [|congruence].
  destruct (df_group_minOccurs d); inversion H; auto.
Qed.
Lemma app_field_moved : forall cat d d' u, app_field cat d = (d', Ok u) -> moved (cat = py "applications") d d'.
Proof.
  intros. apply app_field_ok in H. subst. unfold moved. destruct (str_eqb cat (py "applications")) eqn:E.
  - apply str_eqb_eq in E. auto.
  - right. split; auto. intros ->. rewrite str_eqb_refl in E. discriminate.
Qed.

Lemma parse_attributes_field : forall cat nodes acc d d' r,
  parse_attributes cat acc nodes d = (d', Ok r) -> df_field_minOccurs d' = df_field_minOccurs d.
Proof.
  induction nodes as [|n nodes IH]; cbn [parse_attributes]; intros; lm_inv; auto.
  apply app_attr_field in E0. destruct (dmem (na_name a) acc); lm_inv. apply IH in H. congruence.
Qed.

Lemma parse_field_field : forall cat n d d' f,
  parse_field cat n d = (d', Ok f) -> df_field_minOccurs d' = df_field_minOccurs d.
Proof.
  unfold parse_field. intros. lm_inv. apply parse_attributes_field in E0. rewrite <- E0.
  destruct (kids_named (py "dimensions") n) as [|k [|k' l]]; lm_inv; auto.
  match goal with H : parse_dimensions _ _ = _ |- _ => apply parse_dimensions_state in H; subst end. reflexivity.
Qed.

Lemma parse_fields_moved : forall cat groups nodes acc d d' r,
  parse_fields cat groups acc nodes d = (d', Ok r) -> moved (cat = py "applications" /\ exists n, In n nodes) d d'.
Proof.
  induction nodes as [|n nodes IH]; intros acc d d' r H; cbn [parse_fields] in H; lm_inv.
  - apply moved_no; auto. intros [_ [? []]].
  - apply parse_field_field in E. apply app_field_moved in E0. apply IH in H.
    assert (M : moved (cat = py "applications") d d1) by (unfold moved in *; rewrite E in E0; exact E0).
    eapply moved_iff; [|exact (moved_seq _ _ _ _ _ M H)]. simpl. split; [|intros [A _]; auto].
    intros [A | [A [x B]]]; split; auto; [exists n | exists x]; auto.
Qed.

Lemma parse_links_same : forall others nodes acc d d' r, parse_links others acc nodes d = (d', Ok r) -> d' = d.
Proof.
  induction nodes as [|n nodes IH]; intros acc d d' r H; cbn [parse_links] in H; lm_inv; auto.
  eapply IH; eauto.
Qed.

Lemma parse_groups_moved : forall (one : xnode -> LM nxgroup) cat nodes,
  Forall (fun n => forall d d' g, one n d = (d', Ok g) -> moved (cat = py "applications" /\ has_field n) d d') nodes ->
  forall acc d d' r, parse_groups_with one cat acc nodes d = (d', Ok r) ->
  moved (cat = py "applications" /\ exists n, In n (filter (has_tag (py "group")) nodes) /\ has_field n) d d'.
Proof.
  induction nodes as [|n nodes IH]; intros HA acc d d' r H; cbn [parse_groups_with] in H.
  - lm_inv. apply moved_no; auto. simpl. intros [_ [? [[] _]]].
  - inversion HA as [|? ? H1 H2]; subst. cbn [filter]. destruct (has_tag (py "group") n); [|eapply IH; eauto].
    lm_inv. apply H1 in E. apply app_group_field in E0. apply IH in H; auto.
    assert (M : moved (cat = py "applications" /\ has_field n) d d1) by (unfold moved in *; rewrite E0; exact E).
    eapply moved_iff; [|exact (moved_seq _ _ _ _ _ M H)]. simpl. split.
    + intros [[A B] | [A [x [B C]]]]; split; auto; [exists n | exists x]; auto.
    + intros [A [x [[-> | B] C]]]; [left | right]; split; eauto.
Qed.

Lemma content_moved : forall cat n (one : xnode -> LM nxgroup) d0 d1 d2 d3 groups fields links,
  Forall (fun n => forall d d' g, one n d = (d', Ok g) -> moved (cat = py "applications" /\ has_field n) d d') (x_kids n) ->
  parse_groups_with one cat [] (x_kids n) d0 = (d1, Ok groups) ->
  parse_fields cat (dkeys groups) [] (elements (py "field") n) d1 = (d2, Ok fields) ->
  parse_links (dkeys groups ++ dkeys fields) [] (elements (py "link") n) d2 = (d3, Ok links) ->
  moved (cat = py "applications" /\ has_field n) d0 d3.
Proof.
  intros cat n one d0 d1 d2 d3 groups fields links HA G F L.
  apply parse_groups_moved in G; auto. apply parse_fields_moved in F. apply parse_links_same in L. subst.
  eapply moved_iff; [|exact (moved_seq _ _ _ _ _ G F)]. split.
  - intros [[A [x [B C]]] | [A [x B]]]; split; auto; [eapply hf_below; eauto | eapply hf_here; eauto].
  - intros [A B]. inversion B; subst; [right | left]; split; auto; exists k; auto.
Qed.

Lemma moved_from : forall P d0 d d', df_field_minOccurs d = df_field_minOccurs d0 -> moved P d d' -> moved P d0 d'.
Proof. unfold moved. intros. rewrite <- H. auto. Qed.

Lemma parse_group_moved : forall cat n d d' g,
  parse_group cat n d = (d', Ok g) -> moved (cat = py "applications" /\ has_field n) d d'.
Proof.
  intros cat n. induction n as [t a kids IH] using xnode_ind'. intros d d' g H. cbn [parse_group] in H. lm_inv.
  eapply moved_from; [eapply parse_attributes_field; eauto|].
  exact (content_moved cat (XN t a kids) (parse_group cat) _ _ _ _ _ _ _ IH E1 E2 E3).
Qed.

Lemma parse_definition_moved : forall valid fname root d d' def,
  parse_definition valid fname root d = (d', Ok def) -> moved (category_of fname = py "applications" /\ has_field root) d d'.
Proof.
  unfold parse_definition. intros. destruct (negb (valid root)); lm_inv.
  eapply moved_from; [eapply parse_attributes_field; eauto|].
  exact (content_moved (category_of fname) root (parse_group (category_of fname)) _ _ _ _ _ _ _
           ltac:(apply Forall_forall; intros; eapply parse_group_moved; eauto) E0 E1 E2).
Qed.

Lemma load_files_moved : forall valid content files acc d d' cl,
  load_files valid content acc files d = (d', Ok cl) ->
  moved (exists file root, In file files /\ content file = Some root /\ category_of file = py "applications" /\ has_field root) d d'.
Proof.
  induction files as [|f files IH]; intros acc d d' cl H; cbn [load_files] in H.
  - lm_inv. apply moved_no; auto. intros (x & y & [] & _).
  - destruct (content f) as [root|] eqn:C; lm_inv. apply parse_definition_moved in E. apply IH in H.
    eapply moved_iff; [|exact (moved_seq _ _ _ _ _ E H)]. simpl. split.
    + intros [[A B] | (x & y & A & B & D & F)]; [exists f, root | exists x, y]; auto.
    + intros (x & y & [<- | A] & B & D & F); [left | right; exists x, y; auto].
      rewrite C in B. inversion B; subst. auto.
Qed.

(** ** The file list *)
Lemma split_app_any : forall c a b, split c (a ++ c :: b) = split c a ++ split c b.
Proof.
  intros c a. induction a as [|x a IH]; intros b.
  - rewrite (split_app_sep c [] b) by (intros []). reflexivity.
  - destruct (N.eq_dec x c) as [-> | Nx].
    + cbn [app split]. rewrite N.eqb_refl, IH. reflexivity.
    + cbn [app split]. rewrite IH. apply N.eqb_neq in Nx. rewrite ?Nx.
      destruct (split c a) eqn:E; [exfalso; eapply split_nonnil; eauto|]. reflexivity.
Qed.

Lemma category_of_path : forall dir cat base, ~ In 47%N cat -> cat <> [] -> ~ In 47%N base ->
  category_of (path_join (path_join dir cat) base) = cat.
Proof.
  intros dir cat base Hc Hn Hb.
  assert (E : exists p, path_join dir cat = p ++ cat /\ (p = [] \/ exists q, p = q ++ [47%N])).
  { unfold path_join. destruct (str_eqb dir []); [exists []; auto|].
    destruct (endswith dir [ch_slash]) eqn:Es.
    - apply endswith_spec in Es as [t ->]. eexists. split; [reflexivity|]. right. eauto.
    - exists (dir ++ [47%N]). rewrite <- app_assoc. split; auto. right. eauto. }
  destruct E as (p & -> & Hp).
  assert (J : path_join (p ++ cat) base = (p ++ cat) ++ 47%N :: base).
  { unfold path_join. destruct (str_eqb (p ++ cat) []) eqn:E1.
    - apply str_eqb_eq in E1. apply app_eq_nil in E1 as [_ ->]. congruence.
    - destruct (endswith (p ++ cat) [ch_slash]) eqn:E2; auto. exfalso.
      apply endswith_spec in E2 as [t E2]. destruct (exists_last Hn) as (c' & z & ->).
      rewrite app_assoc in E2. apply app_inj_tail in E2 as [_ ->]. apply Hc. rewrite in_app_iff. simpl. auto. }
  rewrite J. unfold category_of. rewrite split_app_any. rewrite (split_no_sep _ base) by auto.
  rewrite removelast_last.
  destruct Hp as [-> | [q ->]].
  - simpl. rewrite split_no_sep by auto. reflexivity.
  - rewrite <- app_assoc. change (q ++ [47%N] ++ cat) with (q ++ 47%N :: cat). rewrite split_app_any.
    rewrite (split_no_sep _ cat) by auto. apply last_last.
Qed.

Lemma sorted_filter : forall {A} (R : A -> A -> Prop) p l, StronglySorted R l -> StronglySorted R (filter p l).
Proof.
  induction 1; simpl; [constructor|]. destruct (p a); auto. constructor; auto.
  rewrite Forall_forall in *. intros x Hx. apply filter_In in Hx as [Hx _]. auto.
Qed.

Lemma ascending_sorted : forall l, StronglySorted (fun a b => str_leb a b = true) l -> ascending l.
Proof. induction 1; simpl; auto. Qed.

Lemma category_files_spec : forall ls dir cat l, category_files ls dir cat = Ok l <-> 
  exists names, ls (path_join dir cat) = Some (FSDir names)
    /\ l = map (path_join (path_join dir cat)) (filter (fun f => endswith f (py ".nxdl.xml")) (sorted_strs names)).
Proof.
  intros. unfold category_files, listdir. destruct (ls (path_join dir cat)) as [[|names]|]; cbn [rbind].
  - split; [discriminate|]. intros (n & E & _). discriminate.
  - split; [intros H; inversion H; eauto|]. intros (n & E & ->). inversion E; subst. reflexivity.
  - split; [discriminate|]. intros (n & E & _). discriminate.
Qed.

Lemma category_files_listed : forall ls dir cat l, category_files ls dir cat = Ok l -> nxdl_files_of ls (path_join dir cat) l.
Proof.
  intros ls dir cat l H. apply category_files_spec in H as (names & E & ->).
  exists names, (filter (fun f => endswith f (py ".nxdl.xml")) (sorted_strs names)).
  split; auto. split; auto. split; [|split].
  - apply ascending_sorted, sorted_filter. apply (sorted_by_sorted (fun s : pystr => s)).
  - intros f. rewrite filter_In. unfold sorted_strs. rewrite sorted_by_In, endswith_spec. tauto.
  - intros Hn. apply NoDup_filter. eapply Permutation_NoDup; [apply Permutation_sym, sorted_by_perm | auto].
Qed.

(** two sorted listings of the same directory are equal *)
Lemma category_files_fail : forall ls dir cat e, category_files ls dir cat = Exn e ->
  e = OSError /\ (ls (path_join dir cat) = None \/ ls (path_join dir cat) = Some FSFile).
Proof.
  intros ls dir cat e. unfold category_files, listdir. destruct (ls (path_join dir cat)) as [[|names]|]; cbn [rbind]; intros H; inversion H; auto.
Qed.

Definition part (ls : pystr -> option fsnode) (dir cat : pystr) (l : list pystr) := nxdl_files_of ls (path_join dir cat) l.

Lemma file_list_ok : forall ls dir l, get_NXDL_file_list ls dir = Ok l ->
  exists a b c, l = a ++ b ++ c /\ part ls dir (py "base_classes") a /\ part ls dir (py "applications") b
    /\ part ls dir (py "contributed_definitions") c.
Proof.
  intros ls dir l H. unfold get_NXDL_file_list in H. destruct (ls dir); [|discriminate].
  unfold NXDL_categories in H. cbn [categories_files] in H.
  destruct (category_files ls dir (py "base_classes")) as [a|] eqn:A; cbn [rbind] in H; [|discriminate].
  destruct (category_files ls dir (py "applications")) as [b|] eqn:B; cbn [rbind] in H; [|discriminate].
  destruct (category_files ls dir (py "contributed_definitions")) as [c|] eqn:C; cbn [rbind] in H; [|discriminate].
  inversion H; subst. exists a, b, c. rewrite app_nil_r. split; auto.
  split; [apply category_files_listed; auto|]. split; apply category_files_listed; auto.
Qed.

Lemma category_total : forall ls dir cat, (exists l, category_files ls dir cat = Ok l) \/ (category_files ls dir cat = Exn OSError /\ no_directory ls (path_join dir cat)).
Proof.
  intros. destruct (category_files ls dir cat) as [l|e] eqn:E; [left; eauto|]. right.
  apply category_files_fail in E as [-> E]. split; auto. intros names. destruct E as [-> | ->]; discriminate.
Qed.

Lemma file_list_fail : forall ls dir e, get_NXDL_file_list ls dir = Exn e ->
  (e = FileNotFound /\ ls dir = None) \/
  (e = OSError /\ ls dir <> None /\ exists cat, In cat [py "base_classes"; py "applications"; py "contributed_definitions"] /\ no_directory ls (path_join dir cat)).
Proof.
  intros ls dir e H. unfold get_NXDL_file_list in H. destruct (ls dir) eqn:D; [right | left; inversion H; auto].
  unfold NXDL_categories in H. cbn [categories_files] in H.
  destruct (category_total ls dir (py "base_classes")) as [[a A] | [A N]]; rewrite A in H; cbn [rbind] in H;
    [|inversion H; split; auto; split; [discriminate|]; eexists; split; [left; reflexivity | auto]].
  destruct (category_total ls dir (py "applications")) as [[b B] | [B N]]; rewrite B in H; cbn [rbind] in H;
    [|inversion H; split; auto; split; [discriminate|]; eexists; split; [right; left; reflexivity | auto]].
  destruct (category_total ls dir (py "contributed_definitions")) as [[c C] | [C N]]; rewrite C in H; cbn [rbind] in H;
    [discriminate | inversion H; split; auto; split; [discriminate|]; eexists; split; [right; right; left; reflexivity | auto]].
Qed.

Lemma file_list_total : forall ls dir, ls dir <> None ->
  (forall cat, In cat [py "base_classes"; py "applications"; py "contributed_definitions"] -> exists names, ls (path_join dir cat) = Some (FSDir names)) ->
  exists l, get_NXDL_file_list ls dir = Ok l.
Proof.
  intros ls dir H HC. destruct (get_NXDL_file_list ls dir) as [l|e] eqn:E; eauto. exfalso.
  apply file_list_fail in E as [[_ E] | (_ & _ & cat & Hi & N)]; [auto|].
  destruct (HC _ Hi) as [names Q]. exact (N _ Q).
Qed.

Lemma part_In : forall ls dir cat l f, part ls dir cat l -> (In f l <-> nxdl_file ls dir cat f).
Proof.
  intros ls dir cat l f (names & files & E & -> & _ & HI & _). rewrite in_map_iff. split.
  - intros (x & <- & Hx). apply HI in Hx as (Hx & base & ->). exists names, base. auto.
  - intros (names' & base & E' & Hi & ->). rewrite E in E'. inversion E'; subst.
    eexists. split; [reflexivity|]. apply HI. eauto.
Qed.

Lemma part_category : forall ls dir cat l f, listed_names_plain ls -> ~ In 47%N cat -> cat <> [] ->
  part ls dir cat l -> In f l -> category_of f = cat.
Proof.
  intros ls dir cat l f HP Hc Hn HL Hf. apply (part_In _ _ _ _ _ HL) in Hf as (names & base & E & Hi & ->).
  apply category_of_path; auto. eapply HP; eauto.
Qed.

Ltac no_slash := let X := fresh in intros X; simpl in X; repeat destruct X as [X | X]; try discriminate; exact X.

Lemma manager_files : forall ls dir l, get_NXDL_file_list ls dir = Ok l -> forall f, In f l <->
  nxdl_file ls dir (py "base_classes") f \/ nxdl_file ls dir (py "applications") f \/ nxdl_file ls dir (py "contributed_definitions") f.
Proof.
  intros ls dir l H f. apply file_list_ok in H as (a & b & c & -> & A & B & C).
  rewrite !in_app_iff, (part_In _ _ _ _ f A), (part_In _ _ _ _ f B), (part_In _ _ _ _ f C). reflexivity.
Qed.

Lemma applications_of_list : forall ls dir l f, listed_names_plain ls -> get_NXDL_file_list ls dir = Ok l ->
  (In f l /\ category_of f = py "applications" <-> nxdl_file ls dir (py "applications") f).
Proof.
  intros ls dir l f HP H. apply file_list_ok in H as (a & b & c & -> & A & B & C).
  pose proof (part_category _ _ (py "base_classes") _ f HP ltac:(no_slash) ltac:(discriminate) A) as QA.
  pose proof (part_category _ _ (py "applications") _ f HP ltac:(no_slash) ltac:(discriminate) B) as QB.
  pose proof (part_category _ _ (py "contributed_definitions") _ f HP ltac:(no_slash) ltac:(discriminate) C) as QC.
  rewrite !in_app_iff, <- (part_In _ _ _ _ f B). split.
  - intros [[Q | [Q | Q]] E]; auto; [rewrite (QA Q) in E | rewrite (QC Q) in E]; discriminate.
  - auto.
Qed.

Lemma manager_moved : forall ls valid content d0 dir d' cl, listed_names_plain ls ->
  load_manager ls valid content d0 dir = (d', Ok cl) -> moved (application_with_field ls content dir) d0 d'.
Proof.
  unfold load_manager. intros ls valid content d0 dir d' cl HP H.
  destruct (get_NXDL_file_list ls dir) as [l|] eqn:E; [|discriminate]. apply load_files_moved in H.
  eapply moved_iff; [|exact H]. unfold application_with_field. split.
  - intros (f & root & A & B & C & D). exists f, root. split; auto. eapply applications_of_list; eauto.
  - intros (f & root & A & B & C). exists f, root. apply (applications_of_list _ _ _ f HP E) in A as [A A']. auto.
Qed.

(** ** Titles *)
Lemma title_of_path : forall p base rest, ~ In 47%N base -> ~ In 46%N base -> ~ In 47%N rest ->
  title_of (path_join p (base ++ 46%N :: rest)) = base.
Proof.
  intros p base rest H1 H2 H3. unfold title_of.
  assert (L : last_part ch_slash (path_join p (base ++ 46%N :: rest)) = base ++ 46%N :: rest).
  { assert (N : ~ In 47%N (base ++ 46%N :: rest)).
    { rewrite in_app_iff. simpl. intros [A | [A | A]]; auto. discriminate. }
    unfold last_part, path_join. destruct (str_eqb p []); [rewrite split_no_sep by auto; reflexivity|].
    destruct (endswith p [ch_slash]) eqn:E.
    - apply endswith_spec in E as [t ->]. rewrite <- app_assoc. cbn [app]. unfold ch_slash. rewrite split_app_any.
      rewrite (split_no_sep _ (base ++ 46%N :: rest)) by auto. apply last_last.
    - cbn [app]. unfold ch_slash. rewrite split_app_any. rewrite (split_no_sep _ (base ++ 46%N :: rest)) by auto. apply last_last. }
  rewrite L. unfold ch_dot. rewrite split_app_sep by auto. reflexivity.
Qed.

Lemma load_files_kept : forall valid content files acc d d' cl t,
  load_files valid content acc files d = (d', Ok cl) -> (forall f, In f files -> title_of f <> t) ->
  dget t cl = dget t acc.
Proof.
  induction files as [|f files IH]; intros acc d d' cl t H HN; cbn [load_files] in H.
  - lm_inv. auto.
  - destruct (content f) as [root|] eqn:C; lm_inv.
    rewrite (IH _ _ _ _ t H) by (intros; apply HN; simpl; auto).
    apply dget_dset_other. apply parse_definition_spec in E as (_ & T & _). rewrite T. apply HN. simpl. auto.
Qed.

Lemma load_files_last : forall valid content pre f post acc d d' cl,
  load_files valid content acc (pre ++ f :: post) d = (d', Ok cl) -> (forall g, In g post -> title_of g <> title_of f) ->
  exists root def, content f = Some root /\ dget (title_of f) cl = Some def /\ loaded_def root def /\ d_title def = title_of f /\ d_category def = category_of f.
Proof.
  induction pre as [|p pre IH]; intros f post acc d d' cl H HN; cbn [app load_files] in H.
  - destruct (content f) as [root|] eqn:C; lm_inv. exists root, a. split; auto.
    rewrite (load_files_kept _ _ _ _ _ _ _ (title_of f) H) by auto.
    apply parse_definition_spec in E as (L & T & K). rewrite T. rewrite dget_dset_same. auto.
  - destruct (content p) as [root|] eqn:C; lm_inv. eapply IH; eauto.
Qed.

Lemma last_with : forall {A} (p : A -> bool) l, (forall x, In x l -> p x = false) \/
  exists pre x post, l = pre ++ x :: post /\ p x = true /\ forall y, In y post -> p y = false.
Proof.
  induction l as [|a l IH]; [left; intros x []|]. destruct IH as [IH | (pre & x & post & -> & H1 & H2)].
  - destruct (p a) eqn:E; [right; exists [], a, l; auto | left; intros x [<- | Hx]; auto].
  - right. exists (a :: pre), x, post. auto.
Qed.

Lemma path_join_inj : forall p a b, path_join p a = path_join p b -> a = b.
Proof.
  unfold path_join. intros p a b. destruct (str_eqb p []); auto.
  destruct (endswith p [ch_slash]); intros H; apply app_inv_head in H; [auto | inversion H; auto].
Qed.

Lemma part_title : forall ls dir cat l f, listed_names_plain ls -> nxdl_names_plain ls -> part ls dir cat l -> In f l ->
  f = class_file dir cat (title_of f) /\ defines ls dir cat (title_of f).
Proof.
  intros ls dir cat l f H1 H2 HP Hf. apply (part_In _ _ _ _ _ HP) in Hf as (names & base & E & Hi & ->).
  assert (N1 : ~ In 47%N (base ++ py ".nxdl.xml")) by (eapply H1; eauto).
  assert (N2 : ~ In 46%N base) by (eapply H2; eauto).
  assert (T : title_of (path_join (path_join dir cat) (base ++ py ".nxdl.xml")) = base).
  { apply (title_of_path (path_join dir cat) base (py "nxdl.xml")); auto.
    - intros X. apply N1, in_app_iff. auto.
    - no_slash. }
  rewrite T. split; auto. exists names, base. auto.
Qed.

Lemma part_defines : forall ls dir cat l t, listed_names_plain ls -> nxdl_names_plain ls -> part ls dir cat l ->
  (defines ls dir cat t <-> exists f, In f l /\ title_of f = t).
Proof.
  intros ls dir cat l t H1 H2 HP. split.
  - intros HD. exists (class_file dir cat t). split; [apply (part_In _ _ _ _ _ HP); auto|].
    destruct HD as (names & base & E & Hi & F). unfold class_file in F. apply path_join_inj in F.
    assert (N1 : ~ In 47%N (base ++ py ".nxdl.xml")) by (eapply H1; eauto).
    assert (t = base) by (apply app_inv_tail in F; auto). subst.
    apply (title_of_path (path_join dir cat) base (py "nxdl.xml")).
    + intros X. apply N1, in_app_iff. auto.
    + eapply H2; eauto.
    + no_slash.
  - intros (f & Hf & <-). apply (part_title _ _ _ _ _ H1 H2 HP Hf).
Qed.

Lemma last_in_part : forall ls dir cat valid content early l late acc d d' cl t,
  listed_names_plain ls -> nxdl_names_plain ls -> ~ In 47%N cat -> cat <> [] ->
  part ls dir cat l -> defines ls dir cat t -> (forall f, In f late -> title_of f <> t) ->
  load_files valid content acc (early ++ l ++ late) d = (d', Ok cl) ->
  exists root def, content (class_file dir cat t) = Some root /\ dget t cl = Some def /\ loaded_def root def /\ d_title def = t /\ d_category def = cat.
Proof.
  intros ls dir cat valid content early l late acc d d' cl t H1 H2 C1 C2 HP HD HL H.
  apply (part_defines _ _ _ _ _ H1 H2 HP) in HD as (f & Hf & Ht).
  destruct (last_with (fun g => str_eqb (title_of g) t) l) as [N | (pre & g & post & E & Hg & Hpost)].
  - apply N in Hf. rewrite Ht, str_eqb_refl in Hf. discriminate.
  - apply str_eqb_eq in Hg. subst l. rewrite <- app_assoc in H. cbn [app] in H. rewrite app_assoc in H.
    apply load_files_last in H as (root & def & R1 & R2 & R3 & R4 & R5).
    + assert (Ig : In g (pre ++ g :: post)) by (rewrite in_app_iff; simpl; auto).
      pose proof (part_category _ _ _ _ _ H1 C1 C2 HP Ig) as K.
      destruct (part_title _ _ _ _ _ H1 H2 HP Ig) as [K' _].
      rewrite Hg in *. rewrite <- K'. rewrite K in R5. exists root, def. auto.
    + intros h Hh. rewrite Hg. apply in_app_iff in Hh as [Hh | Hh]; auto.
      apply Hpost in Hh. intros X. rewrite X, str_eqb_refl in Hh. discriminate.
Qed.

Lemma part_not : forall ls dir cat l t, listed_names_plain ls -> nxdl_names_plain ls -> part ls dir cat l ->
  ~ defines ls dir cat t -> forall f, In f l -> title_of f <> t.
Proof. intros ls dir cat l t H1 H2 HP N f Hf E. apply N. apply (part_defines _ _ _ _ _ H1 H2 HP). eauto. Qed.

Lemma manager_class : forall ls valid content d0 dir d' cl early cat late t,
  listed_names_plain ls -> nxdl_names_plain ls ->
  load_manager ls valid content d0 dir = (d', Ok cl) ->
  [py "base_classes"; py "applications"; py "contributed_definitions"] = early ++ cat :: late ->
  defines ls dir cat t -> (forall c, In c late -> ~ defines ls dir c t) ->
  exists root def, content (class_file dir cat t) = Some root /\ dget t cl = Some def /\ loaded_def root def /\ d_title def = t /\ d_category def = cat.
Proof.
  unfold load_manager. intros ls valid content d0 dir d' cl early cat late t H1 H2 H E HD HL.
  destruct (get_NXDL_file_list ls dir) as [l|] eqn:G; [|discriminate].
  apply file_list_ok in G as (a & b & c & -> & A & B & C).
  destruct early as [|e0 [|e1 [|e2 [|e3 early]]]]; cbn [app] in E.
  - injection E as E1 E2. subst cat late.
    apply (last_in_part ls dir (py "base_classes") valid content [] a (b ++ c) [] d0 d' cl t); auto; [no_slash | discriminate|].
    intros f Hf. apply in_app_iff in Hf as [Hf | Hf].
    + apply (part_not ls dir (py "applications") b t); auto. apply HL. left. reflexivity.
    + apply (part_not ls dir (py "contributed_definitions") c t); auto. apply HL. right. left. reflexivity.
  - injection E as _ E1 E2. subst cat late.
    apply (last_in_part ls dir (py "applications") valid content a b c [] d0 d' cl t); auto; [no_slash | discriminate|].
    apply (part_not ls dir (py "contributed_definitions") c t); auto. apply HL. left. reflexivity.
  - injection E as _ _ E1 E2. subst cat late.
    apply (last_in_part ls dir (py "contributed_definitions") valid content (a ++ b) c [] [] d0 d' cl t); auto;
      [no_slash | discriminate |]. rewrite app_nil_r, <- app_assoc. auto.
  - apply (f_equal (@List.length pystr)) in E. discriminate E.
  - apply (f_equal (@List.length pystr)) in E. cbn [List.length] in E. rewrite app_length in E. cbn [List.length] in E. lia.
Qed.

Lemma manager_no_class : forall ls valid content d0 dir d' cl t,
  listed_names_plain ls -> nxdl_names_plain ls ->
  load_manager ls valid content d0 dir = (d', Ok cl) ->
  (forall c, In c [py "base_classes"; py "applications"; py "contributed_definitions"] -> ~ defines ls dir c t) ->
  dget t cl = None.
Proof.
  unfold load_manager. intros ls valid content d0 dir d' cl t H1 H2 H HL.
  destruct (get_NXDL_file_list ls dir) as [l|] eqn:G; [|discriminate].
  apply file_list_ok in G as (a & b & c & -> & A & B & C).
  rewrite (load_files_kept _ _ _ _ _ _ _ t H); auto.
  intros f Hf. rewrite !in_app_iff in Hf. destruct Hf as [Hf | [Hf | Hf]].
  - apply (part_not ls dir (py "base_classes") a t); auto. apply HL. left. reflexivity.
  - apply (part_not ls dir (py "applications") b t); auto. apply HL. right. left. reflexivity.
  - apply (part_not ls dir (py "contributed_definitions") c t); auto. apply HL. right. right. left. reflexivity.
Qed.

Lemma manager_entry : forall ls valid content d0 dir d' cl,
  load_manager ls valid content d0 dir = (d', Ok cl) -> forall t def, In (t, def) cl ->
  exists file root, (nxdl_file ls dir (py "base_classes") file \/ nxdl_file ls dir (py "applications") file \/ nxdl_file ls dir (py "contributed_definitions") file)
    /\ content file = Some root /\ loaded_def root def.
Proof.
  unfold load_manager. intros ls valid content d0 dir d' cl H t def Hi.
  destruct (get_NXDL_file_list ls dir) as [l|] eqn:G; [|discriminate].
  destruct (load_files_spec _ _ _ _ _ _ _ H _ _ Hi) as [[] | (file & root & A & B & C & _)].
  exists file, root. split; auto. eapply manager_files; eauto.
Qed.

Lemma manager_distinct : forall ls valid content d0 dir d' cl,
  load_manager ls valid content d0 dir = (d', Ok cl) -> forall t def, In (t, def) cl ->
  NoDup (names_of_def def) /\ forall g, inside def g -> NoDup (names_of_group g).
Proof.
  intros ls valid content d0 dir d' cl H t def Hi.
  destruct (manager_entry _ _ _ _ _ _ _ H _ _ Hi) as (file & root & _ & _ & L). split.
  - destruct L as [HN _ _ _ _]. eapply names_given_NoDup; eauto.
  - intros g Hg. destruct (loaded_inside _ _ _ L Hg) as [n [HN _ _ _ _]]. eapply names_given_NoDup; eauto.
Qed.

Lemma def_keeps : forall root def, loaded_def root def -> forall before raw after, raw_names root = before ++ raw :: after ->
  ~ In raw before -> (forall r i, In r before -> raw <> r ++ str_nat i) -> nth_error (names_of_def def) (List.length before) = Some raw.
Proof. intros root def L. destruct L as [HN _ _ _ _]. intros. eapply names_given_keeps; eauto. Qed.

Lemma group_keeps : forall n g, loaded_group n g -> forall before raw after, raw_names n = before ++ raw :: after ->
  ~ In raw before -> (forall r i, In r before -> raw <> r ++ str_nat i) -> nth_error (names_of_group g) (List.length before) = Some raw.
Proof. intros n g L. destruct L as [HN _ _ _ _]. intros. eapply names_given_keeps; eauto. Qed.
