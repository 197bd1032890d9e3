(** * The same schema on other lines: lemmas for C89 *)

From Coq Require Import List NArith ZArith Bool String Lia.
From Verif Require Import PyBase PyFacts H5 SchemaMgr NxdlSchema Spec_Defaults DefaultsHeap DefaultsParse DefaultsCat.
Import ListNotations.
Open Scope string_scope.
Open Scope list_scope.

Definition R := same_but_lines.
Lemma R_kids : forall a b, R a b -> Forall2 R (l_kids a) (l_kids b).
Proof. intros a b H. inversion H; subst; cbn; [constructor|assumption]. Qed.
Lemma R_attrib : forall a b, R a b -> l_attrib a = l_attrib b.
Proof. intros a b H. inversion H; subst; reflexivity. Qed.
Lemma R_attr : forall k a b, R a b -> l_attr k a = l_attr k b.
Proof. intros k a b H. unfold l_attr. rewrite (R_attrib a b H). reflexivity. Qed.
Lemma R_is : forall tag a b, R a b -> l_is tag a = l_is tag b.
Proof. intros k a b H. inversion H; subst; reflexivity. Qed.

Lemma F2_filter : forall A (Q : A -> A -> Prop) f, (forall a b, Q a b -> f a = f b) ->
  forall l1 l2, Forall2 Q l1 l2 -> Forall2 Q (filter f l1) (filter f l2).
Proof.
  intros A Q f Hf l1 l2 H. induction H as [|a b l1 l2 Hab H IH]; cbn [filter]; [constructor|].
  rewrite (Hf a b Hab). destruct (f b); auto.
Qed.
Lemma F2_flat : forall A B (Q : A -> A -> Prop) (S : B -> B -> Prop) f g, (forall a b, Q a b -> Forall2 S (f a) (g b)) ->
  forall l1 l2, Forall2 Q l1 l2 -> Forall2 S (flat_map f l1) (flat_map g l2).
Proof.
  intros A B Q S f g Hf l1 l2 H. induction H as [|a b l1 l2 Hab H IH]; cbn [flat_map]; [constructor|].
  apply Forall2_app; auto.
Qed.
Lemma F2_and : forall A B (P Q : A -> B -> Prop) l1 l2, Forall2 P l1 l2 -> (forall a b, In (a, b) (combine l1 l2) -> Q a b) ->
  Forall2 (fun a b => P a b /\ Q a b) l1 l2.
Proof.
  intros A B P Q l1 l2 H. induction H as [|a b l1 l2 Hab H IH]; intros HQ; constructor.
  - split; [exact Hab|apply HQ; left; reflexivity].
  - apply IH. intros x y Hxy. apply HQ. right. exact Hxy.
Qed.
Lemma R_named : forall tag a b, R a b -> Forall2 R (l_named tag a) (l_named tag b).
Proof. intros tag a b H. apply F2_filter; [intros; apply R_is; assumption|]. apply R_kids. exact H. Qed.
Lemma R_path2 : forall s t a b, R a b -> Forall2 R (l_path2 s t a) (l_path2 s t b).
Proof. intros s t a b H. apply (F2_flat _ _ R R); [intros; apply R_named; assumption|apply R_named; exact H]. Qed.
Lemma R_all : forall a b, R a b -> Forall2 R (l_all a) (l_all b).
Proof.
  induction a as [|t l at_ k IH] using lnode_ind2; intros b H; inversion H; subst; cbn [l_all]; [constructor|].
  constructor; [exact H|]. match goal with H : Forall2 same_but_lines k ?x |- _ => rename H into HK; rename x into k2 end.
  clear H. induction HK as [|x y k1 k2 Hxy HK IHK]; cbn [flat_map]; [constructor|].
  apply Forall2_app; [apply IH; [left; reflexivity|exact Hxy]|apply IHK; intros z Hz; apply IH; right; exact Hz].
Qed.
Lemma R_height : forall a b, R a b -> l_height a = l_height b.
Proof.
  induction a as [|t l at_ k IH] using lnode_ind2; intros b H; inversion H; subst; [reflexivity|]. cbn [l_height]. f_equal.
  match goal with H : Forall2 same_but_lines k ?x |- _ => rename H into HK; rename x into k2 end.
  clear H. induction HK as [|x y k1 k2 Hxy HK IHK]; cbn [fold_right]; [reflexivity|].
  f_equal; [apply IH; [left; reflexivity|exact Hxy]|apply IHK; intros z Hz; apply IH; right; exact Hz].
Qed.

(** ** Parsing does not look at lines *)
Lemma R_sattr : forall a b, R a b -> parse_sattr a = parse_sattr b.
Proof.
  intros a b H. unfold parse_sattr.
  assert (X : Forall2 R (flat_map (l_named "pattern") (l_path2 "simpleType" "restriction" a)) (flat_map (l_named "pattern") (l_path2 "simpleType" "restriction" b))).
  { apply (F2_flat _ _ R R); [intros; apply R_named; assumption|apply R_path2; exact H]. }
  rewrite (R_attr "name" a b H), (R_attr "type" a b H), (R_attr "use" a b H), (R_attr "default" a b H).
  destruct X as [|x y l1 l2 Hxy X]; [reflexivity|]. destruct X; [|reflexivity]. rewrite (R_attrib x y Hxy). reflexivity.
Qed.
Lemma R_new_sattr : forall a b h, R a b -> new_sattr a h = new_sattr b h.
Proof. intros a b h H. unfold new_sattr. rewrite (R_sattr a b H). reflexivity. Qed.
Lemma alloc_all_F2 : forall A (Q : A -> A -> Prop) f g l1 l2, Forall2 Q l1 l2 -> (forall a b h, Q a b -> f a h = g b h) ->
  forall h, alloc_all f l1 h = alloc_all g l2 h.
Proof.
  intros A Q f g l1 l2 H Hf. induction H as [|a b l1 l2 Hab H IH]; intros h; [reflexivity|]. cbn [alloc_all].
  rewrite (Hf a b h Hab). destruct (g b h) as [r|e]; [|reflexivity]. cbn [rbind]. rewrite IH. reflexivity.
Qed.
Lemma R_selem_at : forall fuel a b h, R a b -> new_selem_at fuel a h = new_selem_at fuel b h.
Proof.
  induction fuel as [|fuel IH]; intros a b h H; [reflexivity|]. cbn [new_selem_at].
  rewrite (R_attr "name" a b H), (R_attr "type" a b H), (R_attr "minOccurs" a b H), (R_attr "maxOccurs" a b H).
  destruct (R_named "complexType" a b H) as [|x y l1 l2 Hxy X]; [reflexivity|]. destruct X; [|reflexivity].
  rewrite (alloc_all_F2 _ R (new_selem_at fuel) (new_selem_at fuel) _ _ (R_path2 "sequence" "element" x y Hxy)) by (intros; apply IH; assumption).
  destruct (alloc_all (new_selem_at fuel) (l_path2 "sequence" "element" y) h) as [r|e]; [|reflexivity]. cbn [rbind].
  rewrite (alloc_all_F2 _ R new_sattr new_sattr _ _ (R_named "attribute" x y Hxy)) by (intros; apply R_new_sattr; assumption).
  reflexivity.
Qed.
Lemma R_new_selem : forall a b h, R a b -> new_selem a h = new_selem b h.
Proof. intros a b h H. unfold new_selem. rewrite (R_height a b H). apply R_selem_at. exact H. Qed.
Lemma R_new_sgroup : forall a b h, R a b -> new_sgroup a h = new_sgroup b h.
Proof.
  intros a b h H. unfold new_sgroup.
  rewrite (alloc_all_F2 _ R new_selem new_selem _ _ (R_path2 "sequence" "element" a b H)) by (intros; apply R_new_selem; assumption).
  rewrite (R_attr "name" a b H), (R_attr "ref" a b H), (R_attr "minOccurs" a b H), (R_attr "maxOccurs" a b H). reflexivity.
Qed.
Lemma R_rule_patterns : forall l1 l2, Forall2 R l1 l2 -> forall acc, rule_patterns acc l1 = rule_patterns acc l2.
Proof.
  intros l1 l2 H. induction H as [|a b l1 l2 Hab H IH]; intros acc; [reflexivity|]. cbn [rule_patterns].
  rewrite (R_attrib a b Hab). destruct (dgetitem (py "value") (l_attrib b)); [|reflexivity]. cbn [rbind]. apply IH.
Qed.
Lemma R_rule_maxLength : forall E l1 l2, Forall2 R l1 l2 -> forall m, rule_maxLength E m l1 = rule_maxLength E m l2.
Proof.
  intros E l1 l2 H. induction H as [|a b l1 l2 Hab H IH]; intros m; [reflexivity|]. cbn [rule_maxLength].
  rewrite (R_attrib a b Hab). destruct (dgetitem (py "value") (l_attrib b)); [|reflexivity]. cbn [rbind].
  match goal with |- (dor z <- ?x ; _) = _ => destruct x; [|reflexivity] end. cbn [rbind]. apply IH.
Qed.
Lemma R_restrictions : forall E l1 l2, Forall2 R l1 l2 -> forall s, restrictions E s l1 = restrictions E s l2.
Proof.
  intros E l1 l2 H. induction H as [|a b l1 l2 Hab H IH]; intros s; [reflexivity|]. cbn [restrictions].
  rewrite (R_attr "base" a b Hab), (R_rule_patterns _ _ (R_named "pattern" a b Hab)), (R_rule_maxLength E _ _ (R_named "maxLength" a b Hab)).
  match goal with |- (dor z <- ?x ; _) = _ => destruct x; [|reflexivity] end. cbn [rbind].
  match goal with |- (dor z <- ?x ; _) = _ => destruct x; [|reflexivity] end. cbn [rbind]. apply IH.
Qed.
Lemma R_simple_types : forall E l1 l2, Forall2 R l1 l2 -> forall db, simple_types E db l1 = simple_types E db l2.
Proof.
  intros E l1 l2 H. induction H as [|a b l1 l2 Hab H IH]; intros db; [reflexivity|]. cbn [simple_types].
  unfold parse_simple. rewrite (R_restrictions E _ _ (R_named "restriction" a b Hab)), (R_attr "name" a b Hab).
  match goal with |- (dor z <- ?x ; _) = _ => destruct x; [|reflexivity] end. cbn [rbind]. apply IH.
Qed.

(** ** Two runs *)
Definition both {A B} (P : A -> B -> Prop) (x : res A) (y : res B) : Prop :=
  match x, y with Ok a, Ok b => P a b | Exn e, Exn e' => e = e' | _, _ => False end.
Lemma both_bind : forall A B A' B' (P : A -> B -> Prop) (Q : A' -> B' -> Prop) x y f g,
  both P x y -> (forall a b, P a b -> both Q (f a) (g b)) -> both Q (rbind x f) (rbind y g).
Proof. intros A B A' B' P Q [a|e] [b|e'] f g H Hf; cbn in *; try contradiction; auto. Qed.
Lemma both_eq : forall A (x y : res A), both eq x y <-> x = y.
Proof. intros A [a|e] [b|e']; cbn; split; intros H; try contradiction; try discriminate; congruence. Qed.
Lemma traverse_F2 : forall A B (Q : A -> A -> Prop) (f g : A -> res B) l1 l2, Forall2 Q l1 l2 ->
  (forall a b, Q a b -> f a = g b) -> traverse f l1 = traverse g l2.
Proof.
  intros A B Q f g l1 l2 H Hf. induction H as [|a b l1 l2 Hab H IH]; [reflexivity|]. cbn [traverse].
  rewrite (Hf a b Hab), IH. reflexivity.
Qed.

Definition secs (l1 l2 : list lnode) (s1 s2 : list (N * nat)) : Prop :=
  forall n1 n2, In (n1, n2) (combine l1 l2) -> line_get n1 s1 = line_get n2 s2.

Lemma parse_lines_two : forall f l1 l2, Forall2 R l1 l2 -> (forall a b h, R a b -> f a h = f b h) ->
  NoDup (map l_line l1) -> NoDup (map l_line l2) -> forall h s1 s2,
  both (fun r1 r2 => fst r1 = fst r2 /\ secs l1 l2 (snd r1) (snd r2)) (parse_lines f l1 h s1) (parse_lines f l2 h s2).
Proof.
  intros f l1 l2 H Hf. induction H as [|a b l1 l2 Hab H IH]; intros N1 N2 h s1 s2.
  - cbn. split; [reflexivity|]. intros n1 n2 [].
  - cbn [parse_lines map] in *. inversion N1; inversion N2; subst. rewrite (Hf a b h Hab).
    destruct (f b h) as [r|e]; [|reflexivity]. cbn [rbind].
    match goal with |- both _ (parse_lines f l1 ?hh ?x1) (parse_lines f l2 _ ?x2) => pose proof (IH ltac:(assumption) ltac:(assumption) hh x1 x2) as X; 
      destruct (parse_lines f l1 hh x1) as [r1|e1] eqn:E1, (parse_lines f l2 hh x2) as [r2|e2] eqn:E2; cbn [both] in *; try exact X end.
    destruct X as [X1 X2]. split; [exact X1|]. intros n1 n2 Hn. cbn [combine] in Hn. destruct Hn as [Hn|Hn]; [|exact (X2 n1 n2 Hn)].
    injection Hn as <- <-. rewrite (parse_lines_keeps _ _ _ _ _ a E1) by assumption. rewrite (parse_lines_keeps _ _ _ _ _ b E2) by assumption.
    rewrite !line_get_same. reflexivity.
Qed.

Lemma cat_groups_keeps : forall l c r n, cat_groups l c = Ok r -> ~ In (l_line n) (map l_line l) ->
  line_get n (ca_group r) = line_get n (ca_group c).
Proof.
  induction l as [|m l IH]; intros c r n Hr Hn; cbn [cat_groups] in Hr; [injection Hr as <-; reflexivity|].
  destruct (new_sgroup m (ca_heap c)) as [r1|e]; [|discriminate]. cbn [rbind] in Hr.
  match type of Hr with (dor s <- ?x ; _) = _ => destruct x as [s|e]; [|discriminate] end. cbn [rbind] in Hr.
  rewrite (IH _ _ n Hr); [|intros X; apply Hn; right; exact X]. cbn [ca_group]. apply line_get_other. intros X. apply Hn. left. exact X.
Qed.

Section Two.
  Variables kids1 kids2 : list lnode.
  Hypothesis KK : Forall2 R kids1 kids2.
  Hypothesis OL1 : own_lines kids1.
  Hypothesis OL2 : own_lines kids2.

  Definition pair (a b : lnode) : Prop := R a b /\ In (a, b) (combine (flat_map l_all kids1) (flat_map l_all kids2)).

  Lemma combine_app : forall A B (a1 a2 : list A) (b1 b2 : list B), List.length a1 = List.length b1 ->
    combine (a1 ++ a2) (b1 ++ b2) = combine a1 b1 ++ combine a2 b2.
  Proof. induction a1 as [|x a1 IH]; intros a2 [|y b1] b2 H; try discriminate; [reflexivity|]. cbn in *. f_equal. apply IH. lia. Qed.
  Lemma F2_len : forall A B (P : A -> B -> Prop) l1 l2, Forall2 P l1 l2 -> List.length l1 = List.length l2.
  Proof. intros A B P l1 l2 H. induction H; cbn; congruence. Qed.

  Lemma combine_flat : forall k1 k2, Forall2 R k1 k2 -> forall a b, In (a, b) (combine k1 k2) ->
    incl (combine (l_all a) (l_all b)) (combine (flat_map l_all k1) (flat_map l_all k2)).
  Proof.
    intros k1 k2 H. induction H as [|x y k1 k2 Hxy H IH]; intros a b Hab; [contradiction|]. cbn [flat_map].
    rewrite combine_app by (apply (F2_len _ _ R); apply R_all; exact Hxy). cbn [combine] in Hab. destruct Hab as [Hab|Hab].
    - injection Hab as <- <-. apply incl_appl. apply incl_refl.
    - apply incl_appr. apply IH. exact Hab.
  Qed.
  Lemma in_combine_R : forall (l1 l2 : list lnode), Forall2 R l1 l2 -> forall a b, In (a, b) (combine l1 l2) -> R a b.
  Proof. intros l1 l2 H. induction H as [|x y l1 l2 Hxy H IH]; intros a b Hab; [contradiction|]. destruct Hab as [E|Hab]; [injection E as <- <-; exact Hxy|auto]. Qed.
  Lemma combine_trans : forall n m, R n m -> forall a b, In (a, b) (combine (l_all n) (l_all m)) ->
    incl (combine (l_all a) (l_all b)) (combine (l_all n) (l_all m)).
  Proof.
    induction n as [|t l at_ k IH] using lnode_ind2; intros m H a b Hab; [contradiction|].
    inversion H; subst. match goal with H : Forall2 same_but_lines k ?x |- _ => rename H into HK; rename x into k2 end.
    cbn [l_all combine] in Hab. destruct Hab as [E|Hab].
    - injection E as <- <-. apply incl_refl.
    - cbn [l_all combine]. apply incl_tl. clear H.
      revert k2 HK Hab. induction k as [|x k IHk]; intros k2 HK Hab; inversion HK as [|x' y' k' k2' Hxy HK2]; subst; [contradiction|].
      cbn [flat_map] in *. rewrite combine_app in * by (apply (F2_len _ _ R); apply R_all; exact Hxy).
      apply in_app_or in Hab. destruct Hab as [Hab|Hab]; [apply incl_appl; exact (IH x (or_introl eq_refl) _ Hxy a b Hab)|apply incl_appr; apply IHk; auto; intros z Hz; apply IH; right; exact Hz].
  Qed.
  Lemma self_all : forall a b, R a b -> a <> LComment -> In (a, b) (combine (l_all a) (l_all b)).
  Proof. intros a b H N. inversion H; subst; [contradiction|]. left. reflexivity. Qed.
  Lemma pair_top : forall a b, In (a, b) (combine kids1 kids2) -> a <> LComment -> pair a b.
  Proof.
    intros a b H N. assert (X := in_combine_R _ _ KK a b H). split; [exact X|].
    apply (combine_flat _ _ KK a b H). apply self_all; assumption.
  Qed.
  Lemma pair_incl : forall a b, pair a b -> incl (combine (l_all a) (l_all b)) (combine (flat_map l_all kids1) (flat_map l_all kids2)).
  Proof.
    intros a b [Hab H]. revert KK H. clear. intros KK H.
    induction KK as [|x y k1 k2 Hxy K IH]; [contradiction|]. cbn [flat_map] in *.
    rewrite combine_app in * by (apply (F2_len _ _ R); apply R_all; exact Hxy).
    apply in_app_or in H. destruct H as [H|H]; [apply incl_appl; apply combine_trans; assumption|apply incl_appr; auto].
  Qed.
  Lemma pair_kid : forall a b, pair a b -> forall x y, In (x, y) (combine (l_kids a) (l_kids b)) -> x <> LComment -> pair x y.
  Proof.
    intros a b P x y H N. assert (X := in_combine_R _ _ (R_kids a b (proj1 P)) x y H). split; [exact X|].
    apply (pair_incl a b P). destruct a as [|t l at_ k]; [contradiction|]. destruct P as [Rab _]. inversion Rab; subst.
    cbn [l_all combine l_kids] in *. right. match goal with H : Forall2 same_but_lines k ?z |- _ => apply (combine_flat _ _ H x y) end; [assumption|].
    apply self_all; assumption.
  Qed.
  Lemma filter_pair : forall f (l1 l2 : list lnode), Forall2 R l1 l2 -> (forall a b, R a b -> f a = f b) ->
    forall a b, In (a, b) (combine (filter f l1) (filter f l2)) <-> In (a, b) (combine l1 l2) /\ f a = true.
  Proof.
    intros f l1 l2 H Hf. induction H as [|x y l1 l2 Hxy H IH]; intros a b; [cbn; tauto|]. cbn [filter]. rewrite (Hf x y Hxy).
    destruct (f y) eqn:Ey; cbn [combine In]; rewrite IH.
    - split; [intros [E|X]; [split; [left; exact E|injection E as <- <-; rewrite (Hf x y Hxy); exact Ey]|tauto]|tauto].
    - split; [tauto|]. intros [[E|X] F]; [injection E as <- <-; rewrite (Hf x y Hxy), Ey in F; discriminate|tauto].
  Qed.
  Lemma pair_named : forall tag a b, pair a b -> Forall2 (fun x y => pair x y /\ l_is (py tag) x = true) (l_named tag a) (l_named tag b).
  Proof.
    intros tag a b P.
    assert (X : Forall2 (fun x y => R x y /\ (pair x y /\ l_is (py tag) x = true)) (l_named tag a) (l_named tag b)).
    { apply F2_and; [apply R_named; apply P|]. intros x y H. unfold l_named in H.
      apply (filter_pair (l_is (py tag)) _ _ (R_kids a b (proj1 P)) (R_is (py tag))) in H. destruct H as [H1 H2].
      split; [|exact H2]. apply (pair_kid a b P x y H1). intros ->. discriminate. }
    induction X as [|x y l1 l2 Hxy X IH]; constructor; [apply Hxy|exact IH].
  Qed.
  Lemma pair_anywhere : forall tag a b, pair a b -> l_is (py tag) a = true -> In (a, b) (combine (l_anywhere tag kids1) (l_anywhere tag kids2)).
  Proof.
    intros tag a b [P1 P2] H. unfold l_anywhere. apply filter_pair; [apply (F2_flat _ _ R R); [intros; apply R_all; assumption|exact KK]|apply R_is|]. auto.
  Qed.
  Lemma R_anywhere : forall tag, Forall2 R (l_anywhere tag kids1) (l_anywhere tag kids2).
  Proof. intros tag. apply F2_filter; [apply R_is|]. apply (F2_flat _ _ R R); [intros; apply R_all; assumption|exact KK]. Qed.

  Record crel (c1 c2 : catalog) : Prop := {
    r_heap : ca_heap c1 = ca_heap c2;
    r_schema : ca_schema c1 = ca_schema c2;
    r_simple : ca_simple c1 = ca_simple c2
  }.
  Record crel3 (c1 c2 : catalog) : Prop := {
    r_rel : crel c1 c2;
    r_attribute : secs (l_anywhere "attribute" kids1) (l_anywhere "attribute" kids2) (ca_attribute c1) (ca_attribute c2);
    r_element : secs (l_anywhere "element" kids1) (l_anywhere "element" kids2) (ca_element c1) (ca_element c2);
    r_group : secs (l_anywhere "group" kids1) (l_anywhere "group" kids2) (ca_group c1) (ca_group c2)
  }.

  Lemma two_simple : forall E c1 c2, crel c1 c2 -> both crel (cat_simple E kids1 c1) (cat_simple E kids2 c2).
  Proof.
    intros E c1 c2 [H1 H2 H3]. unfold cat_simple.
    assert (X : Forall2 R (filter (l_is (py "simpleType")) kids1) (filter (l_is (py "simpleType")) kids2)) by (apply F2_filter; [apply R_is|exact KK]).
    unfold all_simple_types. rewrite (R_simple_types E _ _ X).
    match goal with |- both _ (rbind (rbind ?x _) _) _ => destruct x as [db|e]; [|reflexivity] end. cbn [rbind both].
    destruct X; constructor; cbn; congruence.
  Qed.
  Lemma two_attributes : forall c1 c2, crel c1 c2 ->
    both (fun d1 d2 => crel d1 d2 /\ secs (l_anywhere "attribute" kids1) (l_anywhere "attribute" kids2) (ca_attribute d1) (ca_attribute d2))
      (cat_attributes (l_anywhere "attribute" kids1) c1) (cat_attributes (l_anywhere "attribute" kids2) c2).
  Proof.
    intros c1 c2 [H1 H2 H3]. rewrite !cat_attributes_lines, H1.
    eapply both_bind; [apply (parse_lines_two new_sattr); [apply R_anywhere|intros; apply R_new_sattr; assumption|apply OL1; cbn; tauto|apply OL2; cbn; tauto]|].
    intros [h1 s1] [h2 s2] [X1 X2]. cbn [both fst snd ca_attribute] in *. split; [constructor; cbn; congruence|exact X2].
  Qed.
  Lemma two_attributeGroups : forall l1 l2, Forall2 R l1 l2 -> forall c1 c2, crel c1 c2 ->
    both (fun d1 d2 => crel d1 d2 /\ ca_attribute d1 = ca_attribute c1 /\ ca_attribute d2 = ca_attribute c2)
      (cat_attributeGroups l1 c1) (cat_attributeGroups l2 c2).
  Proof.
    intros l1 l2 H. induction H as [|a b l1 l2 Hab H IH]; intros c1 c2 C; cbn [cat_attributeGroups].
    - split; [exact C|auto].
    - destruct C as [H1 H2 H3]. rewrite H1.
      rewrite (alloc_all_F2 _ R new_sattr new_sattr _ _ (R_named "attribute" a b Hab)) by (intros; apply R_new_sattr; assumption).
      destruct (alloc_all new_sattr (l_named "attribute" b) (ca_heap c2)) as [r|e]; [|reflexivity]. cbn [rbind].
      match goal with |- both _ (cat_attributeGroups l1 ?x) (cat_attributeGroups l2 ?y) => apply (IH x y) end.
      constructor; cbn; try congruence. unfold enter. rewrite (R_attr "name" a b Hab), H2. reflexivity.
  Qed.
  Lemma two_elements : forall c1 c2, crel c1 c2 ->
    both (fun d1 d2 => crel d1 d2 /\ ca_attribute d1 = ca_attribute c1 /\ ca_attribute d2 = ca_attribute c2 /\
        secs (l_anywhere "element" kids1) (l_anywhere "element" kids2) (ca_element d1) (ca_element d2))
      (cat_elements (l_anywhere "element" kids1) c1) (cat_elements (l_anywhere "element" kids2) c2).
  Proof.
    intros c1 c2 [H1 H2 H3]. rewrite !cat_elements_lines, H1.
    eapply both_bind; [apply (parse_lines_two new_selem); [apply R_anywhere|intros; apply R_new_selem; assumption|apply OL1; cbn; tauto|apply OL2; cbn; tauto]|].
    intros [h1 s1] [h2 s2] [X1 X2]. cbn [both fst snd ca_attribute ca_element] in *. split; [constructor; cbn; congruence|auto].
  Qed.
  Lemma two_groups : forall l1 l2, Forall2 R l1 l2 -> NoDup (map l_line l1) -> NoDup (map l_line l2) -> forall c1 c2, crel c1 c2 ->
    both (fun d1 d2 => crel d1 d2 /\ (ca_attribute d1 = ca_attribute c1 /\ ca_attribute d2 = ca_attribute c2) /\
        (ca_element d1 = ca_element c1 /\ ca_element d2 = ca_element c2) /\ secs l1 l2 (ca_group d1) (ca_group d2))
      (cat_groups l1 c1) (cat_groups l2 c2).
  Proof.
    intros l1 l2 H. induction H as [|a b l1 l2 Hab H IH]; intros N1 N2 c1 c2 C.
    - cbn. split; [exact C|]. split; [auto|]. split; [auto|]. intros x y [].
    - cbn [map] in N1, N2. inversion N1; inversion N2; subst. cbn [cat_groups]. destruct C as [H1' H2' H3'].
      rewrite H1', (R_new_sgroup a b _ Hab), H2', (R_attr "name" a b Hab).
      destruct (new_sgroup b (ca_heap c2)) as [r|e]; [|reflexivity]. cbn [rbind].
      match goal with |- both _ (rbind ?x _) _ => destruct x as [s|e]; [|reflexivity] end. cbn [rbind].
      match goal with |- both _ (cat_groups l1 ?x) (cat_groups l2 ?y) => 
        assert (X := IH ltac:(assumption) ltac:(assumption) x y ltac:(constructor; cbn; congruence));
        destruct (cat_groups l1 x) as [d1|e1] eqn:E1, (cat_groups l2 y) as [d2|e2] eqn:E2; cbn [both] in *; try exact X end.
      destruct X as (X1 & X2 & X3 & X4). split; [exact X1|]. split; [exact X2|]. split; [exact X3|].
      intros n1 n2 Hn. destruct Hn as [Hn|Hn]; [|exact (X4 n1 n2 Hn)]. injection Hn as <- <-.
      rewrite (cat_groups_keeps _ _ _ a E1) by assumption. rewrite (cat_groups_keeps _ _ _ b E2) by assumption.
      cbn [ca_group]. rewrite !line_get_same. reflexivity.
  Qed.

  Section Complex.
    Variables c1 c2 : catalog.
    Hypothesis C : crel3 c1 c2.
    Lemma two_schema : forall k, schema_children c1 k = schema_children c2 k.
    Proof.
      intros k. unfold schema_children. rewrite (r_schema _ _ (r_rel _ _ C)). destruct (ca_schema c2) as [d|]; [|reflexivity].
      destruct (dgetitem k d) as [[x|x|x]|e]; cbn; try reflexivity. rewrite (r_heap _ _ (r_rel _ _ C)). reflexivity.
    Qed.
    Lemma two_line : forall tag s1 s2, secs (l_anywhere tag kids1) (l_anywhere tag kids2) s1 s2 ->
      forall a b, pair a b -> traverse (by_line s1) (l_named tag a) = traverse (by_line s2) (l_named tag b).
    Proof.
      intros tag s1 s2 S a b P. apply (traverse_F2 _ _ _ _ _ _ _ (pair_named tag a b P)). intros x y [Hxy Ht].
      unfold by_line. rewrite (S x y (pair_anywhere tag x y Hxy Ht)). reflexivity.
    Qed.
    Lemma two_sequence : forall a b, pair a b -> ct_sequence c1 a = ct_sequence c2 b.
    Proof. intros a b P. unfold ct_sequence. rewrite (two_line "element" _ _ (r_element _ _ C) a b P), (two_line "group" _ _ (r_group _ _ C) a b P). reflexivity. Qed.
    Lemma two_sequences : forall a b, pair a b -> traverse (ct_sequence c1) (l_named "sequence" a) = traverse (ct_sequence c2) (l_named "sequence" b).
    Proof. intros a b P. apply (traverse_F2 _ _ _ _ _ _ _ (pair_named "sequence" a b P)). intros x y [Hxy _]. apply two_sequence. exact Hxy. Qed.
    Lemma two_extension : forall a b, pair a b -> ct_extension c1 a = ct_extension c2 b.
    Proof.
      intros a b P. unfold ct_extension. rewrite (R_attr "base" a b (proj1 P)), (two_sequences a b P), (two_line "attribute" _ _ (r_attribute _ _ C) a b P).
      destruct (l_attr "base" b); [rewrite two_schema|]; reflexivity.
    Qed.
    Lemma two_content : forall a b, pair a b -> ct_content c1 a = ct_content c2 b.
    Proof.
      intros a b P. unfold ct_content. assert (K := R_kids a b (proj1 P)). assert (PK := pair_kid a b P).
      destruct K as [|x y k1 k2 Hxy K]; [reflexivity|]. destruct x as [|t l at_ k]; inversion Hxy; subst; [reflexivity|].
      cbn [l_is]. destruct (str_eqb t (py "extension")); [|reflexivity]. apply two_extension. apply PK; [left; reflexivity|discriminate].
    Qed.
    Lemma two_children : forall a b, pair a b -> ct_children c1 a = ct_children c2 b.
    Proof.
      intros a b P. unfold ct_children. rewrite (two_sequences a b P), (two_line "group" _ _ (r_group _ _ C) a b P), (two_line "attribute" _ _ (r_attribute _ _ C) a b P).
      rewrite (traverse_F2 _ _ _ (ct_content c1) (ct_content c2) _ _ (pair_named "complexContent" a b P)) by (intros x y [Hxy _]; apply two_content; exact Hxy).
      rewrite (traverse_F2 _ _ _ (ct_attributeGroup c1) (ct_attributeGroup c2) _ _ (pair_named "attributeGroup" a b P)); [reflexivity|].
      intros x y [Hxy _]. unfold ct_attributeGroup. rewrite (R_attrib x y (proj1 Hxy)). destruct (dgetitem (py "ref") (l_attrib y)); [|reflexivity]. cbn [rbind]. apply two_schema.
    Qed.
  End Complex.
  Lemma two_complexTypes : forall l1 l2, Forall2 pair l1 l2 -> forall c1 c2, crel3 c1 c2 ->
    both crel3 (cat_complexTypes l1 c1) (cat_complexTypes l2 c2).
  Proof.
    intros l1 l2 H. induction H as [|a b l1 l2 Hab H IH]; intros c1 c2 C; cbn [cat_complexTypes]; [exact C|].
    rewrite (R_attr "name" a b (proj1 Hab)). destruct (l_attr "name" b) eqn:En; [|apply IH; exact C].
    rewrite (two_children c1 c2 C a b Hab). destruct (ct_children c2 b) as [ch|e]; [|reflexivity]. cbn [rbind].
    apply IH. destruct C as [[H1 H2 H3] Ha He Hg]. constructor; cbn; auto. constructor; cbn; auto.
    unfold enter. rewrite (R_attr "name" a b (proj1 Hab)), H2. reflexivity.
  Qed.
  Lemma pair_tops : forall tag, Forall2 pair (filter (l_is (py tag)) kids1) (filter (l_is (py tag)) kids2).
  Proof.
    intros tag. assert (X : Forall2 (fun x y => R x y /\ pair x y) (filter (l_is (py tag)) kids1) (filter (l_is (py tag)) kids2)).
    { apply F2_and; [apply F2_filter; [apply R_is|exact KK]|]. intros x y H.
      apply (filter_pair (l_is (py tag)) _ _ KK (R_is (py tag))) in H. apply pair_top; [apply H|]. intros ->. destruct H; discriminate. }
    induction X as [|x y l1 l2 Hxy X IH]; constructor; [apply Hxy|exact IH].
  Qed.
  Lemma two_catalog : forall E, both crel3 (read_catalog E kids1) (read_catalog E kids2).
  Proof.
    intros E. unfold read_catalog.
    eapply both_bind; [apply two_simple; constructor; reflexivity|]. intros a1 a2 A.
    eapply both_bind; [apply two_attributes; exact A|]. cbn beta. intros b1 b2 [B1 B2].
    eapply both_bind; [apply two_attributeGroups; [apply F2_filter; [apply R_is|exact KK]|exact B1]|]. cbn beta. intros d1 d2 (D1 & D2 & D3).
    eapply both_bind; [apply two_elements; exact D1|]. cbn beta. intros e1 e2 (E1 & E2 & E3 & E4).
    eapply both_bind; [apply two_groups; [apply R_anywhere|apply OL1; cbn; tauto|apply OL2; cbn; tauto|exact E1]|]. cbn beta. intros f1 f2 (F1 & (F2 & F3) & (F4 & F5) & F6).
    apply two_complexTypes; [apply pair_tops|]. constructor; [exact F1| | |exact F6].
    - rewrite F2, F3, E2, E3, D2, D3. exact B2.
    - rewrite F4, F5. exact E4.
  Qed.
  Lemma two_summary : forall E limit, nxdl_summary E limit kids1 = nxdl_summary E limit kids2.
  Proof.
    intros E limit. apply both_eq. unfold nxdl_summary. eapply both_bind; [apply two_catalog|].
    intros c1 c2 C. assert (X : init_definition limit kids1 c1 = init_definition limit kids2 c2).
    { unfold init_definition. assert (T := pair_tops "element"). assert (T2 := fun a b => filter_pair (l_is (py "element")) _ _ KK (R_is (py "element")) a b).
      destruct T as [|a b l1 l2 Hab T]; [reflexivity|]. destruct T; [|reflexivity].
      assert (Ta : l_is (py "element") a = true) by (apply (T2 a b); left; reflexivity).
      unfold by_line. rewrite (r_element _ _ C a b (pair_anywhere "element" a b Hab Ta)).
      rewrite (R_attrib a b (proj1 Hab)), (r_heap _ _ (r_rel _ _ C)), (r_schema _ _ (r_rel _ _ C)), (r_simple _ _ (r_rel _ _ C)).
      destruct (line_get b (ca_element c2)); [|reflexivity]. cbn [rbind].
      destruct (dgetitem (py "type") (l_attrib b)); [|reflexivity]. cbn [rbind]. rewrite (two_schema c1 c2 C). reflexivity. }
    rewrite X, (r_simple _ _ (r_rel _ _ C)). apply both_eq. reflexivity.
  Qed.
End Two.
