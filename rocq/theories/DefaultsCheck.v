(** * Deciding whether a schema is in good order (used to show that the shipped ones are) *)

From Coq Require Import List NArith ZArith Bool String Lia.
From Verif Require Import PyBase PyFacts H5 SchemaMgr NxdlSchema Spec_Defaults DefaultsHeap DefaultsParse.
Import ListNotations.
Open Scope string_scope.
Open Scope list_scope.

Section NoDupB.
  Context {A : Type} (eqb : A -> A -> bool) (Heq : forall a b, eqb a b = true <-> a = b).
  Fixpoint nodupb (l : list A) : bool :=
    match l with [] => true | x :: r => negb (existsb (eqb x) r) && nodupb r end.
  Lemma nodupb_ok : forall l, nodupb l = true -> NoDup l.
  Proof.
    induction l as [|x r IH]; intros H; [constructor|]. cbn in H. apply andb_prop in H. destruct H as [H1 H2].
    constructor; [|auto]. intros X. apply negb_true_iff in H1.
    assert (E : existsb (eqb x) r = true) by (apply existsb_exists; exists x; split; [exact X|apply Heq; reflexivity]).
    congruence.
  Qed.
End NoDupB.

Lemma only_one : forall A (f : A -> bool) l x, filter f l = [x] -> In x l /\ f x = true /\ forall y, In y l -> f y = true -> y = x.
Proof.
  intros A f l x H. assert (X : In x (filter f l)) by (rewrite H; left; reflexivity).
  apply filter_In in X. destruct X as [X1 X2]. split; [exact X1|]. split; [exact X2|].
  intros y Hy Fy. assert (Y : In y (filter f l)) by (apply filter_In; auto). rewrite H in Y. destruct Y as [Y|[]]. congruence.
Qed.

Definition topb (kids : list lnode) (tag : string) (name : pystr) : list lnode :=
  filter (fun n => l_is (py tag) n && match l_attr "name" n with Some k => str_eqb k name | None => false end) kids.
Lemma topb_top : forall kids tag name n, In n (topb kids tag name) <-> top kids tag name n.
Proof.
  intros kids tag name n. unfold topb, top. rewrite filter_In, andb_true_iff. split.
  - intros (H1 & H2 & H3). split; [exact H1|]. split; [exact H2|]. destruct (l_attr "name" n) as [k|]; [|discriminate].
    apply str_eqb_eq in H3. congruence.
  - intros (H1 & H2 & H3). split; [exact H1|]. split; [exact H2|]. rewrite H3. apply str_eqb_refl.
Qed.
Definition is_nil {A} (l : list A) : bool := match l with [] => true | _ => false end.
Definition extensions (t : lnode) : list lnode :=
  flat_map (fun cc => match l_kids cc with x :: _ => if l_is (py "extension") x then [x] else [] | [] => [] end) (l_named "complexContent" t).
Lemma extensions_ok : forall t x, extension t x -> In x (extensions t).
Proof.
  intros t x (cc & rest & H1 & H2 & H3). unfold extensions. apply in_flat_map. exists cc. split; [exact H1|].
  rewrite H2, H3. left. reflexivity.
Qed.

Definition tidyb (kids : list lnode) : bool :=
  forallb (fun tag => nodupb N.eqb (map l_line (l_anywhere tag kids))) ["attribute"; "element"; "group"] &&
  nodupb str_eqb (flat_map entry_name kids) &&
  forallb (fun k => negb (startswith k (py "__"))) (flat_map entry_name kids) &&
  (Nat.eqb (List.length (filter (fun n => match l_attr "name" n with Some _ => true | None => false end) (l_anywhere "group" kids)))
     (List.length (filter (fun n => match l_attr "name" n with Some _ => true | None => false end) (filter (l_is (py "group")) kids)))) &&
  forallb (fun t => negb (l_is (py "complexType") t) ||
     (forallb (fun x => match l_attr "base" x with Some b => negb (is_nil (topb kids "complexType" (local_name b))) | None => true end) (extensions t) &&
      forallb (fun r => match l_attr "ref" r with Some b => negb (is_nil (topb kids "attributeGroup" (local_name b))) | None => true end) (l_named "attributeGroup" t))) kids.

Lemma sub_eq : forall A (f : A -> bool) (F : A -> list A), 
  (forall x, f x = true -> exists r, F x = x :: r) ->
  forall l, List.length (filter f (flat_map F l)) = List.length (filter f l) -> forall x, In x (filter f (flat_map F l)) -> In x (filter f l).
Proof.
  intros A f F HF. 
  assert (Le : forall l, List.length (filter f l) <= List.length (filter f (flat_map F l))).
  { induction l as [|y l IH]; [reflexivity|]. cbn [flat_map filter]. rewrite filter_app, app_length.
    destruct (f y) eqn:Ey; [|lia]. destruct (HF y Ey) as (r & Er). rewrite Er. cbn [filter]. rewrite Ey. cbn [List.length]. lia. }
  induction l as [|y l IH]; intros HL x Hx; [exact Hx|]. cbn [flat_map filter] in *. rewrite filter_app in *.
  rewrite app_length in HL. specialize (Le l). destruct (f y) eqn:Ey.
  - destruct (HF y Ey) as (r & Er). rewrite Er in *. cbn [filter] in *. rewrite Ey in *. cbn [List.length app] in *.
    assert (Z : filter f r = []) by (destruct (filter f r); [reflexivity|cbn in HL; lia]). rewrite Z in *. cbn in *.
    destruct Hx as [Hx|Hx]; [left; exact Hx|right]. apply IH; [lia|exact Hx].
  - assert (Z : filter f (F y) = []) by (destruct (filter f (F y)); [reflexivity|cbn in HL; lia]). rewrite Z in *. cbn in *.
    apply IH; [lia|exact Hx].
Qed.

Lemma tidyb_ok : forall kids, tidyb kids = true -> tidy kids.
Proof.
  intros kids H. unfold tidyb in H. repeat rewrite andb_true_iff in H. destruct H as ((((H1 & H2) & H3) & H4) & H5).
  rewrite forallb_forall in H1, H3, H5. constructor.
  - intros tag Ht. apply (nodupb_ok N.eqb N.eqb_eq). auto.
  - apply (nodupb_ok str_eqb str_eqb_eq). exact H2.
  - intros k Hk. specialize (H3 k Hk). apply negb_true_iff in H3. exact H3.
  - intros n Hn Nn. apply Nat.eqb_eq in H4. unfold l_anywhere in *.
    pose (f := fun n : lnode => l_is (py "group") n && match l_attr "name" n with Some _ => true | None => false end).
    assert (FF : forall l, filter (fun n => match l_attr "name" n with Some _ => true | None => false end) (filter (l_is (py "group")) l) = filter f l).
    { induction l as [|y l IH]; [reflexivity|]. cbn [filter]. unfold f at 1. destruct (l_is (py "group") y) eqn:Ey; cbn [filter andb]; [|exact IH].
      destruct (l_attr "name" y); rewrite IH; reflexivity. }
    rewrite !FF in H4.
    assert (X : In n (filter f kids)).
    { apply (sub_eq _ f l_all); [|exact H4|].
      - intros x Hx. destruct x as [|tg ln at_ ks]; [discriminate|]. cbn [l_all]. eexists. reflexivity.
      - apply filter_In in Hn. apply filter_In. split; [apply Hn|]. unfold f. rewrite (proj2 Hn). destruct (l_attr "name" n); [reflexivity|contradiction]. }
    apply filter_In in X. apply X.
  - intros T t x b (Ht1 & Ht2 & _) Hx Hb. specialize (H5 t Ht1). rewrite Ht2 in H5. cbn [negb orb] in H5. apply andb_prop in H5. destruct H5 as [H5 _].
    rewrite forallb_forall in H5. specialize (H5 x (extensions_ok t x Hx)). rewrite Hb in H5.
    destruct (topb kids "complexType" (local_name b)) as [|y l] eqn:E; [discriminate|]. exists y. apply topb_top. rewrite E. left. reflexivity.
  - intros T t r k (Ht1 & Ht2 & _) Hr Hk. specialize (H5 t Ht1). rewrite Ht2 in H5. cbn [negb orb] in H5. apply andb_prop in H5. destruct H5 as [_ H5].
    rewrite forallb_forall in H5. specialize (H5 r Hr). rewrite Hk in H5.
    destruct (topb kids "attributeGroup" (local_name k)) as [|y l] eqn:E; [discriminate|]. exists y. apply topb_top. rewrite E. left. reflexivity.
Qed.

Definition refersb (k : pystr) (n : lnode) : bool :=
  existsb (fun a => match l_attr a n with Some v => str_eqb (local_name v) k | None => false end) ["type"; "ref"; "base"].
Lemma refersb_ok : forall n k, refers n k -> refersb k n = true.
Proof.
  intros n k H. unfold refersb. apply existsb_exists.
  destruct H as [(v & H1 & H2)|[(v & H1 & H2)|(v & H1 & H2)]].
  - exists "type". split; [cbn; tauto|]. rewrite H1, H2. apply str_eqb_refl.
  - exists "ref". split; [cbn; tauto|]. rewrite H1, H2. apply str_eqb_refl.
  - exists "base". split; [cbn; tauto|]. rewrite H1, H2. apply str_eqb_refl.
Qed.
Lemma only_refers : forall kids D defn, filter (refersb D) (flat_map l_all kids) = [defn] ->
  forall n, In n (flat_map l_all kids) -> refers n D -> n = defn.
Proof. intros kids D defn H n Hn Hr. apply only_one in H. apply H; [exact Hn|]. apply refersb_ok. exact Hr. Qed.

(** what the definition of a schema is *)
Definition the_definition (kids : list lnode) : option (lnode * lnode * lnode * lnode * pystr) :=
  match filter (l_is (py "element")) kids with
  | [defn] =>
      match l_attr "type" defn with
      | Some v =>
          match topb kids "complexType" (local_name v) with
          | t :: _ =>
              match flat_map (l_named "group") (l_named "sequence" t) ++ l_named "group" t with
              | [gr] =>
                  match l_attr "ref" gr with
                  | Some k =>
                      match topb kids "group" (local_name k) with
                      | G :: _ => Some (defn, t, gr, G, local_name v)
                      | [] => None
                      end
                  | None => None
                  end
              | _ => None
              end
          | [] => None
          end
      | None => None
      end
  | _ => None
  end.
Definition definedb (kids : list lnode) (defn t gr : lnode) (D : pystr) : bool :=
  is_nil (l_named "complexType" defn) && is_nil (l_named "complexContent" t) && is_nil (l_named "sequence" gr) &&
  negb (str_eqb D (py "NX_CHAR")) && negb (str_eqb D (py "str")) &&
  Nat.eqb (List.length (filter (refersb D) (flat_map l_all kids))) 1.
Lemma is_nil_ok : forall A (l : list A), is_nil l = true -> l = [].
Proof. intros A [|x l] H; [reflexivity|discriminate]. Qed.
Lemma the_definition_ok : forall kids defn t gr G D, the_definition kids = Some (defn, t, gr, G, D) ->
  definedb kids defn t gr D = true -> defined_by kids defn t gr G D.
Proof.
  intros kids defn t gr G D H HB. unfold the_definition in H.
  destruct (filter (l_is (py "element")) kids) as [|d [|? ?]] eqn:E1; try discriminate.
  destruct (l_attr "type" d) as [v|] eqn:E2; [|discriminate].
  destruct (topb kids "complexType" (local_name v)) as [|t' r] eqn:E3; [discriminate|].
  destruct (flat_map (l_named "group") (l_named "sequence" t') ++ l_named "group" t') as [|g [|? ?]] eqn:E4; try discriminate.
  destruct (l_attr "ref" g) as [k|] eqn:E5; [|discriminate].
  destruct (topb kids "group" (local_name k)) as [|G' r'] eqn:E6; [discriminate|].
  injection H as <- <- <- <- <-.
  unfold definedb in HB. repeat rewrite andb_true_iff in HB. destruct HB as (((((B1 & B2) & B3) & B4) & B5) & B6).
  apply is_nil_ok in B1, B2, B3. constructor; auto.
  - exists v. auto.
  - apply topb_top. rewrite E3. left. reflexivity.
  - exists k. split; [exact E5|]. apply topb_top. rewrite E6. left. reflexivity.
  - intros n Hn Hr. apply Nat.eqb_eq in B6.
    destruct (filter (refersb (local_name v)) (flat_map l_all kids)) as [|y [|? ?]] eqn:EF; try discriminate B6.
    assert (Hd : In d (flat_map l_all kids)).
    { apply in_flat_map. exists d. assert (X : In d (filter (l_is (py "element")) kids)) by (rewrite E1; left; reflexivity).
      apply filter_In in X. split; [apply X|]. destruct d; [destruct X; discriminate|]. left. reflexivity. }
    assert (X1 := only_refers _ _ _ EF n Hn Hr). assert (X2 : d = y). { apply (only_refers _ _ _ EF d Hd). left. exists v. auto. }
    congruence.
  - split; intros X; [rewrite X in B4|rewrite X in B5]; [apply negb_true_iff in B4; rewrite str_eqb_refl in B4|apply negb_true_iff in B5; rewrite str_eqb_refl in B5]; discriminate.
Qed.

Definition the_component (kids : list lnode) (G : lnode) (name : string) : option (lnode * pystr) :=
  match filter (fun y => match l_attr "name" y with Some k => str_eqb k (py name) | None => false end) (l_path2 "sequence" "element" G) with
  | [x] =>
      match l_attr "type" x with
      | Some v => if is_nil (l_named "complexType" x) && negb (is_nil (topb kids "complexType" (local_name v))) then Some (x, local_name v) else None
      | None => None
      end
  | _ => None
  end.
Lemma the_component_ok : forall kids G name x T, the_component kids G name = Some (x, T) -> component kids G name x T.
Proof.
  intros kids G name x T H. unfold the_component in H.
  match type of H with context [filter ?f ?l] => destruct (filter f l) as [|x' [|? ?]] eqn:E1; try discriminate end.
  destruct (l_attr "type" x') as [v|] eqn:E2; [|discriminate].
  destruct (is_nil (l_named "complexType" x') && negb (is_nil (topb kids "complexType" (local_name v)))) eqn:E3; [|discriminate].
  injection H as <- <-. apply andb_prop in E3. destruct E3 as [E3 E4]. apply is_nil_ok in E3.
  apply only_one in E1. destruct E1 as (I1 & I2 & I3). constructor; auto.
  - destruct (l_attr "name" x') as [k|]; [|discriminate]. apply str_eqb_eq in I2. congruence.
  - intros y Hy Hn. apply I3; [exact Hy|]. rewrite Hn. apply str_eqb_refl.
  - exists v. auto.
  - destruct (topb kids "complexType" (local_name v)) as [|t r] eqn:E5; [discriminate|]. exists t. apply topb_top. rewrite E5. left. reflexivity.
Qed.
