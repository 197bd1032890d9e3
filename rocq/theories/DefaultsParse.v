(** * Parsing nxdl.xsd: objects and the elements they come from *)

From Coq Require Import List NArith ZArith Bool String Lia.
From Verif Require Import PyBase PyFacts H5 SchemaMgr NxdlSchema DefaultsHeap Spec_Defaults.
Import ListNotations.
Open Scope string_scope.
Open Scope list_scope.

(** ** Trees *)
Section Lind.
  Variable Q : lnode -> Prop.
  Hypothesis Hc : Q LComment.
  Hypothesis Hn : forall t l a k, (forall x, In x k -> Q x) -> Q (LN t l a k).
  Fixpoint lnode_ind2 (n : lnode) : Q n :=
    match n with
    | LComment => Hc
    | LN t l a k => Hn t l a k
        ((fix go (k : list lnode) : forall x, In x k -> Q x :=
            match k with
            | [] => fun x H => match H with end
            | y :: r => fun x H => match H with
                                   | or_introl E => eq_ind y Q (lnode_ind2 y) x E
                                   | or_intror H => go r x H
                                   end
            end) k)
    end.
End Lind.

Definition inside (n m : lnode) : Prop := In m (flat_map l_all (l_kids n)).

Lemma l_is_all : forall tag n, l_is tag n = true -> In n (l_all n).
Proof. intros tag [|t l a k] H; [discriminate|]. cbn. auto. Qed.
Lemma all_cases : forall n m, In m (l_all n) -> m = n \/ inside n m.
Proof. intros [|t l a k] m H; [destruct H|]. cbn in H. destruct H as [<-|H]; auto. Qed.
Lemma inside_all : forall n m, inside n m -> In m (l_all n).
Proof. intros [|t l a k] m H; [destruct H|]. cbn. right. exact H. Qed.
Lemma all_trans : forall n m x, In m (l_all n) -> In x (l_all m) -> In x (l_all n).
Proof.
  intros n. induction n as [|t l a k IH] using lnode_ind2; intros m x Hm Hx; [destruct Hm|].
  cbn in Hm. destruct Hm as [<-|Hm]; [exact Hx|].
  apply in_flat_map in Hm. destruct Hm as (y & Hy & Hm). cbn. right. apply in_flat_map.
  exists y. split; [exact Hy|]. exact (IH y Hy m x Hm Hx).
Qed.
Lemma inside_trans : forall n m x, inside n m -> In x (l_all m) -> inside n x.
Proof.
  intros n m x Hm Hx. unfold inside in *. apply in_flat_map in Hm. destruct Hm as (y & Hy & Hm).
  apply in_flat_map. exists y. split; [exact Hy|]. exact (all_trans y m x Hm Hx).
Qed.
Lemma named_inside : forall tag n m, In m (l_named tag n) -> inside n m /\ l_is (py tag) m = true.
Proof.
  intros tag n m H. unfold l_named in H. apply filter_In in H. destruct H as [H1 H2]. split; [|exact H2].
  unfold inside. apply in_flat_map. exists m. split; [exact H1|]. exact (l_is_all _ _ H2).
Qed.
Lemma path2_inside : forall a b n m, In m (l_path2 a b n) -> inside n m /\ l_is (py b) m = true.
Proof.
  intros a b n m H. unfold l_path2 in H. apply in_flat_map in H. destruct H as (x & Hx & Hm).
  apply named_inside in Hx. apply named_inside in Hm. split; [|apply Hm].
  eapply inside_trans; [apply Hx|]. apply inside_all. apply Hm.
Qed.

Lemma l_is_tag : forall s t n, l_is s n = true -> l_is t n = true -> s = t.
Proof.
  intros s t [|u l a k] H1 H2; [discriminate|]. cbn in *. apply str_eqb_eq in H1. apply str_eqb_eq in H2. congruence.
Qed.
Lemma kind_attribute : forall n, l_is (py "attribute") n = true -> kind_of n = KAttribute.
Proof. intros n H. unfold kind_of. rewrite H. reflexivity. Qed.
Lemma kind_element : forall n, l_is (py "element") n = true -> kind_of n = KElement.
Proof.
  intros n H. unfold kind_of. destruct (l_is (py "attribute") n) eqn:E; [|rewrite H; reflexivity].
  discriminate (l_is_tag _ _ _ E H).
Qed.
Lemma kind_group : forall n, l_is (py "group") n = true -> kind_of n = KGroup.
Proof.
  intros n H. unfold kind_of. destruct (l_is (py "attribute") n) eqn:E; [discriminate (l_is_tag _ _ _ E H)|].
  destruct (l_is (py "element") n) eqn:E2; [discriminate (l_is_tag _ _ _ E2 H)|]. reflexivity.
Qed.

(** ** A parsed object *)
Record fresh (n : lnode) (o : sobj) : Prop := {
  r_kind : so_kind o = kind_of n;
  r_name : so_name o = l_attr "name" n;
  r_key : so_key o = key_of n;
  r_attr : kind_of n = KAttribute ->
           so_children o = [] /\ so_required o = use_required n /\ so_default o = l_attr "default" n /\
           so_patterns o = inline_patterns n /\ so_maxLength o = None;
  r_occurs : kind_of n <> KAttribute ->
             so_minOccurs o = l_attr "minOccurs" n /\ so_maxOccurs o = l_attr "maxOccurs" n
}.

Lemma fresh_fit : forall schema types n o, fresh n o -> fit schema types n o.
Proof.
  intros schema types n o F. constructor.
  - exact (r_kind _ _ F).
  - exact (r_name _ _ F).
  - destruct (keyed schema n) as [k|] eqn:E; [|exact (r_key _ _ F)].
    left. rewrite (r_key _ _ F). apply (keyed_key schema n k E).
  - intros K. destruct (r_attr _ _ F K) as (A & B & C & _). auto.
  - intros K _. destruct (r_attr _ _ F K) as (_ & _ & _ & A & B). auto.
  - intros K k Hk T. destruct (keyed_key schema n k Hk) as [A B].
    unfold todo in T. rewrite (r_key _ _ F), A in T. congruence.
  - exact (r_occurs _ _ F).
Qed.

Record block (h : heap) (g : list lnode) (a : heap) (b : list lnode) : Prop := {
  b_len : List.length b = List.length a;
  b_obj : forall i o, List.length h <= i -> nth_error (h ++ a) i = Some o ->
    fresh (org (g ++ b) i) o /\ map (org (g ++ b)) (so_children o) = inline (org (g ++ b) i) /\
    (forall c, In c (so_children o) -> List.length h <= c < i)
}.

Lemma block_nil : forall h g, block h g [] [].
Proof.
  intros h g. constructor; [reflexivity|]. intros i o L H. rewrite app_nil_r in H. apply nth_error_lt in H. lia.
Qed.

Lemma block_app : forall h g a b a2 b2, List.length g = List.length h ->
  block h g a b -> block (h ++ a) (g ++ b) a2 b2 -> block h g (a ++ a2) (b ++ b2).
Proof.
  intros h g a b a2 b2 L B1 B2. assert (L1 := b_len _ _ _ _ B1). constructor.
  - rewrite !app_length, L1, (b_len _ _ _ _ B2). reflexivity.
  - intros i o Hi Ho. rewrite app_assoc in Ho. apply nth_error_app_cases in Ho. rewrite app_assoc.
    destruct Ho as [[Li Ho]|[Li Ho]].
    + assert (Li' := Li). rewrite app_length in Li'.
      destruct (b_obj _ _ _ _ B1 i o Hi Ho) as (F & M & C).
      rewrite org_app by (rewrite app_length; lia). split; [exact F|]. split; [|exact C].
      rewrite map_org_app; [exact M|]. intros c Hc. apply C in Hc. rewrite app_length. lia.
    + assert (X : nth_error ((h ++ a) ++ a2) i = Some o) by (rewrite nth_error_app2 by exact Li; exact Ho).
      destruct (b_obj _ _ _ _ B2 i o Li X) as (F & M & C). split; [exact F|]. split; [exact M|].
      intros c Hc. apply C in Hc. rewrite app_length in Hc. lia.
Qed.

Lemma block_snoc : forall h g a b n o, List.length g = List.length h -> block h g a b -> fresh n o ->
  map (org (g ++ b)) (so_children o) = inline n ->
  (forall c, In c (so_children o) -> List.length h <= c < List.length (h ++ a)) ->
  block h g (a ++ [o]) (b ++ [n]).
Proof.
  intros h g a b n o L B F M C. assert (L1 := b_len _ _ _ _ B).
  assert (LL : List.length (g ++ b) = List.length (h ++ a)) by (rewrite !app_length; lia).
  constructor.
  - rewrite !app_length, L1. reflexivity.
  - intros i x Hi Hx. rewrite app_assoc in Hx. apply nth_error_app_cases in Hx. rewrite app_assoc.
    destruct Hx as [[Li Hx]|[Li Hx]].
    + destruct (b_obj _ _ _ _ B i x Hi Hx) as (F1 & M1 & C1).
      rewrite org_app by lia. split; [exact F1|]. split; [|exact C1].
      rewrite map_org_app; [exact M1|]. intros c Hc. apply C1 in Hc. lia.
    + destruct (i - List.length (h ++ a)) as [|m] eqn:Em; cbn in Hx.
      2:{ destruct m; discriminate. }
      injection Hx as <-. assert (E : i = List.length (g ++ b)) by lia. subst i. rewrite org_last.
      split; [exact F|]. split.
      * rewrite map_org_app; [exact M|]. intros c Hc. apply C in Hc. lia.
      * intros c Hc. apply C in Hc. lia.
Qed.

Definition parses (f : lnode -> heap -> res (heap * nat)) (n : lnode) : Prop :=
  forall h g r, List.length g = List.length h -> f n h = Ok r ->
    exists a b, fst r = h ++ a /\ block h g a b /\ org (g ++ b) (snd r) = n /\
      snd r + 1 = List.length (h ++ a) /\ List.length h <= snd r /\
      (forall i, List.length h <= i < snd r -> inside n (org (g ++ b) i)).

Lemma alloc_all_parses : forall f l, (forall x, In x l -> parses f x /\ exists tag, l_is tag x = true) ->
  forall h g r, List.length g = List.length h -> alloc_all f l h = Ok r ->
  exists a b, fst r = h ++ a /\ block h g a b /\ map (org (g ++ b)) (snd r) = l /\
    (forall c, In c (snd r) -> List.length h <= c < List.length (h ++ a)) /\
    (forall i, List.length h <= i < List.length (h ++ a) -> exists x, In x l /\ In (org (g ++ b) i) (l_all x)).
Proof.
  intros f l. induction l as [|x l IH]; intros HP h g r L Hr.
  - cbn in Hr. injection Hr as <-. exists [], []. cbn [fst snd map]. rewrite !app_nil_r.
    split; [reflexivity|]. split; [apply block_nil|]. split; [reflexivity|]. split.
    + intros c [].
    + intros i Hi. lia.
  - cbn [alloc_all] in Hr. destruct (f x h) as [r1|e] eqn:E1; [|discriminate]. cbn [rbind] in Hr.
    destruct (alloc_all f l (fst r1)) as [r2|e] eqn:E2; [|discriminate]. cbn [rbind] in Hr. injection Hr as <-.
    destruct (HP x (or_introl eq_refl)) as [HPx (tag & Htag)].
    destruct (HPx h g r1 L E1) as (a & b & Ea & Ba & Oa & Sa & La & Ia).
    rewrite Ea in E2.
    assert (L1 : List.length (g ++ b) = List.length (h ++ a)) by (rewrite !app_length, L, (b_len _ _ _ _ Ba); reflexivity).
    destruct (IH (fun y Hy => HP y (or_intror Hy)) _ _ _ L1 E2) as (a2 & b2 & Ea2 & Ba2 & Oa2 & Sa2 & Ia2).
    exists (a ++ a2), (b ++ b2). cbn [fst snd]. rewrite !app_assoc.
    split; [exact Ea2|]. split; [apply block_app; auto|]. split; [|split].
    + cbn [map]. rewrite Oa2. f_equal. rewrite org_app by lia. exact Oa.
    + intros c Hc. cbn in Hc. rewrite app_length in *. destruct Hc as [<-|Hc].
      * rewrite app_length. lia.
      * apply Sa2 in Hc. rewrite !app_length in *. lia.
    + intros i Hi. destruct (Nat.lt_ge_cases i (List.length (h ++ a))) as [Li|Li].
      * rewrite org_app by lia. destruct (Nat.eq_dec i (snd r1)) as [->|N].
        -- exists x. split; [left; reflexivity|]. rewrite Oa. exact (l_is_all tag x Htag).
        -- exists x. split; [left; reflexivity|]. apply inside_all. apply Ia. lia.
      * destruct (Ia2 i ltac:(lia)) as (y & Hy & Hy2). exists y. split; [right; exact Hy | exact Hy2].
Qed.

Lemma parse_sattr_fresh : forall n o, l_is (py "attribute") n = true -> parse_sattr n = Ok o -> fresh n o.
Proof.
  intros n o H E. assert (K := kind_attribute n H). unfold parse_sattr in E.
  assert (X : exists pats, pats = inline_patterns n /\
     o = mkSO KAttribute (l_attr "name" n)
        (Some (local_name (match l_attr "type" n with Some t => t | None => py "nx:NX_CHAR" end)))
        (match l_attr "use" n with Some u => str_eqb u (py "required") | None => false end)
        (l_attr "default" n) pats None None None []).
  { unfold inline_patterns.
    destruct (flat_map (l_named "pattern") (l_path2 "simpleType" "restriction" n)) as [|p [|q ps]].
    - cbn [rbind] in E. injection E as <-. eexists. split; reflexivity.
    - unfold dgetitem in E. unfold l_attr. destruct (dget (py "value") (l_attrib p)) as [v|]; [|discriminate].
      cbn [rbind] in E. injection E as <-. eexists. split; reflexivity.
    - cbn [rbind] in E. injection E as <-. eexists. split; reflexivity. }
  destruct X as (pats & -> & ->). constructor; cbn.
  - symmetry. exact K.
  - reflexivity.
  - unfold key_of. rewrite K. reflexivity.
  - intros _. repeat split; reflexivity.
  - intros N. contradiction.
Qed.

Lemma new_sattr_parses : forall n, l_is (py "attribute") n = true -> parses new_sattr n.
Proof.
  intros n Hn h g r L Hr. unfold new_sattr in Hr.
  destruct (parse_sattr n) as [o|e] eqn:E; [|discriminate]. cbn [rbind] in Hr. injection Hr as <-.
  assert (F := parse_sattr_fresh n o Hn E). assert (K := kind_attribute n Hn).
  destruct (r_attr _ _ F K) as (C & _).
  exists [o], [n]. cbn [alloc fst snd].
  split; [reflexivity|]. split.
  - apply (block_snoc h g [] [] n o L (block_nil h g) F).
    + rewrite C. unfold inline. rewrite K. reflexivity.
    + rewrite C. intros c [].
  - split; [rewrite <- L; apply org_last|]. rewrite app_length. cbn. split; [lia|]. split; [lia|].
    intros i Hi. lia.
Qed.

Lemma new_selem_parses : forall fuel n, l_is (py "element") n = true -> parses (new_selem_at fuel) n.
Proof.
  induction fuel as [|fuel IH]; intros n Hn h g r L Hr; [discriminate|]. assert (K := kind_element n Hn).
  cbn [new_selem_at] in Hr.
  assert (X : exists kids a b, fst kids = h ++ a /\ block h g a b /\ map (org (g ++ b)) (snd kids) = inline n /\
            (forall c, In c (snd kids) -> List.length h <= c < List.length (h ++ a)) /\
            (forall i, List.length h <= i < List.length (h ++ a) -> inside n (org (g ++ b) i)) /\
            Ok (alloc (mkSO KElement (l_attr "name" n)
                   (Some (local_name (match l_attr "type" n with Some t => t | None => py "str" end)))
                   false None [] None (l_attr "minOccurs" n) (l_attr "maxOccurs" n) (snd kids))
                (fst kids)) = Ok r).
  { unfold inline. rewrite K. destruct (l_named "complexType" n) as [|t [|t2 ts]] eqn:Et.
    - cbn [rbind fst snd] in Hr. exists (h, []), [], []. cbn [fst snd map]. rewrite !app_nil_r.
      split; [reflexivity|]. split; [apply block_nil|]. split; [reflexivity|]. split; [intros c []|].
      split; [intros i Hi; lia|exact Hr].
    - destruct (alloc_all (new_selem_at fuel) (l_path2 "sequence" "element" t) h) as [r1|e] eqn:E1; [|discriminate].
      cbn [rbind] in Hr.
      destruct (alloc_all new_sattr (l_named "attribute" t) (fst r1)) as [r2|e] eqn:E2; [|discriminate].
      cbn [rbind fst snd] in Hr.
      assert (It : inside n t) by (apply (named_inside "complexType"); rewrite Et; left; reflexivity).
      destruct (alloc_all_parses (new_selem_at fuel) _ (fun x Hx => conj (IH x (proj2 (path2_inside _ _ _ _ Hx)))
                  (ex_intro _ _ (proj2 (path2_inside _ _ _ _ Hx)))) h g r1 L E1)
        as (a & b & Ea & Ba & Oa & Sa & Ia).
      rewrite Ea in E2.
      assert (L1 : List.length (g ++ b) = List.length (h ++ a)) by (rewrite !app_length, L, (b_len _ _ _ _ Ba); reflexivity).
      destruct (alloc_all_parses new_sattr _ (fun x Hx => conj (new_sattr_parses x (proj2 (named_inside _ _ _ Hx)))
                  (ex_intro _ _ (proj2 (named_inside _ _ _ Hx)))) _ _ r2 L1 E2)
        as (a2 & b2 & Ea2 & Ba2 & Oa2 & Sa2 & Ia2).
      exists (fst r2, snd r1 ++ snd r2), (a ++ a2), (b ++ b2). cbn [fst snd]. rewrite !app_assoc.
      split; [exact Ea2|]. split; [apply block_app; auto|]. split; [|split; [|split]].
      + rewrite map_app, Oa2. f_equal. rewrite map_org_app; [exact Oa|]. intros c Hc. apply Sa in Hc. lia.
      + intros c Hc. apply in_app_or in Hc. rewrite (app_length (h ++ a)). destruct Hc as [Hc|Hc].
        * apply Sa in Hc. lia.
        * apply Sa2 in Hc. rewrite !app_length in *. lia.
      + intros i Hi. destruct (Nat.lt_ge_cases i (List.length (h ++ a))) as [Li|Li].
        * rewrite org_app by lia. destruct (Ia i ltac:(lia)) as (x & Hx & Hx2).
          apply path2_inside in Hx. eapply inside_trans; [exact It|].
          eapply all_trans; [apply inside_all; apply Hx|exact Hx2].
        * destruct (Ia2 i ltac:(lia)) as (x & Hx & Hx2).
          apply named_inside in Hx. eapply inside_trans; [exact It|].
          eapply all_trans; [apply inside_all; apply Hx|exact Hx2].
      + exact Hr.
    - cbn [rbind fst snd] in Hr. exists (h, []), [], []. cbn [fst snd map]. rewrite !app_nil_r.
      split; [reflexivity|]. split; [apply block_nil|]. split; [reflexivity|]. split; [intros c []|].
      split; [intros i Hi; lia|exact Hr]. }
  destruct X as (kids & a & b & Ea & Ba & Oa & Sa & Ia & Er). injection Er as <-.
  match goal with |- context [alloc ?x _] => set (o := x) end.
  exists (a ++ [o]), (b ++ [n]). cbn [alloc fst snd]. rewrite Ea, !app_assoc.
  assert (L1 : List.length (g ++ b) = List.length (h ++ a)) by (rewrite !app_length, L, (b_len _ _ _ _ Ba); reflexivity).
  split; [reflexivity|]. split.
  - apply block_snoc; auto. constructor; cbn.
    + symmetry. exact K.
    + reflexivity.
    + unfold key_of. rewrite K. reflexivity.
    + congruence.
    + intros _. split; reflexivity.
  - split; [rewrite <- L1; apply org_last|]. rewrite (app_length (h ++ a)). cbn [List.length]. split; [lia|].
    split; [rewrite app_length; lia|]. intros i Hi. rewrite org_app by lia. apply Ia. exact Hi.
Qed.

Lemma new_sgroup_parses : forall n, l_is (py "group") n = true -> parses new_sgroup n.
Proof.
  intros n Hn h g r L Hr. assert (K := kind_group n Hn). unfold new_sgroup in Hr.
  destruct (alloc_all new_selem (l_path2 "sequence" "element" n) h) as [r1|e] eqn:E1; [|discriminate].
  cbn [rbind] in Hr. injection Hr as <-.
  destruct (alloc_all_parses new_selem _ (fun x Hx => conj (new_selem_parses (l_height x) x (proj2 (path2_inside _ _ _ _ Hx)))
              (ex_intro _ _ (proj2 (path2_inside _ _ _ _ Hx)))) h g r1 L E1)
    as (a & b & Ea & Ba & Oa & Sa & Ia).
  match goal with |- context [alloc ?x _] => set (o := x) end.
  exists (a ++ [o]), (b ++ [n]). cbn [alloc fst snd]. rewrite Ea, !app_assoc.
  assert (L1 : List.length (g ++ b) = List.length (h ++ a)) by (rewrite !app_length, L, (b_len _ _ _ _ Ba); reflexivity).
  split; [reflexivity|]. split.
  - apply block_snoc; auto.
    + constructor; cbn.
      * symmetry. exact K.
      * reflexivity.
      * unfold key_of. rewrite K. reflexivity.
      * congruence.
      * intros _. split; reflexivity.
    + cbn. rewrite Oa. unfold inline. rewrite K. reflexivity.
  - split; [rewrite <- L1; apply org_last|]. rewrite (app_length (h ++ a)). cbn [List.length]. split; [lia|].
    split; [rewrite app_length; lia|]. intros i Hi. rewrite org_app by lia.
    destruct (Ia i Hi) as (x & Hx & Hx2). apply path2_inside in Hx. eapply inside_trans; [apply Hx|exact Hx2].
Qed.
