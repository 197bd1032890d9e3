(** * The catalogue of nxdl.xsd: complex types, and the catalogue as a whole *)

From Coq Require Import List NArith ZArith Bool String Lia.
From Verif Require Import PyBase PyFacts InstallFacts CliFacts TreeFacts H5 SchemaMgr NxdlSchema Spec_Defaults
  DefaultsHeap DefaultsParse DefaultsCat.
Import ListNotations.
Open Scope string_scope.
Open Scope list_scope.

Lemma flat_map_unique : forall {A B} (f : A -> list B) l x y k, NoDup (flat_map f l) ->
  In x l -> In y l -> In k (f x) -> In k (f y) -> x = y.
Proof.
  intros A B f l. induction l as [|z l IH]; intros x y k ND Hx Hy Kx Ky; [destruct Hx|].
  cbn in ND. assert (X : forall u, In u l -> In k (f z) -> In k (f u) -> False).
  { intros u Hu K1 K2. clear IH Hx Hy Kx Ky x y. induction (f z) as [|b bs IHb]; [destruct K1|].
    cbn in ND. inversion ND as [|p q N1 N2]; subst p q. destruct K1 as [->|K1]; [|apply IHb; auto].
    apply N1. apply in_or_app. right. apply in_flat_map. exists u. auto. }
  assert (ND2 : NoDup (flat_map f l)).
  { clear - ND. induction (f z) as [|b bs IHb]; [exact ND|]. cbn in ND. inversion ND; auto. }
  destruct Hx as [<-|Hx]; destruct Hy as [<-|Hy]; auto.
  - exfalso. exact (X y Hy Kx Ky).
  - exfalso. exact (X x Hx Ky Kx).
  - exact (IH x y k ND2 Hx Hy Kx Ky).
Qed.

Definition extended (kids : list lnode) (T : pystr) : Prop :=
  exists S s x b, top kids "complexType" S s /\ extension s x /\ l_attr "base" x = Some b /\ local_name b = T.
Definition seq_nodes (s : lnode) : list lnode := l_named "element" s ++ l_named "group" s.

Section Types.
  Variable kids : list lnode.
  Hypothesis TY : tidy kids.
  Definition declared_tag (tag : string) : Prop := In tag ["simpleType"; "attributeGroup"; "group"; "complexType"].
  Lemma entry_name_top : forall tag k n, declared_tag tag -> top kids tag k n -> In k (entry_name n).
  Proof.
    intros tag k n Ht (_ & H1 & H2). unfold entry_name.
    assert (E : l_is (py "simpleType") n || l_is (py "attributeGroup") n || l_is (py "group") n || l_is (py "complexType") n = true).
    { destruct Ht as [<-|[<-|[<-|[<-|[]]]]]; rewrite H1; rewrite ?orb_true_r; reflexivity. }
    rewrite E, H2. left. reflexivity.
  Qed.
  Lemma top_unique : forall tag1 tag2 k n1 n2, declared_tag tag1 -> declared_tag tag2 ->
    top kids tag1 k n1 -> top kids tag2 k n2 -> n1 = n2 /\ py tag1 = py tag2.
  Proof.
    intros tag1 tag2 k n1 n2 D1 D2 T1 T2.
    assert (E : n1 = n2).
    { apply (flat_map_unique entry_name kids n1 n2 k (t_names _ TY)).
      - apply T1.
      - apply T2.
      - exact (entry_name_top tag1 k n1 D1 T1).
      - exact (entry_name_top tag2 k n2 D2 T2). }
    split; [exact E|]. subst n2. eapply l_is_tag; [apply T1|apply T2].
  Qed.
  Lemma top_doc : forall tag k n, top kids tag k n -> In n (doc kids).
  Proof. intros tag k n (H1 & H2 & _). exact (kid_doc kids _ n H1 H2). Qed.
  Lemma anywhere_in : forall tag n, In n (doc kids) -> l_is (py tag) n = true -> In n (l_anywhere tag kids).
  Proof. intros tag n H1 H2. apply filter_In. auto. Qed.

  Variables (g : list lnode) (w : list nat).
  Record ct_ok (T : pystr) (t : lnode) (ids : list nat) : Prop := {
    ct_lt : forall i, In i ids -> i < List.length g;
    ct_attr : forall a, l_is (py "attribute") a = true ->
      (declares kids T a <-> exists i, In i ids /\ org g i = a);
    ct_other : forall i, In i ids -> kind_of (org g i) <> KAttribute ->
      nth i w 0 = i /\ exists T' t', top kids "complexType" T' t' /\ inside t' (org g i) /\ (T' = T \/ extended kids T');
    ct_shape : exists B R, map (org g) ids =
        flat_map seq_nodes (l_named "sequence" t) ++ B ++ l_named "group" t ++ l_named "attribute" t ++ R /\
      (l_named "complexContent" t = [] -> B = []) /\ (forall r, In r R -> l_is (py "attribute") r = true)
  }.
  Definition entry_ok (k : pystr) (x : schemaref) : Prop :=
    match x with
    | RSimple s => s = k /\ exists n, top kids "simpleType" k n
    | RGroup i => exists n, top kids "group" k n /\ i < List.length g /\ org g i = n /\ nth i w 0 = i
    | RList ids =>
        (exists n, top kids "attributeGroup" k n /\ map (org g) ids = l_named "attribute" n /\
                   forall i, In i ids -> i < List.length g) \/
        (exists t, top kids "complexType" k t /\ ct_ok k t ids)
    end.

  Section One.
    Variable c : catalog.
    Hypothesis Ra : forall n, In n (l_anywhere "attribute" kids) -> exists i, registered g w (ca_attribute c) n i.
    Hypothesis Re : forall n, In n (l_anywhere "element" kids) -> exists i, registered g w (ca_element c) n i.
    Hypothesis Rg : forall n, In n (l_anywhere "group" kids) -> exists i, registered g w (ca_group c) n i.
    Hypothesis Hen : forall k x, dget k (sdict c) = Some x -> entry_ok k x.

    Definition good (ids : list nat) (nodes : list lnode) : Prop :=
      map (org g) ids = nodes /\ forall i, In i ids -> i < List.length g /\ nth i w 0 = i.
    Lemma good_app : forall a b x y, good a x -> good b y -> good (a ++ b) (x ++ y).
    Proof.
      intros a b x y [A1 A2] [B1 B2]. split; [rewrite map_app; congruence|].
      intros i Hi. apply in_app_or in Hi. destruct Hi; auto.
    Qed.
    Lemma good_concat : forall (F : lnode -> res (list nat)) (nodes : lnode -> list lnode) l r,
      (forall x y, In x l -> F x = Ok y -> good y (nodes x)) -> traverse F l = Ok r -> good (List.concat r) (flat_map nodes l).
    Proof.
      intros F nodes l. induction l as [|x l IH]; intros r H Hr; cbn [traverse] in Hr.
      - injection Hr as <-. split; [reflexivity|intros i []].
      - destruct (F x) as [y|e] eqn:E; [|discriminate]. cbn in Hr.
        destruct (traverse F l) as [ys|e] eqn:E2; [|discriminate]. cbn in Hr. injection Hr as <-.
        cbn [List.concat flat_map]. apply good_app; [apply H; [left; reflexivity|exact E]|].
        apply IH; [|reflexivity]. intros u v Hu. apply H. right. exact Hu.
    Qed.
    Lemma good_lines : forall sec l r, (forall n, In n l -> exists i, registered g w sec n i) ->
      traverse (by_line sec) l = Ok r -> good r l.
    Proof.
      intros sec l. induction l as [|x l IH]; intros r H Hr; cbn [traverse] in Hr.
      - injection Hr as <-. split; [reflexivity|intros i []].
      - destruct (by_line sec x) as [y|e] eqn:E; [|discriminate]. cbn in Hr.
        destruct (traverse (by_line sec) l) as [ys|e] eqn:E2; [|discriminate]. cbn in Hr. injection Hr as <-.
        destruct (H x (or_introl eq_refl)) as (i & A & B & C & D). unfold by_line in E. rewrite A in E. injection E as <-.
        destruct (IH ys (fun n Hn => H n (or_intror Hn)) eq_refl) as [I1 I2]. split.
        + cbn. rewrite C, I1. reflexivity.
        + intros j [<-|Hj]; auto.
    Qed.
    Lemma good_named : forall tag sec n l, (forall n, In n (l_anywhere tag kids) -> exists i, registered g w sec n i) ->
      In n (doc kids) -> traverse (by_line sec) (l_named tag n) = Ok l -> good l (l_named tag n).
    Proof.
      intros tag sec n l HR Hn Hl. apply (good_lines sec); [|exact Hl]. intros m Hm. apply named_inside in Hm.
      apply HR. apply anywhere_in; [|apply Hm]. eapply doc_inside; [exact Hn|apply Hm].
    Qed.
    Lemma good_sequence : forall s l, In s (doc kids) -> ct_sequence c s = Ok l -> good l (seq_nodes s).
    Proof.
      intros s l Hs Hl. unfold ct_sequence in Hl.
      destruct (traverse (by_line (ca_element c)) (l_named "element" s)) as [a|e] eqn:E1; [|discriminate]. cbn [rbind] in Hl.
      destruct (traverse (by_line (ca_group c)) (l_named "group" s)) as [b|e] eqn:E2; [|discriminate]. cbn [rbind] in Hl.
      injection Hl as <-. apply good_app; eapply good_named; eauto.
    Qed.
    Lemma good_sequences : forall n l, In n (doc kids) -> traverse (ct_sequence c) (l_named "sequence" n) = Ok l ->
      good (List.concat l) (flat_map seq_nodes (l_named "sequence" n)).
    Proof.
      intros n l Hn Hl. apply (good_concat (ct_sequence c)); [|exact Hl]. intros x y Hx Hy.
      apply good_sequence; [|exact Hy]. apply named_inside in Hx. eapply doc_inside; [exact Hn|apply Hx].
    Qed.
    Lemma seq_nodes_in : forall n x, In x (flat_map seq_nodes (l_named "sequence" n)) ->
      inside n x /\ l_is (py "attribute") x = false.
    Proof.
      intros n x H. apply in_flat_map in H. destruct H as (s & Hs & Hx). apply named_inside in Hs.
      unfold seq_nodes in Hx. apply in_app_or in Hx.
      assert (X : inside s x /\ (l_is (py "element") x = true \/ l_is (py "group") x = true)).
      { destruct Hx as [Hx|Hx]; apply named_inside in Hx; split; tauto. }
      destruct X as [X1 X2]. split; [eapply inside_trans; [apply Hs|apply inside_all; exact X1]|].
      destruct (l_is (py "attribute") x) eqn:E; [|reflexivity].
      destruct X2 as [X2|X2]; discriminate (l_is_tag _ _ _ E X2).
    Qed.

    Lemma schema_children_entry : forall k l, schema_children c k = Ok l ->
      exists x, dget k (sdict c) = Some x /\ l = ref_children c x.
    Proof.
      intros k l H. unfold schema_children in H. unfold sdict. destruct (ca_schema c) as [d|]; [|discriminate].
      unfold dgetitem in H. destruct (dget k d) as [x|] eqn:E; [|discriminate]. cbn in H. injection H as <-. exists x. auto.
    Qed.
    Lemma complexType_entry : forall k l t, top kids "complexType" k t -> schema_children c k = Ok l -> ct_ok k t l.
    Proof.
      intros k l t Ht Hl. destruct (schema_children_entry k l Hl) as (x & Hx & ->).
      assert (E := Hen k x Hx). destruct x as [s|ids|i]; cbn in E |- *.
      - destruct E as (_ & n & Hn). destruct (top_unique "complexType" "simpleType" k t n) as [_ X]; auto; try (cbn; tauto). discriminate X.
      - destruct E as [(n & Hn & _)|(t' & Ht' & E)].
        + destruct (top_unique "complexType" "attributeGroup" k t n) as [_ X]; auto; try (cbn; tauto). discriminate X.
        + destruct (top_unique "complexType" "complexType" k t t') as [X _]; auto; try (cbn; tauto). subst t'. exact E.
      - destruct E as (n & Hn & _). destruct (top_unique "complexType" "group" k t n) as [_ X]; auto; try (cbn; tauto). discriminate X.
    Qed.
    Lemma attributeGroup_entry : forall k l n, top kids "attributeGroup" k n -> schema_children c k = Ok l ->
      map (org g) l = l_named "attribute" n /\ forall i, In i l -> i < List.length g.
    Proof.
      intros k l t Ht Hl. destruct (schema_children_entry k l Hl) as (x & Hx & ->).
      assert (E := Hen k x Hx). destruct x as [s|ids|i]; cbn in E |- *.
      - destruct E as (_ & n & Hn). destruct (top_unique "attributeGroup" "simpleType" k t n) as [_ X]; auto; try (cbn; tauto). discriminate X.
      - destruct E as [(t' & Ht' & E)|(n & Hn & _)].
        + destruct (top_unique "attributeGroup" "attributeGroup" k t t') as [X _]; auto; try (cbn; tauto). subst t'. exact E.
        + destruct (top_unique "attributeGroup" "complexType" k t n) as [_ X]; auto; try (cbn; tauto). discriminate X.
      - destruct E as (n & Hn & _). destruct (top_unique "attributeGroup" "group" k t n) as [_ X]; auto; try (cbn; tauto). discriminate X.
    Qed.

    (** what an extension adds to type [T] *)
    Definition ext_from (x : lnode) (i : nat) : Prop :=
      (exists b bt l, l_attr "base" x = Some b /\ top kids "complexType" (local_name b) bt /\ ct_ok (local_name b) bt l /\ In i l) \/
      In (org g i) (flat_map seq_nodes (l_named "sequence" x)) \/ In (org g i) (l_named "attribute" x).
    Lemma extension_ok : forall T t x l, top kids "complexType" T t -> extension t x -> ct_extension c x = Ok l ->
      (forall i, In i l -> i < List.length g /\ ext_from x i /\
         (In (org g i) (flat_map seq_nodes (l_named "sequence" x)) -> nth i w 0 = i)) /\
      (forall b bt l', l_attr "base" x = Some b -> top kids "complexType" (local_name b) bt -> ct_ok (local_name b) bt l' ->
         (forall a, l_is (py "attribute") a = true -> declares kids (local_name b) a -> exists i, In i l /\ org g i = a)) /\
      (forall a, In a (l_named "attribute" x) -> exists i, In i l /\ org g i = a).
    Proof.
      intros T t x l Ht Hx Hl. unfold ct_extension in Hl.
      assert (Dx : In x (doc kids)).
      { destruct Hx as (cc & rest & Hcc & Hk & Hx). apply named_inside in Hcc.
        eapply doc_inside; [exact (top_doc _ _ _ Ht)|]. eapply inside_trans; [apply Hcc|]. apply inside_all.
        unfold inside. rewrite Hk. cbn. apply in_or_app. left. exact (l_is_all _ _ Hx). }
      assert (BASE : exists a, (match l_attr "base" x with Some b => schema_children c (local_name b) | None => Ok [] end) = Ok a).
      { destruct (match l_attr "base" x with Some b => schema_children c (local_name b) | None => Ok [] end); [eauto|discriminate]. }
      destruct BASE as (a & Ea). rewrite Ea in Hl. cbn [rbind] in Hl.
      destruct (traverse (ct_sequence c) (l_named "sequence" x)) as [s|e] eqn:E1; [|discriminate]. cbn [rbind] in Hl.
      destruct (traverse (by_line (ca_attribute c)) (l_named "attribute" x)) as [u|e] eqn:E2; [|discriminate]. cbn [rbind] in Hl.
      injection Hl as <-.
      assert (Gs := good_sequences x s Dx E1). assert (Gu := good_named "attribute" _ x u Ra Dx E2).
      destruct Gs as [Gs1 Gs2]. destruct Gu as [Gu1 Gu2].
      assert (Ba : forall i, In i a -> exists b bt, l_attr "base" x = Some b /\ top kids "complexType" (local_name b) bt /\ ct_ok (local_name b) bt a).
      { intros i Hi. destruct (l_attr "base" x) as [b|] eqn:Eb; [|injection Ea as <-; destruct Hi].
        destruct (t_bases _ TY T t x b Ht Hx Eb) as (bt & Hbt). exists b, bt. split; [reflexivity|]. split; [exact Hbt|].
        exact (complexType_entry _ _ _ Hbt Ea). }
      split; [|split].
      - intros i Hi. apply in_app_or in Hi. destruct Hi as [Hi|Hi]; [|apply in_app_or in Hi; destruct Hi as [Hi|Hi]].
        + destruct (Ba i Hi) as (b & bt & Eb & Hbt & Ok1). split; [exact (ct_lt _ _ _ Ok1 i Hi)|]. split.
          * left. exists b, bt, a. auto.
          * intros Hs. apply seq_nodes_in in Hs. destruct Hs as [_ Hs].
            assert (K : kind_of (org g i) <> KAttribute).
            { unfold kind_of. rewrite Hs. destruct (l_is (py "element") (org g i)); discriminate. }
            apply (ct_other _ _ _ Ok1 i Hi K).
        + assert (X : In (org g i) (flat_map seq_nodes (l_named "sequence" x))) by (rewrite <- Gs1; apply in_map; exact Hi).
          split; [apply Gs2; exact Hi|]. split; [right; left; exact X|]. intros _. apply Gs2. exact Hi.
        + assert (X : In (org g i) (l_named "attribute" x)) by (rewrite <- Gu1; apply in_map; exact Hi).
          split; [apply Gu2; exact Hi|]. split; [right; right; exact X|]. intros _. apply Gu2. exact Hi.
      - intros b bt l' Eb Hbt _ at' Hat Hd. rewrite Eb in Ea.
        assert (Ok1 := complexType_entry _ _ _ Hbt Ea).
        apply (ct_attr _ _ _ Ok1 at' Hat) in Hd. destruct Hd as (i & Hi & Ei). exists i. split; [|exact Ei].
        apply in_or_app. left. exact Hi.
      - intros at' Hat. rewrite <- Gu1 in Hat. apply in_map_iff in Hat. destruct Hat as (i & Ei & Hi).
        exists i. split; [|exact Ei]. apply in_or_app. right. apply in_or_app. right. exact Hi.
    Qed.

    Lemma in_concat_traverse : forall (F : lnode -> res (list nat)) l r i, traverse F l = Ok r -> In i (List.concat r) ->
      exists x y, In x l /\ F x = Ok y /\ In i y.
    Proof.
      intros F l. induction l as [|x l IH]; intros r i Hr Hi; cbn [traverse] in Hr.
      - injection Hr as <-. destruct Hi.
      - destruct (F x) as [y|e] eqn:E; [|discriminate]. cbn in Hr.
        destruct (traverse F l) as [ys|e] eqn:E2; [|discriminate]. cbn in Hr. injection Hr as <-.
        cbn in Hi. apply in_app_or in Hi. destruct Hi as [Hi|Hi].
        + exists x, y. split; [left; reflexivity|]. auto.
        + destruct (IH ys i eq_refl Hi) as (u & v & Hu & X). exists u, v. split; [right; exact Hu|exact X].
    Qed.
    Lemma traverse_concat_in : forall (F : lnode -> res (list nat)) l r x, traverse F l = Ok r -> In x l ->
      exists y, F x = Ok y /\ forall i, In i y -> In i (List.concat r).
    Proof.
      intros F l. induction l as [|z l IH]; intros r x Hr Hx; [destruct Hx|]. cbn [traverse] in Hr.
      destruct (F z) as [y|e] eqn:E; [|discriminate]. cbn in Hr.
      destruct (traverse F l) as [ys|e] eqn:E2; [|discriminate]. cbn in Hr. injection Hr as <-.
      destruct Hx as [->|Hx].
      - exists y. split; [exact E|]. intros i Hi. cbn. apply in_or_app. left. exact Hi.
      - destruct (IH ys x eq_refl Hx) as (u & Hu & X). exists u. split; [exact Hu|]. intros i Hi. cbn. apply in_or_app. right. auto.
    Qed.
    Lemma content_extension : forall t cc l, In cc (l_named "complexContent" t) -> ct_content c cc = Ok l ->
      exists x, extension t x /\ ct_extension c x = Ok l.
    Proof.
      intros t cc l Hcc Hl. unfold ct_content in Hl. destruct (l_kids cc) as [|x rest] eqn:Ek; [discriminate|].
      destruct x as [|tg li at' ks]; [discriminate|]. destruct (l_is (py "extension") (LN tg li at' ks)) eqn:Ex; [|discriminate].
      exists (LN tg li at' ks). split; [|exact Hl]. exists cc, rest. auto.
    Qed.
    Lemma extension_content : forall t x, extension t x -> exists cc, In cc (l_named "complexContent" t) /\
      (forall l, ct_content c cc = Ok l -> ct_extension c x = Ok l).
    Proof.
      intros t x (cc & rest & Hcc & Hk & Hx). exists cc. split; [exact Hcc|]. intros l Hl.
      unfold ct_content in Hl. rewrite Hk in Hl. destruct x as [|tg li at' ks]; [discriminate|]. rewrite Hx in Hl. exact Hl.
    Qed.

    Lemma ct_children_ok : forall T t ids, top kids "complexType" T t -> ct_children c t = Ok ids -> ct_ok T t ids.
    Proof.
      intros T t ids Ht Hr. assert (Dt := top_doc _ _ _ Ht). unfold ct_children in Hr.
      destruct (traverse (ct_sequence c) (l_named "sequence" t)) as [a|e] eqn:E1; [|discriminate]. cbn [rbind] in Hr.
      destruct (traverse (ct_content c) (l_named "complexContent" t)) as [b|e] eqn:E2; [|discriminate]. cbn [rbind] in Hr.
      destruct (traverse (by_line (ca_group c)) (l_named "group" t)) as [gr|e] eqn:E3; [|discriminate]. cbn [rbind] in Hr.
      destruct (traverse (by_line (ca_attribute c)) (l_named "attribute" t)) as [u|e] eqn:E4; [|discriminate]. cbn [rbind] in Hr.
      destruct (traverse (ct_attributeGroup c) (l_named "attributeGroup" t)) as [ag|e] eqn:E5; [|discriminate]. cbn [rbind] in Hr.
      injection Hr as <-.
      destruct (good_sequences t a Dt E1) as [Ga1 Ga2]. destruct (good_named "group" _ t gr Rg Dt E3) as [Gg1 Gg2].
      destruct (good_named "attribute" _ t u Ra Dt E4) as [Gu1 Gu2].
      assert (XB : forall i, In i (List.concat b) -> exists x l, extension t x /\ ct_extension c x = Ok l /\ In i l).
      { intros i Hi. destruct (in_concat_traverse _ _ _ _ E2 Hi) as (cc & l & Hcc & Hl & Hil).
        destruct (content_extension t cc l Hcc Hl) as (x & Hx & Hxl). exists x, l. auto. }
      assert (XG : forall i, In i (List.concat ag) -> exists r k n l, In r (l_named "attributeGroup" t) /\
                l_attr "ref" r = Some k /\ top kids "attributeGroup" (local_name k) n /\
                map (org g) l = l_named "attribute" n /\ (forall i, In i l -> i < List.length g) /\ In i l).
      { intros i Hi. destruct (in_concat_traverse _ _ _ _ E5 Hi) as (r & l & Hrr & Hl & Hil).
        unfold ct_attributeGroup in Hl. unfold dgetitem in Hl.
        destruct (dget (py "ref") (l_attrib r)) as [k|] eqn:Ek; [|discriminate]. cbn [rbind] in Hl.
        destruct (t_attrgroups _ TY T t r k Ht Hrr Ek) as (n & Hn).
        destruct (attributeGroup_entry _ _ _ Hn Hl) as [A1 A2]. exists r, k, n, l. auto 10. }
      assert (NOTATT : forall n, l_is (py "group") n = true -> l_is (py "attribute") n = false).
      { intros n Hn. destruct (l_is (py "attribute") n) eqn:E; [|reflexivity]. discriminate (l_is_tag _ _ _ E Hn). }
      (* where an address comes from *)
      assert (FROM : forall i, In i (List.concat a ++ List.concat b ++ gr ++ u ++ List.concat ag) ->
        In i (List.concat a) \/ In i (List.concat b) \/ In i gr \/ In i u \/ In i (List.concat ag)).
      { intros i Hi. repeat (apply in_app_or in Hi; destruct Hi as [Hi|Hi]; [tauto|]). tauto. }
      assert (INA : forall i, In i (List.concat a) -> In (org g i) (flat_map seq_nodes (l_named "sequence" t))).
      { intros i Hi. rewrite <- Ga1. apply in_map. exact Hi. }
      assert (ING : forall i, In i gr -> In (org g i) (l_named "group" t)) by (intros i Hi; rewrite <- Gg1; apply in_map; exact Hi).
      assert (INU : forall i, In i u -> In (org g i) (l_named "attribute" t)) by (intros i Hi; rewrite <- Gu1; apply in_map; exact Hi).
      constructor.
      - intros i Hi. destruct (FROM i Hi) as [X|[X|[X|[X|X]]]].
        + apply Ga2. exact X.
        + destruct (XB i X) as (x & l & Hx & Hl & Hil). apply (extension_ok T t x l Ht Hx Hl). exact Hil.
        + apply Gg2. exact X.
        + apply Gu2. exact X.
        + destruct (XG i X) as (r & k & n & l & _ & _ & _ & _ & A & B). auto.
      - intros at' Hat. split.
        + intros Hd. inversion Hd as [T0 t0 a0 Ht0 Ha0|T0 t0 x a0 Ht0 Hx Ha0|T0 t0 x b0 a0 Ht0 Hx Hb Ha0|T0 t0 r k n a0 Ht0 Hrr Hk Hn Ha0]; subst;
            destruct (top_unique "complexType" "complexType" T t t0) as [Et _]; auto; try (cbn; tauto); subst t0.
          * rewrite <- Gu1 in Ha0. apply in_map_iff in Ha0. destruct Ha0 as (i & Ei & Hi). exists i. split; [|exact Ei].
            do 3 (apply in_or_app; right). apply in_or_app. left. exact Hi.
          * destruct (extension_content t x Hx) as (cc & Hcc & Hcl).
            destruct (traverse_concat_in _ _ _ cc E2 Hcc) as (l & Hl & Hin). apply Hcl in Hl.
            destruct (proj2 (proj2 (extension_ok T t x l Ht Hx Hl)) at' Ha0) as (i & Hi & Ei). exists i. split; [|exact Ei].
            apply in_or_app; right. apply in_or_app. left. auto.
          * destruct (extension_content t x Hx) as (cc & Hcc & Hcl).
            destruct (traverse_concat_in _ _ _ cc E2 Hcc) as (l & Hl & Hin). apply Hcl in Hl.
            destruct (t_bases _ TY T t x b0 Ht Hx Hb) as (bt & Hbt).
            assert (Ok1 : exists l', ct_ok (local_name b0) bt l').
            { unfold ct_extension in Hl. rewrite Hb in Hl. destruct (schema_children c (local_name b0)) as [l'|e] eqn:Es; [|discriminate].
              exists l'. exact (complexType_entry _ _ _ Hbt Es). }
            destruct Ok1 as (l' & Ok1).
            destruct (proj1 (proj2 (extension_ok T t x l Ht Hx Hl)) b0 bt l' Hb Hbt Ok1 at' Hat Ha0) as (i & Hi & Ei).
            exists i. split; [|exact Ei]. apply in_or_app; right. apply in_or_app. left. auto.
          * destruct (traverse_concat_in _ _ _ r E5 Hrr) as (l & Hl & Hin).
            unfold ct_attributeGroup, dgetitem in Hl. unfold l_attr in Hk. rewrite Hk in Hl. cbn [rbind] in Hl.
            destruct (attributeGroup_entry _ _ _ Hn Hl) as [A1 A2]. rewrite <- A1 in Ha0. apply in_map_iff in Ha0.
            destruct Ha0 as (i & Ei & Hi). exists i. split; [|exact Ei]. do 4 (apply in_or_app; right). auto.
        + intros (i & Hi & Ei). destruct (FROM i Hi) as [X|[X|[X|[X|X]]]].
          * apply INA in X. apply seq_nodes_in in X. rewrite Ei in X. destruct X. congruence.
          * destruct (XB i X) as (x & l & Hx & Hl & Hil).
            destruct (proj1 (extension_ok T t x l Ht Hx Hl) i Hil) as (_ & [F|[F|F]] & _).
            -- destruct F as (b0 & bt & l' & Hb & Hbt & Ok1 & Hil').
               eapply dc_base; [exact Ht|exact Hx|exact Hb|]. apply (ct_attr _ _ _ Ok1 at' Hat). exists i. auto.
            -- apply seq_nodes_in in F. rewrite Ei in F. destruct F. congruence.
            -- eapply dc_extension; [exact Ht|exact Hx|]. rewrite <- Ei. exact F.
          * apply ING in X. apply named_inside in X. rewrite Ei in X. destruct X as [_ X]. rewrite (NOTATT _ X) in Hat. discriminate.
          * apply INU in X. rewrite Ei in X. eapply dc_own; eauto.
          * destruct (XG i X) as (r & k & n & l & Hrr & Hk & Hn & M & _ & Hil). eapply dc_group; eauto.
            rewrite <- M, <- Ei. apply in_map. exact Hil.
      - intros i Hi Hk. destruct (FROM i Hi) as [X|[X|[X|[X|X]]]].
        + split; [apply Ga2; exact X|]. exists T, t. split; [exact Ht|]. split; [|left; reflexivity].
          apply INA in X. apply seq_nodes_in in X. apply X.
        + destruct (XB i X) as (x & l & Hx & Hl & Hil).
          destruct (proj1 (extension_ok T t x l Ht Hx Hl) i Hil) as (_ & F & O).
          destruct F as [F|[F|F]].
          * destruct F as (b0 & bt & l' & Hb & Hbt & Ok1 & Hil').
            destruct (ct_other _ _ _ Ok1 i Hil' Hk) as [A (T' & t' & HT & Hin & Hor)]. split; [exact A|].
            exists T', t'. split; [exact HT|]. split; [exact Hin|]. right. destruct Hor as [->|Hor]; [|exact Hor].
            exists T, t, x, b0. auto.
          * split; [exact (O F)|]. exists T, t. split; [exact Ht|]. split; [|left; reflexivity].
            apply seq_nodes_in in F. destruct Hx as (cc & rest & Hcc & Hkk & Hxx). apply named_inside in Hcc.
            eapply inside_trans; [apply Hcc|]. apply inside_all. eapply inside_trans; [|apply inside_all; apply F].
            unfold inside. rewrite Hkk. cbn. apply in_or_app. left. exact (l_is_all _ _ Hxx).
          * apply named_inside in F. exfalso. apply Hk. apply kind_attribute. apply F.
        + split; [apply Gg2; exact X|]. exists T, t. split; [exact Ht|]. split; [|left; reflexivity].
          apply ING in X. apply named_inside in X. apply X.
        + apply INU in X. apply named_inside in X. exfalso. apply Hk. apply kind_attribute. apply X.
        + destruct (XG i X) as (r & k & n & l & _ & _ & _ & M & _ & Hil). exfalso. apply Hk. apply kind_attribute.
          assert (Y : In (org g i) (l_named "attribute" n)) by (rewrite <- M; apply in_map; exact Hil).
          apply named_inside in Y. apply Y.
      - exists (map (org g) (List.concat b)), (map (org g) (List.concat ag)). rewrite !map_app, Ga1, Gg1, Gu1.
        split; [reflexivity|]. split.
        + intros E. rewrite E in E2. cbn in E2. injection E2 as <-. reflexivity.
        + intros r Hrr. apply in_map_iff in Hrr. destruct Hrr as (i & <- & Hi).
          destruct (XG i Hi) as (r & k & n & l & _ & _ & _ & M & _ & Hil).
          assert (Y : In (org g i) (l_named "attribute" n)) by (rewrite <- M; apply in_map; exact Hil).
          apply named_inside in Y. apply Y.
    Qed.
  End One.

  Lemma complexTypes_ok : forall l, (forall n, In n l -> In n kids /\ l_is (py "complexType") n = true) ->
    forall c c',
    (forall n, In n (l_anywhere "attribute" kids) -> exists i, registered g w (ca_attribute c) n i) ->
    (forall n, In n (l_anywhere "element" kids) -> exists i, registered g w (ca_element c) n i) ->
    (forall n, In n (l_anywhere "group" kids) -> exists i, registered g w (ca_group c) n i) ->
    (forall k x, dget k (sdict c) = Some x -> entry_ok k x) ->
    cat_complexTypes l c = Ok c' ->
    ca_heap c' = ca_heap c /\ ca_simple c' = ca_simple c /\ ca_element c' = ca_element c /\
    (forall k x, dget k (sdict c') = Some x -> entry_ok k x) /\
    (forall k, dmem k (sdict c) = true -> dmem k (sdict c') = true) /\
    (forall n k, In n l -> l_attr "name" n = Some k -> dmem k (sdict c') = true).
  Proof.
    induction l as [|n l IH]; intros HT c c' Ra Re Rg Hen Hr; cbn [cat_complexTypes] in Hr.
    - injection Hr as <-. do 3 (split; [reflexivity|]). split; [exact Hen|]. split; [auto|]. intros n k [].
    - destruct (HT n (or_introl eq_refl)) as [Hn1 Hn2].
      destruct (l_attr "name" n) as [k|] eqn:Ek.
      + destruct (ct_children c n) as [ch|e] eqn:Ec; [|discriminate]. cbn [rbind] in Hr.
        assert (Tn : top kids "complexType" k n) by (repeat split; auto).
        assert (O := ct_children_ok c Ra Re Rg Hen k n ch Tn Ec).
        match type of Hr with cat_complexTypes _ ?x = _ =>
          destruct (IH (fun m Hm => HT m (or_intror Hm)) x c' Ra Re Rg) as (A1 & A2 & A3 & A4 & A5 & A6) end; [|exact Hr|].
        * intros k' x Hx. rewrite enter_sdict, Ek, dget_dset in Hx. destruct (str_eqb k' k) eqn:E; [|apply Hen; exact Hx].
          apply str_eqb_eq in E. subst k'. injection Hx as <-. right. exists n. auto.
        * cbn [ca_heap ca_simple ca_element] in *. do 3 (split; [assumption|]). split; [exact A4|]. split.
          -- intros k' Hk'. apply A5. rewrite enter_sdict, Ek. apply dmem_dset_mono. exact Hk'.
          -- intros m k' [<-|Hm] Hk'; [|exact (A6 m k' Hm Hk')]. apply A5. rewrite enter_sdict, Ek.
             rewrite Ek in Hk'. injection Hk' as <-. apply dmem_dset_same.
      + destruct (IH (fun m Hm => HT m (or_intror Hm)) c c' Ra Re Rg Hen Hr) as (A1 & A2 & A3 & A4 & A5 & A6).
        do 3 (split; [assumption|]). split; [exact A4|]. split; [exact A5|].
        intros m k' [<-|Hm] Hk'; [congruence|exact (A6 m k' Hm Hk')].
  Qed.
End Types.
