(** * The summary of nxdl.xsd *)

From Coq Require Import List NArith ZArith Bool String Lia.
From Verif Require Import PyBase PyFacts InstallFacts CliFacts TreeFacts H5 SchemaMgr NxdlSchema Spec_Defaults
  DefaultsHeap DefaultsParse DefaultsCat DefaultsTypes.
Import ListNotations.
Open Scope string_scope.
Open Scope list_scope.

(** ** Nodes that would be twice in the document *)
Lemma dup_line : forall (p : lnode -> bool) A B x, NoDup (map l_line (filter p (A ++ B))) ->
  In x A -> In x B -> p x = true -> False.
Proof.
  intros p A B x ND HA HB Hp. rewrite filter_app, map_app in ND.
  assert (IA : In (l_line x) (map l_line (filter p A))) by (apply in_map, filter_In; auto).
  assert (IB : In (l_line x) (map l_line (filter p B))) by (apply in_map, filter_In; auto).
  revert ND IA IB. generalize (map l_line (filter p B)). generalize (map l_line (filter p A)).
  intros l m. induction l as [|y l IH]; intros ND IA IB; [destruct IA|].
  cbn in ND. inversion ND as [|u v N1 N2]; subst u v. destruct IA as [->|IA]; [|auto].
  apply N1. apply in_or_app. right. exact IB.
Qed.
Lemma NoDup_right : forall {A} (l m : list A), NoDup (l ++ m) -> NoDup m.
Proof. intros A l m. induction l as [|x l IH]; cbn; intros H; [exact H|]. inversion H; auto. Qed.
Lemma NoDup_left : forall {A} (l m : list A), NoDup (l ++ m) -> NoDup l.
Proof.
  intros A l m. induction l as [|x l IH]; cbn; intros H; [constructor|]. inversion H as [|u v N1 N2]; subst.
  constructor; [|auto]. intros X. apply N1. apply in_or_app. left. exact X.
Qed.
Lemma NoDup_lines_parts : forall (p : lnode -> bool) A B C, NoDup (map l_line (filter p (A ++ B ++ C))) ->
  NoDup (map l_line (filter p B)) /\ NoDup (map l_line (filter p (B ++ C))).
Proof.
  intros p A B C ND. rewrite !filter_app, !map_app in *. apply NoDup_right in ND. split; [|exact ND].
  apply NoDup_left in ND. exact ND.
Qed.

Section Doc.
  Variable kids : list lnode.
  Lemma two_kids : forall tag t1 t2 x, NoDup (map l_line (l_anywhere tag kids)) -> In t1 kids -> In t2 kids -> t1 <> t2 ->
    In x (l_all t1) -> In x (l_all t2) -> l_is (py tag) x = true -> False.
  Proof.
    intros tag t1 t2 x ND H1 H2 Hne X1 X2 Hx. unfold l_anywhere in ND.
    apply in_split in H1. destruct H1 as (K1 & K2 & ->).
    rewrite flat_map_app in ND. cbn [flat_map] in ND.
    apply in_app_or in H2. destruct H2 as [H2|[H2|H2]]; [|congruence|].
    - apply (dup_line _ _ _ x ND); auto.
      + apply in_flat_map. exists t2. auto.
      + apply in_or_app. left. exact X1.
    - assert (ND2 := proj2 (NoDup_lines_parts _ _ _ _ ND)). apply (dup_line _ _ _ x ND2); auto.
      apply in_flat_map. exists t2. auto.
  Qed.
  Lemma not_inside : forall tag x n, NoDup (map l_line (l_anywhere tag kids)) -> In x kids -> l_is (py tag) x = true ->
    In n (doc kids) -> inside n x -> False.
  Proof.
    intros tag x n ND Hx Ht Hn Hin. unfold doc in Hn. apply in_flat_map in Hn. destruct Hn as (k & Hk & Hn).
    assert (Ik : inside k x).
    { apply all_cases in Hn. destruct Hn as [->|Hn]; [exact Hin|]. eapply inside_trans; [exact Hn|]. apply inside_all. exact Hin. }
    assert (D : x = k \/ x <> k).
    { destruct (in_split _ _ Hk) as (K1 & K2 & E). rewrite E in Hx. apply in_app_or in Hx.
      (* x is k itself, or elsewhere and then twice *)
      destruct Hx as [Hx|[Hx|Hx]]; [| left; congruence |].
      - exfalso. unfold l_anywhere in ND. rewrite E, flat_map_app in ND. cbn [flat_map] in ND.
        apply (dup_line _ _ _ x ND); auto.
        + apply in_flat_map. exists x. split; [exact Hx|]. exact (l_is_all _ _ Ht).
        + apply in_or_app. left. apply inside_all. exact Ik.
      - exfalso. unfold l_anywhere in ND. rewrite E, flat_map_app in ND. cbn [flat_map] in ND.
        assert (ND2 := proj2 (NoDup_lines_parts _ _ _ _ ND)). apply (dup_line _ _ _ x ND2); auto.
        + apply inside_all. exact Ik.
        + apply in_flat_map. exists x. split; [exact Hx|]. exact (l_is_all _ _ Ht). }
    destruct D as [->|D].
    - unfold l_anywhere in ND. apply in_split in Hk. destruct Hk as (K1 & K2 & ->).
      rewrite flat_map_app in ND. cbn [flat_map] in ND.
      assert (ND2 := proj1 (NoDup_lines_parts _ _ _ _ ND)).
      destruct k as [|t l a ks]; [discriminate|]. cbn [l_all] in ND2.
      apply (dup_line (l_is (py tag)) [LN t l a ks] (flat_map l_all ks) (LN t l a ks)); auto. left. reflexivity.
    - apply (two_kids tag x k x ND Hx Hk D); auto; [exact (l_is_all _ _ Ht)|apply inside_all; exact Ik].
  Qed.
End Doc.

(** ** Simple types *)
Lemma simple_types_keys : forall E l db db', simple_types E db l = Ok db' ->
  forall k, dmem k db' = true -> dmem k db = true \/ exists n, In n l /\ l_attr "name" n = Some k.
Proof.
  intros E l. induction l as [|n l IH]; intros db db' Hr k Hk; cbn [simple_types] in Hr.
  - injection Hr as <-. left. exact Hk.
  - destruct (parse_simple E n) as [s|e]; [|discriminate]. cbn [rbind] in Hr.
    destruct (IH _ _ Hr k Hk) as [H|(m & Hm & X)]; [|right; exists m; split; [right; exact Hm|exact X]].
    destruct (l_attr "name" n) as [kn|] eqn:En; [|left; exact H].
    rewrite dmem_dget, dget_dset in H. destruct (str_eqb k kn) eqn:Ek.
    + apply str_eqb_eq in Ek. subst kn. right. exists n. split; [left; reflexivity|exact En].
    + left. rewrite dmem_dget. exact H.
Qed.
Lemma inherit_keys : forall db k k', dmem k' (inherit db k) = dmem k' db.
Proof.
  intros db k k'. unfold inherit. destruct (dget k db) as [v|] eqn:E; [|reflexivity].
  destruct (sm_base v) as [b|]; [|reflexivity]. destruct (dget b db) as [kb|]; [|reflexivity].
  rewrite !dmem_dget, dget_dset. destruct (str_eqb k' k) eqn:Ek; [|reflexivity].
  apply str_eqb_eq in Ek. subst k'. rewrite E. reflexivity.
Qed.
Lemma fold_inherit_keys : forall ks db k, dmem k (fold_left inherit ks db) = dmem k db.
Proof. induction ks as [|x ks IH]; intros db k; cbn; [reflexivity|]. rewrite IH. apply inherit_keys. Qed.

Lemma dget_simple_refs : forall (db : dict simple) k,
  dget k (map (fun kv => (fst kv, RSimple (fst kv))) db) = if dmem k db then Some (RSimple k) else None.
Proof.
  induction db as [|[k0 v] db IH]; intros k; [reflexivity|].
  unfold dget, dmem, amem in *. cbn. destruct (str_eqb k k0) eqn:E; [|apply IH].
  apply str_eqb_eq in E. subst k0. reflexivity.
Qed.

(** ** The catalogue *)
Section Whole.
  Variable kids : list lnode.
  Hypothesis TY : tidy kids.

  Record CatOk (defn : lnode) (c : catalog) (g : list lnode) (w : list nat) : Prop := {
    w_core : Core kids (ca_heap c) g w;
    w_element : forall n, In n (l_anywhere "element" kids) -> exists i, registered g w (ca_element c) n i;
    w_entry : forall k x, dget k (sdict c) = Some x -> entry_ok kids g w k x;
    w_complex : forall k n, top kids "complexType" k n -> dmem k (sdict c) = true;
    w_group : forall k n, top kids "group" k n -> dmem k (sdict c) = true;
    w_simple : forall k, dmem k (tdict c) = true -> dmem k (sdict c) = true /\ exists n, top kids "simpleType" k n;
    w_defn : forall i, i < List.length (ca_heap c) -> org g i = defn -> line_get defn (ca_element c) = Some i
  }.

  Lemma read_catalog_ok : forall E defn c, In defn kids -> l_is (py "element") defn = true ->
    read_catalog E kids = Ok c -> exists g w, CatOk defn c g w.
  Proof.
    intros E defn c Hd1 Hd2 Hr. unfold read_catalog in Hr.
    assert (NDa := t_lines _ TY "attribute" ltac:(cbn; tauto)).
    assert (NDe := t_lines _ TY "element" ltac:(cbn; tauto)).
    assert (NDg := t_lines _ TY "group" ltac:(cbn; tauto)).
    destruct (cat_simple E kids empty_catalog) as [c1|e] eqn:E1; [|discriminate]. cbn [rbind] in Hr.
    assert (S1 : ca_heap c1 = [] /\ (forall k, dget k (sdict c1) = if dmem k (tdict c1) then Some (RSimple k) else None) /\
                 (forall k, dmem k (tdict c1) = true -> exists n, top kids "simpleType" k n)).
    { unfold cat_simple in E1. unfold all_simple_types in E1.
      destruct (simple_types E [] (filter (l_is (py "simpleType")) kids)) as [db|e] eqn:Es; [|discriminate].
      cbn [rbind] in E1.
      assert (KS : forall k, dmem k (fold_left inherit (dkeys db) db) = true -> exists n, top kids "simpleType" k n).
      { intros k Hk. rewrite fold_inherit_keys in Hk. destruct (simple_types_keys _ _ _ _ Es k Hk) as [X|(n & Hn & X)]; [discriminate|].
        apply filter_In in Hn. exists n. repeat split; try apply Hn. exact X. }
      destruct (filter (l_is (py "simpleType")) kids) as [|y ys].
      - injection E1 as <-. cbn. split; [reflexivity|]. split; [reflexivity|]. intros k H. discriminate.
      - injection E1 as <-. unfold sdict, tdict. cbn [ca_heap ca_schema ca_simple empty_catalog]. split; [reflexivity|]. split; [|exact KS].
        intros k. apply dget_simple_refs. }
    destruct S1 as (H1 & D1 & T1). clear E1.
    (* attributes *)
    rewrite cat_attributes_lines in Hr. rewrite H1 in Hr.
    destruct (parse_lines new_sattr (l_anywhere "attribute" kids) [] (ca_attribute c1)) as [r2|e] eqn:E2; [|discriminate].
    cbn [rbind] in Hr.
    assert (AN : forall tag n, In n (l_anywhere tag kids) -> l_is (py tag) n = true /\ In n (doc kids)).
    { intros tag n Hn. apply filter_In in Hn. tauto. }
    destruct (parse_lines_ok kids new_sattr _ (fun n Hn => conj (new_sattr_parses n (proj1 (AN _ _ Hn))) (proj2 (AN _ _ Hn)))
                NDa _ _ _ _ _ (core_nil kids) E2) as (a2 & b2 & v2 & Ea2 & C2 & R2 & I2).
    cbn [app] in *.
    (* attribute groups *)
    match type of Hr with rbind (cat_attributeGroups _ ?x) _ = _ => remember x as c2 eqn:Ec2 end.
    destruct (cat_attributeGroups (filter (l_is (py "attributeGroup")) kids) c2) as [c3|e] eqn:E3; [|discriminate]. cbn [rbind] in Hr.
    assert (Hh2 : ca_heap c2 = a2) by (subst c2; exact Ea2). rewrite <- Hh2 in C2, I2.
    destruct (attributeGroups_ok kids (filter (l_is (py "attributeGroup")) kids)
                (fun n Hn => kid_doc kids _ n (proj1 (proj1 (filter_In _ _ _) Hn)) (proj2 (proj1 (filter_In _ _ _) Hn)))
                c2 b2 v2 c3 C2 E3) as (a3 & b3 & v3 & Ea3 & C3 & S3 & A3 & El3 & G3 & N3 & D3 & M3 & Nm3).
    (* elements *)
    rewrite cat_elements_lines in Hr.
    destruct (parse_lines new_selem (l_anywhere "element" kids) (ca_heap c3) (ca_element c3)) as [r4|e] eqn:E4; [|discriminate].
    cbn [rbind] in Hr.
    destruct (parse_lines_ok kids new_selem _ (fun n Hn => conj (new_selem_parses (l_height n) n (proj1 (AN _ _ Hn))) (proj2 (AN _ _ Hn)))
                NDe _ _ _ _ _ C3 E4) as (a4 & b4 & v4 & Ea4 & C4 & R4 & I4).
    match type of Hr with rbind (cat_groups _ ?x) _ = _ => remember x as c4 eqn:Ec4 end.
    destruct (cat_groups (l_anywhere "group" kids) c4) as [c5|e] eqn:E5; [|discriminate]. cbn [rbind] in Hr.
    destruct (groups_ok (l_anywhere "group" kids) c4 c5 NDg E5) as (r5 & E5' & H5 & G5 & S5 & A5 & El5 & D5 & M5 & Nm5).
    assert (Hh4 : ca_heap c4 = ca_heap c3 ++ a4) by (subst c4; exact Ea4). rewrite Hh4 in E5'.
    destruct (parse_lines_ok kids new_sgroup _ (fun n Hn => conj (new_sgroup_parses n (proj1 (AN _ _ Hn))) (proj2 (AN _ _ Hn)))
                NDg _ _ _ _ _ C4 E5') as (a5 & b5 & v5 & Ea5 & C5 & R5 & I5).
    set (g := ((b2 ++ b3) ++ b4) ++ b5) in *. set (w := ((v2 ++ v3) ++ v4) ++ v5) in *.
    assert (L2 := k_len _ _ _ _ C2). assert (L2w := k_wlen _ _ _ _ C2).
    assert (L3 := k_len _ _ _ _ C3). assert (L3w := k_wlen _ _ _ _ C3).
    assert (L4 := k_len _ _ _ _ C4). assert (L4w := k_wlen _ _ _ _ C4).
    assert (L5 := k_len _ _ _ _ C5). assert (L5w := k_wlen _ _ _ _ C5).
    assert (Hh5 : ca_heap c5 = (ca_heap c3 ++ a4) ++ a5) by congruence.
    (* by line *)
    assert (RA : forall n, In n (l_anywhere "attribute" kids) -> exists i, registered g w (ca_attribute c5) n i).
    { intros n Hn. destruct (R2 n Hn) as (i & Hi). exists i.
      replace (ca_attribute c5) with (snd r2) by (rewrite A5; subst c4 c2; cbn; rewrite A3; reflexivity).
      do 3 (apply registered_more; [rewrite ?app_length in *; lia|]). exact Hi. }
    assert (RE : forall n, In n (l_anywhere "element" kids) -> exists i, registered g w (ca_element c5) n i).
    { intros n Hn. destruct (R4 n Hn) as (i & Hi). exists i.
      replace (ca_element c5) with (snd r4) by (rewrite El5; subst c4; reflexivity).
      apply registered_more; [rewrite ?app_length in *; lia|]. exact Hi. }
    assert (RG : forall n, In n (l_anywhere "group" kids) -> exists i, registered g w (ca_group c5) n i).
    { intros n Hn. destruct (R5 n Hn) as (i & Hi). exists i. rewrite G5. exact Hi. }
    (* entries *)
    assert (EN : forall k x, dget k (sdict c5) = Some x -> entry_ok kids g w k x).
    { intros k x Hx. destruct (D5 k x Hx) as [Hx4|(n & i & Hn & Hk & -> & Hl)].
      - replace (sdict c4) with (sdict c3) in Hx4 by (subst c4; reflexivity).
        destruct (D3 k x Hx4) as [Hx2|(n & ids & Hn & Hk & -> & M & Lt)].
        + replace (sdict c2) with (sdict c1) in Hx2 by (subst c2; reflexivity). rewrite D1 in Hx2.
          destruct (dmem k (tdict c1)) eqn:Em; [|discriminate]. injection Hx2 as <-. cbn. split; [reflexivity|]. apply T1. exact Em.
        + left. exists n. apply filter_In in Hn. split; [repeat split; try apply Hn; exact Hk|]. split.
          * unfold g. rewrite <- (app_assoc (b2 ++ b3)). rewrite map_org_app; [exact M|]. intros i Hi. apply Lt in Hi. lia.
          * intros i Hi. apply Lt in Hi. unfold g. rewrite !(app_length (_ ++ _)). lia.
      - cbn. exists n. assert (Hn' := AN _ _ Hn). split.
        + repeat split; try apply Hn'; auto. apply (t_groups _ TY n Hn). congruence.
        + destruct (R5 n Hn) as (j & J1 & J2 & J3 & J4). rewrite Hl in J1. injection J1 as <-. auto. }
    (* complex types *)
    assert (Hct : forall n, In n (filter (l_is (py "complexType")) kids) -> In n kids /\ l_is (py "complexType") n = true).
    { intros n Hn. apply filter_In in Hn. exact Hn. }
    destruct (complexTypes_ok kids TY g w _ Hct c5 c RA RE RG EN Hr) as (H6 & S6 & El6 & EN6 & M6 & Nm6).
    exists g, w. constructor.
    - rewrite H6, Hh5. exact C5.
    - rewrite El6. exact RE.
    - exact EN6.
    - intros k n (X1 & X2 & X3). apply (Nm6 n k); [apply filter_In; auto|exact X3].
    - intros k n (X1 & X2 & X3). apply M6. apply (Nm5 n k); [|exact X3]. apply anywhere_in; [|exact X2].
      exact (kid_doc kids _ n X1 X2).
    - intros k Hk.
      assert (Et : tdict c = tdict c1).
      { unfold tdict. rewrite S6, S5. subst c4. cbn. rewrite S3. subst c2. reflexivity. }
      rewrite Et in Hk. split; [|exact (T1 k Hk)].
      apply M6, M5. replace (sdict c4) with (sdict c3) by (subst c4; reflexivity).
      apply M3. replace (sdict c2) with (sdict c1) by (subst c2; reflexivity).
      rewrite dmem_dget, D1, Hk. reflexivity.
    - intros i Hi Ei. rewrite H6, Hh5 in Hi.
      assert (NI : forall n, In n (doc kids) -> inside n defn -> False).
      { intros n Hn. apply (not_inside kids "element" defn n NDe Hd1 Hd2 Hn). }
      assert (NT : forall tag, py tag <> py "element" -> l_is (py tag) defn = true -> False).
      { intros tag Hne Ht. apply Hne. exact (l_is_tag _ _ _ Ht Hd2). }
      destruct (Nat.lt_ge_cases i (List.length (ca_heap c3 ++ a4))) as [L|L].
      + destruct (Nat.lt_ge_cases i (List.length (ca_heap c3))) as [L'|L'].
        * destruct (Nat.lt_ge_cases i (List.length (ca_heap c2))) as [L''|L''].
          -- exfalso. destruct (I2 i ltac:(cbn; lia)) as (n & Hn & X). destruct (AN _ _ Hn) as [Ta Da].
             assert (Oi : org b2 i = defn).
             { rewrite <- Ei. unfold g. rewrite <- !app_assoc. symmetry. apply org_app. lia. }
             destruct X as [(_ & _ & X & _)|X].
             ++ apply (NT "attribute"); [discriminate|]. rewrite <- Oi, X. exact Ta.
             ++ apply (NI n Da). rewrite <- Oi. exact X.
          -- exfalso. assert (X := N3 i ltac:(lia)). apply (NT "attribute"); [discriminate|]. rewrite <- Ei.
             unfold g. rewrite <- (app_assoc (b2 ++ b3)). rewrite org_app by lia. exact X.
        * destruct (I4 i ltac:(lia)) as (n & Hn & X). destruct (AN _ _ Hn) as [Ta Da].
          assert (Oi : org ((b2 ++ b3) ++ b4) i = defn) by (rewrite <- Ei; symmetry; apply org_app; lia).
          destruct X as [(X1 & _ & X & _)|X].
          -- rewrite El6, El5. subst c4. cbn [ca_element]. rewrite X in Oi. rewrite Oi in X1. exact X1.
          -- exfalso. apply (NI n Da). rewrite <- Oi. exact X.
      + exfalso. destruct (I5 i ltac:(lia)) as (n & Hn & X). destruct (AN _ _ Hn) as [Ta Da].
        destruct X as [(_ & _ & X & _)|X].
        * apply (NT "group"); [discriminate|]. rewrite <- Ei. unfold g in *. rewrite X. exact Ta.
        * apply (NI n Da). rewrite <- Ei. exact X.
  Qed.
End Whole.
