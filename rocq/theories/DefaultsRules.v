(** * Simple types, and the order of declarations: lemmas for C91, C92 *)

From Coq Require Import List NArith ZArith Bool String Lia.
From Verif Require Import PyBase PyFacts H5 SchemaMgr NxdlSchema Spec_Number NumberFacts Spec_Defaults DefaultsHeap DefaultsParse DefaultsCat DefaultsTypes DefaultsSummary CliFacts InstallFacts.
Import ListNotations.
Open Scope string_scope.
Open Scope list_scope.

Definition name_of (n : lnode) : list pystr := match l_attr "name" n with Some k => [k] | None => [] end.

Lemma simple_types_read : forall E l db db', simple_types E db l = Ok db' ->
  NoDup (dkeys db ++ flat_map name_of l) ->
  dkeys db' = dkeys db ++ flat_map name_of l /\
  (forall k, In k (dkeys db) -> dget k db' = dget k db) /\
  (forall n k, In n l -> l_attr "name" n = Some k -> exists v, parse_simple E n = Ok v /\ dget k db' = Some v).
Proof.
  intros E l. induction l as [|n l IH]; intros db db' Hr ND; cbn [simple_types flat_map] in *.
  - injection Hr as <-. rewrite app_nil_r. split; [reflexivity|]. split; [reflexivity|]. intros n k [].
  - destruct (parse_simple E n) as [v|e] eqn:Ev; [|discriminate]. cbn [rbind] in Hr.
    unfold name_of in ND at 1. unfold name_of at 1. destruct (l_attr "name" n) as [k0|] eqn:En.
    + cbn [app] in ND. assert (Nk : dmem k0 db = false).
      { destruct (dmem k0 db) eqn:Em; [|reflexivity]. apply dmem_In in Em. apply NoDup_remove_2 in ND. exfalso. apply ND. apply in_or_app. left. exact Em. }
      assert (Ek : dkeys (dset k0 v db) = dkeys db ++ [k0]).
      { unfold dset. rewrite aset_fresh by exact Nk. unfold dkeys. rewrite map_app. reflexivity. }
      assert (ND' : NoDup (dkeys (dset k0 v db) ++ flat_map name_of l)) by (rewrite Ek, <- app_assoc; exact ND).
      destruct (IH _ _ Hr ND') as (I1 & I2 & I3). rewrite Ek in I1, I2. split; [rewrite I1, <- app_assoc; reflexivity|]. split.
      * intros k Hk. rewrite I2 by (apply in_or_app; left; exact Hk). apply dget_dset_other.
        intros ->. apply dmem_In in Hk. congruence.
      * intros m k [<-|Hm] Hk; [|exact (I3 m k Hm Hk)]. rewrite En in Hk. injection Hk as <-. exists v. split; [exact Ev|].
        rewrite I2 by (apply in_or_app; right; left; reflexivity). apply dget_dset_same.
    + cbn [app] in *. destruct (IH _ _ Hr ND) as (I1 & I2 & I3). split; [exact I1|]. split; [exact I2|].
      intros m k [<-|Hm] Hk; [congruence|exact (I3 m k Hm Hk)].
Qed.

Lemma inherit_other : forall db k k', k' <> k -> dget k' (inherit db k) = dget k' db.
Proof.
  intros db k k' N. unfold inherit. destruct (dget k db) as [v|]; [|reflexivity]. destruct (sm_base v) as [b|]; [|reflexivity].
  destruct (dget b db); [|reflexivity]. apply dget_dset_other. auto.
Qed.
Lemma fold_inherit_other : forall ks db k, ~ In k ks -> dget k (fold_left inherit ks db) = dget k db.
Proof.
  induction ks as [|x ks IH]; intros db k H; [reflexivity|]. cbn [fold_left]. rewrite IH by (intros X; apply H; right; exact X).
  apply inherit_other. intros ->. apply H. left. reflexivity.
Qed.
(** what a type is in the end *)
Lemma fold_inherit_at : forall ks1 k ks2 db v, NoDup (ks1 ++ k :: ks2) -> dget k db = Some v ->
  let db' := fold_left inherit (ks1 ++ k :: ks2) db in
  match sm_base v with
  | None => dget k db' = Some v
  | Some b =>
      (In b ks1 -> match dget b db' with
                   | None => dget k db' = Some v
                   | Some vb => dget k db' = Some (mkSimple (sm_base vb) (sm_patterns v ++ sm_patterns vb) (sm_maxLength vb))
                   end) /\
      (~ In b ks1 -> match dget b db with
                   | None => dget k db' = Some v
                   | Some vb => dget k db' = Some (mkSimple (sm_base vb) (sm_patterns v ++ sm_patterns vb) (sm_maxLength vb))
                   end)
  end.
Proof.
  intros ks1 k ks2 db v ND Hv db'. unfold db'. rewrite fold_left_app. cbn [fold_left]. set (d1 := fold_left inherit ks1 db).
  assert (N2 := NoDup_remove_2 _ _ _ ND).
  assert (N1k : ~ In k ks1) by (intros X; apply N2; apply in_or_app; left; exact X).
  assert (N2k : ~ In k ks2) by (intros X; apply N2; apply in_or_app; right; exact X).
  assert (Hd1 : dget k d1 = Some v) by (unfold d1; rewrite fold_inherit_other by exact N1k; exact Hv).
  rewrite (fold_inherit_other ks2 _ k N2k).
  assert (HI : inherit d1 k = match sm_base v with
      | Some b => match dget b d1 with
                  | Some kb => dset k (mkSimple (sm_base kb) (sm_patterns v ++ sm_patterns kb) (sm_maxLength kb)) d1
                  | None => d1
                  end
      | None => d1 end) by (unfold inherit; rewrite Hd1; reflexivity).
  destruct (sm_base v) as [b|] eqn:Eb; [|rewrite HI; exact Hd1]. split; intros Hb.
  - assert (Nb : b <> k) by (intros ->; contradiction).
    assert (Nb2 : ~ In b ks2).
    { intros X. assert (ND3 := NoDup_remove_1 _ _ _ ND). clear -ND3 Hb X. induction ks1 as [|y ks1 IH]; [destruct Hb|].
      cbn in ND3. inversion ND3; subst. destruct Hb as [->|Hb]; [apply H1; apply in_or_app; right; exact X|auto]. }
    rewrite (fold_inherit_other ks2 _ b Nb2), (inherit_other d1 k b Nb), HI.
    destruct (dget b d1) as [vb|]; [apply dget_dset_same|exact Hd1].
  - assert (Hbb : dget b d1 = dget b db) by (unfold d1; apply fold_inherit_other; exact Hb). rewrite HI, Hbb.
    destruct (dget b db) as [vb|]; [apply dget_dset_same|exact Hd1].
Qed.

Lemma rule_patterns_read : forall l acc ps, map (l_attr "value") l = map Some ps -> rule_patterns acc l = Ok (acc ++ ps).
Proof.
  induction l as [|n l IH]; intros acc [|p ps] H; try discriminate; cbn [rule_patterns]; [rewrite app_nil_r; reflexivity|].
  cbn [map] in H. injection H as H1 H2. unfold l_attr in H1. unfold dgetitem. rewrite H1. cbn [rbind].
  rewrite (IH _ ps H2), <- app_assoc. reflexivity.
Qed.
Lemma parse_simple_read : forall E n r v ps b, parse_simple E n = Ok v -> l_named "restriction" n = [r] ->
  l_attr "base" r = Some b -> map (l_attr "value") (l_named "pattern" r) = map Some ps ->
  sm_base v = Some (local_name b) /\ sm_patterns v = ps.
Proof.
  intros E n r v ps b H Hr Hb Hp. unfold parse_simple in H. rewrite Hr in H. cbn [restrictions] in H.
  rewrite (rule_patterns_read _ _ _ Hp) in H. cbn [rbind sm_patterns app] in H.
  match type of H with (dor m <- ?x ; _) = _ => destruct x as [m|e]; [|discriminate] end. cbn [rbind] in H.
  injection H as <-. rewrite Hb. cbn. auto.
Qed.

Lemma rule_maxLength_read : forall E l m o, rule_maxLength E m l = Ok o ->
  match rev l with
  | [] => o = m
  | p :: _ => exists x z, l_attr "value" p = Some x /\ whole_number E x z /\ o = Some z
  end.
Proof.
  intros E l. induction l as [|p l IH]; intros m o H; cbn [rule_maxLength] in H; [injection H as <-; reflexivity|].
  destruct (dgetitem (py "value") (l_attrib p)) as [x|] eqn:V; [|discriminate]. cbn [rbind] in H.
  destruct (py_int_text E x) as [z|] eqn:Z; [|discriminate]. apply int_number in Z. cbn [rbind] in H. apply IH in H. cbn [rev].
  destruct (rev l) as [|q r]; [|exact H]. cbn [app]. exists x, z. split; [|auto]. unfold dgetitem in V. unfold l_attr. destruct (dget (py "value") (l_attrib p)); congruence.
Qed.
Lemma parse_simple_length : forall E n r v, parse_simple E n = Ok v -> l_named "restriction" n = [r] ->
  match rev (l_named "maxLength" r) with
  | [] => sm_maxLength v = None
  | p :: _ => exists x z, l_attr "value" p = Some x /\ whole_number E x z /\ sm_maxLength v = Some z
  end.
Proof.
  intros E n r v H Hr. unfold parse_simple in H. rewrite Hr in H. cbn [restrictions] in H.
  match type of H with (dor m <- ?x ; _) = _ => destruct x as [ps|e]; [|discriminate] end. cbn [rbind sm_maxLength] in H.
  destruct (rule_maxLength E None (l_named "maxLength" r)) as [o|] eqn:M; [|discriminate]. cbn [rbind] in H. injection H as <-. cbn [sm_maxLength].
  exact (rule_maxLength_read _ _ _ _ M).
Qed.

Section Rules.
  Variables (E : env) (limit : nat) (kids : list lnode) (s : summary).
  Hypothesis TY : tidy kids.
  Hypothesis OK : nxdl_summary E limit kids = Ok s.
  Definition sts : list lnode := filter (l_is (py "simpleType")) kids.

  Lemma top_sts : forall k n, top kids "simpleType" k n <-> In n sts /\ l_attr "name" n = Some k.
  Proof. intros k n. unfold top, sts. rewrite filter_In. tauto. Qed.
  Lemma sts_names : NoDup (flat_map name_of sts).
  Proof.
    assert (H := t_names _ TY). unfold sts. clear OK TY. induction kids as [|n l IH]; [constructor|]. cbn [flat_map filter] in *.
    destruct (l_is (py "simpleType") n) eqn:E1.
    - cbn [flat_map]. unfold entry_name in H at 1. rewrite E1 in H. cbn [orb] in H. fold (name_of n) in H. unfold name_of at 1.
      unfold name_of in H at 1. destruct (l_attr "name" n) as [k|] eqn:En; [|apply IH; exact H]. cbn [app] in *.
      inversion H as [|x y N1 N2]; subst. constructor; [|apply IH; exact N2].
      intros X. apply N1. clear - X. apply in_flat_map in X. destruct X as (m & Hm & X). apply filter_In in Hm. destruct Hm as [Hm Ht].
      apply in_flat_map. exists m. split; [exact Hm|]. unfold entry_name. rewrite Ht. cbn [orb]. exact X.
    - apply IH. clear IH. apply NoDup_right in H. exact H.
  Qed.
  Lemma the_simple : exists db, simple_types E [] sts = Ok db /\ (su_simpleType s = fold_left inherit (dkeys db) db).
  Proof.
    unfold nxdl_summary in OK. destruct (read_catalog E kids) as [c|e] eqn:E1; [|discriminate]. cbn [rbind] in OK.
    assert (X : exists db, simple_types E [] sts = Ok db /\ (forall x, ca_simple c = Some x -> x = fold_left inherit (dkeys db) db)).
    { unfold read_catalog in E1. destruct (cat_simple E kids empty_catalog) as [c1|e] eqn:C1; [|discriminate]. cbn [rbind] in E1.
      unfold cat_simple in C1. fold sts in C1. unfold all_simple_types in C1. destruct (simple_types E [] sts) as [db|e] eqn:Es; [|discriminate].
      exists db. split; [reflexivity|]. cbn [rbind] in C1.
      assert (K : forall x, ca_simple c1 = Some x -> x = fold_left inherit (dkeys db) db).
      { destruct sts; injection C1 as <-; cbn [ca_simple empty_catalog]; intros x Hx; [discriminate|injection Hx as <-; reflexivity]. }
      intros x Hx. apply K. rewrite <- Hx. clear -E1.
      assert (Ka : forall l c c', cat_attributes l c = Ok c' -> ca_simple c' = ca_simple c).
      { induction l as [|n l IH]; intros c0 c' H; cbn [cat_attributes] in H; [injection H as <-; reflexivity|].
        destruct (new_sattr n (ca_heap c0)); [|discriminate]. cbn [rbind] in H. rewrite (IH _ _ H). reflexivity. }
      assert (Kg : forall l c c', cat_attributeGroups l c = Ok c' -> ca_simple c' = ca_simple c).
      { induction l as [|n l IH]; intros c0 c' H; cbn [cat_attributeGroups] in H; [injection H as <-; reflexivity|].
        match type of H with (dor z <- ?x ; _) = _ => destruct x; [|discriminate] end. cbn [rbind] in H. rewrite (IH _ _ H). reflexivity. }
      assert (Ke : forall l c c', cat_elements l c = Ok c' -> ca_simple c' = ca_simple c).
      { induction l as [|n l IH]; intros c0 c' H; cbn [cat_elements] in H; [injection H as <-; reflexivity|].
        match type of H with (dor z <- ?x ; _) = _ => destruct x; [|discriminate] end. cbn [rbind] in H. rewrite (IH _ _ H). reflexivity. }
      assert (Kr : forall l c c', cat_groups l c = Ok c' -> ca_simple c' = ca_simple c).
      { induction l as [|n l IH]; intros c0 c' H; cbn [cat_groups] in H; [injection H as <-; reflexivity|].
        match type of H with (dor z <- ?x ; _) = _ => destruct x; [|discriminate] end. cbn [rbind] in H.
        match type of H with (dor z <- ?x ; _) = _ => destruct x; [|discriminate] end. cbn [rbind] in H. rewrite (IH _ _ H). reflexivity. }
      assert (Kc : forall l c c', cat_complexTypes l c = Ok c' -> ca_simple c' = ca_simple c).
      { induction l as [|n l IH]; intros c0 c' H; cbn [cat_complexTypes] in H; [injection H as <-; reflexivity|].
        destruct (l_attr "name" n); [|exact (IH _ _ H)].
        match type of H with (dor z <- ?x ; _) = _ => destruct x; [|discriminate] end. cbn [rbind] in H. rewrite (IH _ _ H). reflexivity. }
      match type of E1 with (dor z <- ?x ; _) = _ => destruct x as [c2|] eqn:C2; [|discriminate] end. cbn [rbind] in E1.
      match type of E1 with (dor z <- ?x ; _) = _ => destruct x as [c3|] eqn:C3; [|discriminate] end. cbn [rbind] in E1.
      match type of E1 with (dor z <- ?x ; _) = _ => destruct x as [c4|] eqn:C4; [|discriminate] end. cbn [rbind] in E1.
      match type of E1 with (dor z <- ?x ; _) = _ => destruct x as [c5|] eqn:C5; [|discriminate] end. cbn [rbind] in E1.
      rewrite (Kc _ _ _ E1), (Kr _ _ _ C5), (Ke _ _ _ C4), (Kg _ _ _ C3), (Ka _ _ _ C2). reflexivity. }
    destruct X as (db & X1 & X2). exists db. split; [exact X1|]. clear E1.
    repeat match type of OK with (dor z <- ?x ; _) = _ => destruct x eqn:?; [|discriminate]; cbn [rbind] in OK end.
    injection OK as <-. cbn [su_simpleType]. apply X2. match goal with H : match ca_simple c with _ => _ end = Ok _ |- _ => destruct (ca_simple c); [congruence|discriminate] end.
  Qed.

  Lemma before_sts : forall m n, In m sts -> In n sts -> before kids m n <-> before sts m n.
  Proof.
    intros m n Hm Hn. unfold sts in *. apply filter_In in Hm. apply filter_In in Hn. destruct Hm as [_ Fm], Hn as [_ Fn]. split.
    - intros (l1 & l2 & l3 & ->). rewrite filter_app. cbn [filter]. rewrite Fm, filter_app. cbn [filter]. rewrite Fn. repeat eexists.
    - intros (l1 & l2 & l3 & H). clear OK TY.
      assert (S1 : forall (f : lnode -> bool) l a x b, filter f l = a ++ x :: b -> exists p q, l = p ++ x :: q /\ filter f q = b).
      { intros f. induction l as [|y l IH]; intros a x b X; [destruct a; discriminate|]. cbn [filter] in X. destruct (f y).
        - destruct a as [|y' a]; [injection X as -> X; exists [], l; auto|]. injection X as -> X.
          destruct (IH _ _ _ X) as (p & q & -> & Q). exists (y' :: p), q. auto.
        - destruct (IH _ _ _ X) as (p & q & -> & Q). exists (y :: p), q. auto. }
      destruct (S1 _ _ _ _ _ H) as (p & q & -> & Q). destruct (S1 _ _ _ _ _ Q) as (p' & q' & -> & _). exists p, p', q'. reflexivity.
  Qed.
  Lemma names_unique : forall l x y z, NoDup (flat_map name_of l) -> In x l -> In y l ->
    l_attr "name" x = Some z -> l_attr "name" y = Some z -> x = y.
  Proof.
    clear. induction l as [|a l IH]; intros x y z N Hx Hy Ex Ey; [destruct Hx|]. cbn [flat_map] in N.
    assert (In' : forall u, In u l -> l_attr "name" u = Some z -> In z (flat_map name_of l)).
    { intros u Hu Eu. apply in_flat_map. exists u. split; [exact Hu|]. unfold name_of. rewrite Eu. left. reflexivity. }
    destruct Hx as [->|Hx], Hy as [->|Hy]; auto.
    - exfalso. unfold name_of in N at 1. rewrite Ex in N. cbn in N. inversion N; subst. apply H1. exact (In' y Hy Ey).
    - exfalso. unfold name_of in N at 1. rewrite Ey in N. cbn in N. inversion N; subst. apply H1. exact (In' x Hx Ex).
    - apply NoDup_right in N. exact (IH x y z N Hx Hy Ex Ey).
  Qed.
  Lemma names_before : forall m n b k, l_attr "name" m = Some b -> l_attr "name" n = Some k -> before sts m n ->
    exists ks1 ks2, flat_map name_of sts = ks1 ++ k :: ks2 /\ In b ks1.
  Proof.
    intros m n b k Em En (l1 & l2 & l3 & ->). exists (flat_map name_of (l1 ++ m :: l2)), (flat_map name_of l3). split.
    - assert (Nn : name_of n = [k]) by (unfold name_of; rewrite En; reflexivity).
      rewrite !flat_map_app. cbn [flat_map]. rewrite flat_map_app. cbn [flat_map]. rewrite Nn.
      rewrite <- !app_assoc. reflexivity.
    - rewrite flat_map_app. apply in_or_app. right. cbn [flat_map]. unfold name_of at 1. rewrite Em. left. reflexivity.
  Qed.
  Lemma names_not_before : forall n b k, In n sts -> l_attr "name" n = Some k ->
    (forall m, In m sts -> l_attr "name" m = Some b -> ~ before sts m n) ->
    exists ks1 ks2, flat_map name_of sts = ks1 ++ k :: ks2 /\ ~ In b ks1.
  Proof.
    intros n b k Hn En H. apply in_split in Hn. destruct Hn as (l1 & l2 & El). rewrite El in *.
    exists (flat_map name_of l1), (flat_map name_of l2). split.
    - rewrite flat_map_app. cbn [flat_map]. unfold name_of at 2. rewrite En. reflexivity.
    - intros X. apply in_flat_map in X. destruct X as (m & Hm & X). unfold name_of in X. destruct (l_attr "name" m) as [b'|] eqn:Em; [|destruct X].
      destruct X as [->|[]]. apply (H m); [apply in_or_app; left; exact Hm|exact Em|].
      apply in_split in Hm. destruct Hm as (p & q & ->). exists p, q, l2. rewrite <- app_assoc. reflexivity.
  Qed.

  Lemma simple_rule : forall k n r v0 b ps, top kids "simpleType" k n -> l_named "restriction" n = [r] ->
    l_attr "base" r = Some v0 -> local_name v0 = b -> map (l_attr "value") (l_named "pattern" r) = map Some ps ->
    exists v, dget k (su_simpleType s) = Some v /\
      ((forall m, ~ top kids "simpleType" b m) -> sm_patterns v = ps /\ parse_simple E n = Ok v) /\
      (forall m, top kids "simpleType" b m -> before kids m n ->
         exists vb, dget b (su_simpleType s) = Some vb /\ sm_patterns v = ps ++ sm_patterns vb /\ sm_maxLength v = sm_maxLength vb) /\
      (forall m, top kids "simpleType" b m -> ~ before kids m n ->
         exists vb, parse_simple E m = Ok vb /\ sm_patterns v = ps ++ sm_patterns vb /\ sm_maxLength v = sm_maxLength vb).
  Proof.
    intros k n r v0 b ps Hk Hr Hb Eb Hp. destruct the_simple as (db & Hdb & ->).
    destruct (simple_types_read E sts [] db Hdb sts_names) as (K1 & _ & K3). cbn [dkeys map app] in K1.
    apply top_sts in Hk. destruct Hk as [Hn En]. destruct (K3 n k Hn En) as (v1 & Pv & Dv).
    destruct (parse_simple_read E n r v1 ps v0 Pv Hr Hb Hp) as [B1 B2]. rewrite Eb in B1.
    assert (ND := sts_names). rewrite K1.
    assert (KD : forall x y, dget x db = Some y -> exists m, top kids "simpleType" x m).
    { intros x y Hx. assert (X : dmem x db = true) by (rewrite dmem_dget, Hx; reflexivity). apply dmem_In in X. change (In x (dkeys db)) in X. rewrite K1 in X.
      apply in_flat_map in X. destruct X as (m & Hm & X). exists m. apply top_sts. split; [exact Hm|]. unfold name_of in X.
      destruct (l_attr "name" m); [|destruct X]. destruct X as [->|[]]. reflexivity. }
    assert (NB : (forall m, In m sts -> l_attr "name" m = Some b -> ~ before sts m n) ->
      match dget b db with
      | None => dget k (fold_left inherit (flat_map name_of sts) db) = Some v1
      | Some vb => dget k (fold_left inherit (flat_map name_of sts) db) = Some (mkSimple (sm_base vb) (sm_patterns v1 ++ sm_patterns vb) (sm_maxLength vb))
      end).
    { intros X. destruct (names_not_before n b k Hn En X) as (ks1 & ks2 & EK & Nb). rewrite EK in *.
      assert (Y := fold_inherit_at ks1 k ks2 db v1 ND Dv). cbn zeta in Y. rewrite B1 in Y. exact (proj2 Y Nb). }
    assert (YB : forall m, In m sts -> l_attr "name" m = Some b -> before sts m n ->
      match dget b (fold_left inherit (flat_map name_of sts) db) with
      | None => dget k (fold_left inherit (flat_map name_of sts) db) = Some v1
      | Some vb => dget k (fold_left inherit (flat_map name_of sts) db) = Some (mkSimple (sm_base vb) (sm_patterns v1 ++ sm_patterns vb) (sm_maxLength vb))
      end).
    { intros m Hm Em X. destruct (names_before m n b k Em En X) as (ks1 & ks2 & EK & Ib). rewrite EK in *.
      assert (Y := fold_inherit_at ks1 k ks2 db v1 ND Dv). cbn zeta in Y. rewrite B1 in Y. exact (proj1 Y Ib). }
    assert (EX : exists v, dget k (fold_left inherit (flat_map name_of sts) db) = Some v).
    { assert (X : dmem k (fold_left inherit (flat_map name_of sts) db) = true) by (rewrite fold_inherit_keys, dmem_dget, Dv; reflexivity).
      rewrite dmem_dget in X. destruct (dget k (fold_left inherit (flat_map name_of sts) db)); [eexists; reflexivity|discriminate]. }
    destruct EX as (v & Ev). exists v. split; [exact Ev|]. split; [|split].
    - intros N. assert (X := NB (fun m Hm Em => fun _ => N m (proj2 (top_sts b m) (conj Hm Em)))).
      destruct (dget b db) as [vb|] eqn:Eb2; [destruct (KD b vb Eb2) as (m & Hm); destruct (N m Hm)|]. split; congruence.
    - intros m Hm Bm. apply top_sts in Hm. destruct Hm as [Hm Em]. apply before_sts in Bm; [|exact Hm|exact Hn].
      assert (X := YB m Hm Em Bm). destruct (K3 m b Hm Em) as (vm & _ & Dm).
      assert (Z : dmem b (fold_left inherit (flat_map name_of sts) db) = true) by (rewrite fold_inherit_keys, dmem_dget, Dm; reflexivity).
      rewrite dmem_dget in Z. destruct (dget b (fold_left inherit (flat_map name_of sts) db)) as [vb|]; [|discriminate].
      exists vb. rewrite Ev in X. injection X as ->. cbn. rewrite B2. auto.
    - intros m Hm Bm. apply top_sts in Hm. destruct Hm as [Hm Em]. destruct (K3 m b Hm Em) as (vm & Pm & Dm).
      exists vm. split; [exact Pm|].
      assert (X : forall m', In m' sts -> l_attr "name" m' = Some b -> ~ before sts m' n).
      { intros m' Hm' Em' Y. assert (m' = m) by (apply (names_unique sts m' m b); auto). subst m'. apply Bm. apply before_sts; auto. }
      apply NB in X. rewrite Dm, Ev in X. injection X as ->. cbn. rewrite B2. auto.
  Qed.
End Rules.

(** ** A type that extends one declared later *)
Lemma filter_split : forall (f : lnode -> bool) l a x b, filter f l = a ++ x :: b -> exists p q, l = p ++ x :: q /\ filter f q = b.
Proof.
  intros f. induction l as [|y l IH]; intros a x b X; [destruct a; discriminate|]. cbn [filter] in X. destruct (f y).
  - destruct a as [|y' a]; [injection X as -> X; exists [], l; auto|]. injection X as -> X.
    destruct (IH _ _ _ X) as (p & q & -> & Q). exists (y' :: p), q. auto.
  - destruct (IH _ _ _ X) as (p & q & -> & Q). exists (y :: p), q. auto.
Qed.

Lemma enter_keys : forall n r d k, dmem k (match enter n r d with Some x => x | None => [] end) = true ->
  dmem k (match d with Some x => x | None => [] end) = true \/ l_attr "name" n = Some k.
Proof.
  intros n r d k H. unfold enter in H. destruct (l_attr "name" n) as [k0|]; [|left; exact H]. cbn [opt_set] in H.
  destruct (str_eq_dec k k0) as [->|N]; [right; reflexivity|left]. rewrite dmem_dget in *. rewrite dget_dset_other in H by auto. exact H.
Qed.
Lemma keys_attributeGroups : forall l c c', cat_attributeGroups l c = Ok c' -> forall k, dmem k (sdict c') = true ->
  dmem k (sdict c) = true \/ exists n, In n l /\ l_attr "name" n = Some k.
Proof.
  induction l as [|n l IH]; intros c c' H k Hk; cbn [cat_attributeGroups] in H; [injection H as <-; left; exact Hk|].
  match type of H with (dor z <- ?x ; _) = _ => destruct x; [|discriminate] end. cbn [rbind] in H.
  destruct (IH _ _ H k Hk) as [X|(m & Hm & X)]; [|right; exists m; split; [right; exact Hm|exact X]].
  unfold sdict in X. cbn [ca_schema] in X. apply enter_keys in X. destruct X as [X|X]; [left; exact X|right; exists n; split; [left; reflexivity|exact X]].
Qed.
Lemma keys_groups : forall l c c', cat_groups l c = Ok c' -> forall k, dmem k (sdict c') = true ->
  dmem k (sdict c) = true \/ exists n, In n l /\ l_attr "name" n = Some k.
Proof.
  induction l as [|n l IH]; intros c c' H k Hk; cbn [cat_groups] in H; [injection H as <-; left; exact Hk|].
  match type of H with (dor z <- ?x ; _) = _ => destruct x; [|discriminate] end. cbn [rbind] in H.
  match type of H with (dor z <- ?x ; _) = _ => destruct x as [sc|] eqn:ES; [|discriminate] end. cbn [rbind] in H.
  destruct (IH _ _ H k Hk) as [X|(m & Hm & X)]; [|right; exists m; split; [right; exact Hm|exact X]].
  unfold sdict in X. cbn [ca_schema] in X. unfold sdict. destruct (l_attr "name" n) as [k0|] eqn:En; [|injection ES as <-; left; exact X].
  destruct (ca_schema c) as [d|]; [|discriminate]. injection ES as <-.
  destruct (str_eq_dec k k0) as [->|N]; [right; exists n; split; [left; reflexivity|exact En]|left]. rewrite dmem_dget in *. rewrite dget_dset_other in X by auto. exact X.
Qed.
Lemma complexTypes_upto : forall l1 t l2 c c', cat_complexTypes (l1 ++ t :: l2) c = Ok c' -> l_attr "name" t <> None ->
  exists cm ch, ct_children cm t = Ok ch /\
    forall k, dmem k (sdict cm) = true -> dmem k (sdict c) = true \/ exists n, In n l1 /\ l_attr "name" n = Some k.
Proof.
  induction l1 as [|n l1 IH]; intros t l2 c c' H Nt; cbn [app cat_complexTypes] in H.
  - destruct (l_attr "name" t); [|contradiction]. destruct (ct_children c t) as [ch|e] eqn:E1; [|discriminate].
    exists c, ch. split; [exact E1|]. intros k Hk. left. exact Hk.
  - destruct (l_attr "name" n) as [k0|] eqn:En.
    + destruct (ct_children c n) as [ch0|e]; [|discriminate]. cbn [rbind] in H. destruct (IH _ _ _ _ H Nt) as (cm & ch & X1 & X2).
      exists cm, ch. split; [exact X1|]. intros k Hk. destruct (X2 k Hk) as [X|(m & Hm & X)]; [|right; exists m; split; [right; exact Hm|exact X]].
      unfold sdict in X. cbn [ca_schema] in X. apply enter_keys in X. destruct X as [X|X]; [left; exact X|right; exists n; split; [left; reflexivity|exact X]].
    + destruct (IH _ _ _ _ H Nt) as (cm & ch & X1 & X2). exists cm, ch. split; [exact X1|].
      intros k Hk. destruct (X2 k Hk) as [X|(m & Hm & X)]; [left; exact X|right; exists m; split; [right; exact Hm|exact X]].
Qed.
Lemma traverse_in : forall A B (f : A -> res B) l r, traverse f l = Ok r -> forall x, In x l -> exists y, f x = Ok y.
Proof.
  intros A B f. induction l as [|y l IH]; intros r Hr x Hx; [destruct Hx|]. cbn [traverse] in Hr.
  destruct (f y) as [v|e] eqn:E1; [|discriminate]. cbn [rbind] in Hr. destruct (traverse f l) as [vs|e] eqn:E2; [|discriminate].
  destruct Hx as [<-|Hx]; [exists v; exact E1|]. exact (IH vs eq_refl x Hx).
Qed.
Lemma extension_base : forall c t x b ch, ct_children c t = Ok ch -> extension t x -> l_attr "base" x = Some b ->
  dmem (local_name b) (sdict c) = true.
Proof.
  intros c t x b ch H (cc & rest & Hc & Hk & Hx) Hb. unfold ct_children in H.
  match type of H with (dor z <- ?y ; _) = _ => destruct y; [|discriminate] end. cbn [rbind] in H.
  destruct (traverse (ct_content c) (l_named "complexContent" t)) as [bb|] eqn:E1; [|discriminate].
  destruct (traverse_in _ _ _ _ _ E1 cc Hc) as (y & Hy). unfold ct_content in Hy. rewrite Hk in Hy.
  destruct x as [|tg ln at_ ks]; [discriminate|]. rewrite Hx in Hy. unfold ct_extension in Hy. rewrite Hb in Hy.
  unfold schema_children in Hy. unfold sdict. destruct (ca_schema c) as [d|]; [|discriminate]. unfold dgetitem in Hy. rewrite dmem_dget.
  destruct (dget (local_name b) d); [reflexivity|discriminate].
Qed.

Lemma base_first : forall E limit kids s, tidy kids -> nxdl_summary E limit kids = Ok s ->
  forall T t x b bt, top kids "complexType" T t -> extension t x -> l_attr "base" x = Some b ->
  top kids "complexType" (local_name b) bt -> before kids bt t.
Proof.
  intros E limit kids s TY OK T t x b bt Ht Hx Hb Hbt. unfold nxdl_summary in OK.
  destruct (read_catalog E kids) as [c|e] eqn:E1; [|discriminate]. clear OK. unfold read_catalog in E1.
  destruct (cat_simple E kids empty_catalog) as [c1|] eqn:C1; [|discriminate]. cbn [rbind] in E1.
  match type of E1 with (dor z <- ?x ; _) = _ => destruct x as [c2|] eqn:C2; [|discriminate] end. cbn [rbind] in E1.
  match type of E1 with (dor z <- ?x ; _) = _ => destruct x as [c3|] eqn:C3; [|discriminate] end. cbn [rbind] in E1.
  match type of E1 with (dor z <- ?x ; _) = _ => destruct x as [c4|] eqn:C4; [|discriminate] end. cbn [rbind] in E1.
  match type of E1 with (dor z <- ?x ; _) = _ => destruct x as [c5|] eqn:C5; [|discriminate] end. cbn [rbind] in E1.
  assert (It : In t (filter (l_is (py "complexType")) kids)) by (apply filter_In; split; apply Ht).
  apply in_split in It. destruct It as (l1 & l2 & EL). rewrite EL in E1.
  assert (Nt : l_attr "name" t <> None) by (destruct Ht as (_ & _ & X); rewrite X; discriminate).
  destruct (complexTypes_upto _ _ _ _ _ E1 Nt) as (cm & ch & H1 & H2).
  assert (M := extension_base _ _ _ _ _ H1 Hx Hb). destruct (H2 _ M) as [X|(n & Hn & X)].
  - exfalso. assert (NO : forall tag n, In tag ["simpleType"; "attributeGroup"; "group"] -> top kids tag (local_name b) n -> False).
    { intros tag n Htag Hn. destruct (top_unique kids TY "complexType" tag (local_name b) bt n) as [_ Y]; auto.
      - cbn; tauto.
      - destruct Htag as [<-|[<-|[<-|[]]]]; cbn; tauto.
      - destruct Htag as [<-|[<-|[<-|[]]]]; discriminate Y. }
    destruct (keys_groups _ _ _ C5 _ X) as [X4|(n & Hn & En)].
    + rewrite cat_elements_lines in C4. match type of C4 with (dor z <- ?x ; _) = _ => destruct x as [r4|]; [|discriminate] end. cbn [rbind] in C4. injection C4 as <-.
      change (dmem (local_name b) (sdict c3) = true) in X4.
      destruct (keys_attributeGroups _ _ _ C3 _ X4) as [X2|(n & Hn & En)].
      * rewrite cat_attributes_lines in C2. match type of C2 with (dor z <- ?x ; _) = _ => destruct x as [r2|]; [|discriminate] end. cbn [rbind] in C2. injection C2 as <-.
        change (dmem (local_name b) (sdict c1) = true) in X2.
        unfold cat_simple, all_simple_types in C1. fold (sts kids) in C1. destruct (simple_types E [] (sts kids)) as [db|] eqn:Es; [|discriminate]. cbn [rbind] in C1.
        assert (Y : dmem (local_name b) (fold_left inherit (dkeys db) db) = true).
        { destruct (sts kids); injection C1 as <-; [discriminate X2|]. unfold sdict in X2. cbn [ca_schema] in X2. rewrite dmem_dget, dget_simple_refs in X2.
          destruct (dmem (local_name b) (fold_left inherit (dkeys db) db)); [reflexivity|discriminate]. }
        rewrite fold_inherit_keys in Y. destruct (simple_types_keys _ _ _ _ Es _ Y) as [Z|(n & Hn & En)]; [discriminate|].
        apply (NO "simpleType" n); [cbn; tauto|]. apply top_sts. auto.
      * apply filter_In in Hn. apply (NO "attributeGroup" n); [cbn; tauto|]. split; [apply Hn|]. split; [apply Hn|exact En].
    + apply (NO "group" n); [cbn; tauto|]. split; [|split; [|exact En]].
      * apply (t_groups _ TY n Hn). rewrite En. discriminate.
      * unfold l_anywhere in Hn. apply filter_In in Hn. apply Hn.
  - assert (Hn2 : In n (filter (l_is (py "complexType")) kids)) by (rewrite EL; apply in_or_app; left; exact Hn).
    apply filter_In in Hn2. destruct (top_unique kids TY "complexType" "complexType" (local_name b) bt n) as [Y _]; auto; try (cbn; tauto).
    { split; [apply Hn2|]. split; [apply Hn2|exact X]. }
    subst n. apply in_split in Hn. destruct Hn as (p & q & ->). rewrite <- app_assoc in EL. cbn [app] in EL.
    destruct (filter_split _ _ _ _ _ EL) as (p1 & q1 & -> & Q). destruct (filter_split _ _ _ _ _ Q) as (p2 & q2 & -> & _).
    exists p1, p2, q2. reflexivity.
Qed.
