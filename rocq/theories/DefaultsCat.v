(** * The catalogue of nxdl.xsd: what its sections contain *)

From Coq Require Import List NArith ZArith Bool String Lia.
From Verif Require Import PyBase PyFacts InstallFacts CliFacts TreeFacts H5 SchemaMgr NxdlSchema Spec_Defaults DefaultsHeap DefaultsParse.
Import ListNotations.
Open Scope string_scope.
Open Scope list_scope.

(** ** Lines *)
Lemma line_get_same : forall n i l, line_get n (line_set n i l) = Some i.
Proof. intros n i l. unfold line_get, line_set. apply aget_aset_same. intros. apply N.eqb_eq. Qed.
Lemma line_get_other : forall n m i l, l_line m <> l_line n -> line_get n (line_set m i l) = line_get n l.
Proof. intros n m i l H. unfold line_get, line_set. apply aget_aset_other; auto. intros. apply N.eqb_eq. Qed.

Fixpoint parse_lines (f : lnode -> heap -> res (heap * nat)) (l : list lnode) (h : heap) (sec : list (N * nat)) :
    res (heap * list (N * nat)) :=
  match l with
  | [] => Ok (h, sec)
  | n :: rest => dor r <- f n h ; parse_lines f rest (fst r) (line_set n (snd r) sec)
  end.

Lemma cat_attributes_lines : forall l c, cat_attributes l c =
  dor r <- parse_lines new_sattr l (ca_heap c) (ca_attribute c) ;
  Ok (mkCat (fst r) (ca_schema c) (ca_simple c) (snd r) (ca_element c) (ca_group c)).
Proof.
  induction l as [|n l IH]; intros c; cbn [cat_attributes parse_lines].
  - cbn. destruct c; reflexivity.
  - destruct (new_sattr n (ca_heap c)) as [r|e]; [|reflexivity]. cbn [rbind]. rewrite IH. reflexivity.
Qed.
Lemma cat_elements_lines : forall l c, cat_elements l c =
  dor r <- parse_lines new_selem l (ca_heap c) (ca_element c) ;
  Ok (mkCat (fst r) (ca_schema c) (ca_simple c) (ca_attribute c) (snd r) (ca_group c)).
Proof.
  induction l as [|n l IH]; intros c; cbn [cat_elements parse_lines].
  - cbn. destruct c; reflexivity.
  - destruct (new_selem n (ca_heap c)) as [r|e]; [|reflexivity]. cbn [rbind]. rewrite IH. reflexivity.
Qed.

Lemma parse_lines_keeps : forall f l h sec r n, parse_lines f l h sec = Ok r -> ~ In (l_line n) (map l_line l) ->
  line_get n (snd r) = line_get n sec.
Proof.
  intros f l. induction l as [|m l IH]; intros h sec r n Hr Hn; cbn [parse_lines] in Hr.
  - injection Hr as <-. reflexivity.
  - destruct (f m h) as [r1|e] eqn:E1; [|discriminate]. cbn [rbind] in Hr.
    rewrite (IH _ _ _ n Hr); [|intros X; apply Hn; right; exact X].
    apply line_get_other. intros E. apply Hn. left. exact E.
Qed.

Definition sdict (c : catalog) : dict schemaref := match ca_schema c with Some d => d | None => [] end.
Definition tdict (c : catalog) : dict simple := match ca_simple c with Some d => d | None => [] end.

Section Catalog.
  Variable kids : list lnode.
  Definition doc : list lnode := flat_map l_all kids.

  Lemma doc_inside : forall n m, In n doc -> inside n m -> In m doc.
  Proof.
    intros n m Hn Hm. unfold doc in *. apply in_flat_map in Hn. destruct Hn as (k & Hk & Hn).
    apply in_flat_map. exists k. split; [exact Hk|]. eapply all_trans; [exact Hn|]. apply inside_all. exact Hm.
  Qed.
  Lemma kid_doc : forall tag n, In n kids -> l_is tag n = true -> In n doc.
  Proof. intros tag n H1 H2. apply in_flat_map. exists n. split; [exact H1|]. exact (l_is_all tag n H2). Qed.

  Record Core (h : heap) (g : list lnode) (w : list nat) : Prop := {
    k_len : List.length g = List.length h;
    k_wlen : List.length w = List.length h;
    k_obj : forall i o, nth_error h i = Some o ->
      fresh (org g i) o /\ map (org g) (so_children o) = inline (org g i) /\
      (forall c, In c (so_children o) -> c < i /\ nth c w 0 = nth i w 0);
    k_own : forall i, i < List.length h -> i <= nth i w 0;
    k_in : forall i, i < List.length h -> In (org g i) doc
  }.

  Lemma core_nil : Core [] [] [].
  Proof.
    constructor; cbn; auto; try (intros; lia).
    intros i o H. destruct i; discriminate.
  Qed.

  Lemma nth_repeat_in : forall (x : nat) m i, i < m -> nth i (repeat x m) 0 = x.
  Proof. intros x m. induction m as [|m IH]; intros [|i] H; cbn; try lia; auto. apply IH. lia. Qed.

  Lemma core_block : forall h g w a b, Core h g w -> block h g a b ->
    (forall i, List.length h <= i < List.length (h ++ a) -> In (org (g ++ b) i) doc) ->
    Core (h ++ a) (g ++ b) (w ++ repeat (List.length h + List.length a - 1) (List.length a)).
  Proof.
    intros h g w a b C B D. assert (L := k_len _ _ _ C). assert (Lw := k_wlen _ _ _ C). assert (Lb := b_len _ _ _ _ B).
    assert (W1 : forall i v, i < List.length h -> nth i (w ++ v) 0 = nth i w 0) by (intros i v Hi; apply app_nth1; lia).
    assert (W2 : forall i, List.length h <= i < List.length (h ++ a) ->
               nth i (w ++ repeat (List.length h + List.length a - 1) (List.length a)) 0 = List.length h + List.length a - 1).
    { intros i Hi. rewrite app_length in Hi. rewrite app_nth2 by lia. apply nth_repeat_in. lia. }
    constructor.
    - rewrite !app_length. lia.
    - rewrite !app_length, repeat_length. lia.
    - intros i o Ho. destruct (Nat.lt_ge_cases i (List.length h)) as [Li|Li].
      + rewrite nth_error_app1 in Ho by exact Li. destruct (k_obj _ _ _ C i o Ho) as (F & M & Hc).
        rewrite org_app by lia. split; [exact F|]. split.
        * rewrite map_org_app; [exact M|]. intros c X. apply Hc in X. lia.
        * intros c X. apply Hc in X. rewrite !W1 by lia. exact X.
      + assert (Li2 := nth_error_lt _ _ _ Ho). destruct (b_obj _ _ _ _ B i o Li Ho) as (F & M & Hc).
        split; [exact F|]. split; [exact M|]. intros c X. apply Hc in X. split; [lia|]. rewrite !W2 by lia. reflexivity.
    - intros i Hi. destruct (Nat.lt_ge_cases i (List.length h)) as [Li|Li].
      + rewrite W1 by exact Li. exact (k_own _ _ _ C i Li).
      + rewrite W2 by lia. rewrite app_length in Hi. lia.
    - intros i Hi. destruct (Nat.lt_ge_cases i (List.length h)) as [Li|Li].
      + rewrite org_app by lia. exact (k_in _ _ _ C i Li).
      + apply D. lia.
  Qed.

  (** the object of a node, found by its line *)
  Definition registered (g : list lnode) (w : list nat) (sec : list (N * nat)) (n : lnode) (i : nat) : Prop :=
    line_get n sec = Some i /\ i < List.length g /\ org g i = n /\ nth i w 0 = i.
  Lemma registered_more : forall g w b v sec n i, List.length w = List.length g ->
    registered g w sec n i -> registered (g ++ b) (w ++ v) sec n i.
  Proof.
    intros g w b v sec n i L (A & B & C & D). repeat split; auto.
    - rewrite app_length. lia.
    - rewrite org_app by exact B. exact C.
    - rewrite app_nth1 by lia. exact D.
  Qed.

  Lemma parse_lines_ok : forall f l, (forall n, In n l -> parses f n /\ In n doc) -> NoDup (map l_line l) ->
    forall h g w sec r, Core h g w -> parse_lines f l h sec = Ok r ->
    exists a b v, fst r = h ++ a /\ Core (h ++ a) (g ++ b) (w ++ v) /\
      (forall n, In n l -> exists i, registered (g ++ b) (w ++ v) (snd r) n i) /\
      (forall i, List.length h <= i < List.length (h ++ a) ->
         exists n, In n l /\ (registered (g ++ b) (w ++ v) (snd r) n i \/ inside n (org (g ++ b) i))).
  Proof.
    intros f l. induction l as [|n l IH]; intros HP ND h g w sec r C Hr; cbn [parse_lines] in Hr.
    - injection Hr as <-. exists [], [], []. cbn [fst]. rewrite !app_nil_r. split; [reflexivity|]. split; [exact C|].
      split; [intros n []|]. intros i Hi. lia.
    - destruct (f n h) as [r1|e] eqn:E1; [|discriminate]. cbn [rbind] in Hr.
      destruct (HP n (or_introl eq_refl)) as [Pn Dn].
      destruct (Pn h g r1 (k_len _ _ _ C) E1) as (a & b & Ea & Ba & Oa & Sa & La & Ia).
      set (v := repeat (List.length h + List.length a - 1) (List.length a)).
      assert (C1 : Core (h ++ a) (g ++ b) (w ++ v)).
      { apply core_block; auto. intros i Hi. destruct (Nat.eq_dec i (snd r1)) as [->|N].
        - rewrite Oa. exact Dn.
        - eapply doc_inside; [exact Dn|]. apply Ia. lia. }
      rewrite Ea in Hr. cbn [map] in ND. inversion ND as [|x y ND1 ND2]; subst x y.
      assert (Hr0 := Hr).
      destruct (IH (fun m Hm => HP m (or_intror Hm)) ND2 _ _ _ _ _ C1 Hr) as (a2 & b2 & v2 & Ea2 & C2 & R2 & I2).
      assert (L1 := k_len _ _ _ C1). assert (Lw1 := k_wlen _ _ _ C1).
      assert (Rn : registered ((g ++ b) ++ b2) ((w ++ v) ++ v2) (snd r) n (snd r1)).
      { repeat split.
        - rewrite (parse_lines_keeps _ _ _ _ _ n Hr0 ND1). apply line_get_same.
        - rewrite app_length. lia.
        - rewrite org_app by lia. exact Oa.
        - rewrite app_nth1 by lia. unfold v. rewrite app_length in Sa. rewrite app_nth2 by (rewrite (k_wlen _ _ _ C); lia).
          rewrite nth_repeat_in; rewrite ?(k_wlen _ _ _ C); lia. }
      exists (a ++ a2), (b ++ b2), (v ++ v2). rewrite !app_assoc. split; [exact Ea2|]. split; [exact C2|]. split.
      + intros m [<-|Hm]; [exists (snd r1); exact Rn|exact (R2 m Hm)].
      + intros i Hi. destruct (Nat.lt_ge_cases i (List.length (h ++ a))) as [Li|Li].
        * exists n. split; [left; reflexivity|]. destruct (Nat.eq_dec i (snd r1)) as [->|N]; [left; exact Rn|].
          right. rewrite org_app by lia. apply Ia. lia.
        * destruct (I2 i ltac:(lia)) as (m & Hm & X). exists m. split; [right; exact Hm|exact X].
  Qed.

  (** ** Attribute groups *)
  Lemma enter_sdict : forall n r c h s a e g,
    sdict (mkCat h (enter n r (ca_schema c)) s a e g) =
    match l_attr "name" n with Some k => dset k r (sdict c) | None => sdict c end.
  Proof.
    intros n r c h s a e g. unfold sdict, enter. cbn. destruct (l_attr "name" n); cbn; destruct (ca_schema c); reflexivity.
  Qed.
  Lemma dmem_dset_mono : forall V k k' (v : V) d, dmem k d = true -> dmem k (dset k' v d) = true.
  Proof.
    intros V k k' v d H. rewrite dmem_dget in *. rewrite dget_dset. destruct (str_eqb k k'); [reflexivity|exact H].
  Qed.
  Lemma dmem_dset_same : forall V k (v : V) d, dmem k (dset k v d) = true.
  Proof. intros V k v d. rewrite dmem_dget, dget_dset_same. reflexivity. Qed.

  Lemma attributeGroups_ok : forall l, (forall n, In n l -> In n doc) ->
    forall c g w c', Core (ca_heap c) g w -> cat_attributeGroups l c = Ok c' ->
    exists a b v, ca_heap c' = ca_heap c ++ a /\ Core (ca_heap c') (g ++ b) (w ++ v) /\
      ca_simple c' = ca_simple c /\ ca_attribute c' = ca_attribute c /\ ca_element c' = ca_element c /\ ca_group c' = ca_group c /\
      (forall i, List.length (ca_heap c) <= i < List.length (ca_heap c') -> l_is (py "attribute") (org (g ++ b) i) = true) /\
      (forall k x, dget k (sdict c') = Some x -> dget k (sdict c) = Some x \/
         exists n ids, In n l /\ l_attr "name" n = Some k /\ x = RList ids /\
           map (org (g ++ b)) ids = l_named "attribute" n /\ (forall i, In i ids -> i < List.length (ca_heap c'))) /\
      (forall k, dmem k (sdict c) = true -> dmem k (sdict c') = true) /\
      (forall n k, In n l -> l_attr "name" n = Some k -> dmem k (sdict c') = true).
  Proof.
    induction l as [|n l IH]; intros HD c g w c' C Hr; cbn [cat_attributeGroups] in Hr.
    - injection Hr as <-. exists [], [], []. rewrite !app_nil_r. split; [reflexivity|]. split; [exact C|].
      do 4 (split; [reflexivity|]). split; [intros i Hi; lia|]. split; [intros k x H; left; exact H|].
      split; [intros k H; exact H|]. intros n k [].
    - destruct (alloc_all new_sattr (l_named "attribute" n) (ca_heap c)) as [r|e] eqn:E1; [|discriminate]. cbn [rbind] in Hr.
      destruct (alloc_all_parses new_sattr _ (fun x Hx => conj (new_sattr_parses x (proj2 (named_inside _ _ _ Hx)))
                  (ex_intro _ _ (proj2 (named_inside _ _ _ Hx)))) _ g r (k_len _ _ _ C) E1) as (a & b & Ea & Ba & Oa & Sa & Ia).
      set (v := repeat (List.length (ca_heap c) + List.length a - 1) (List.length a)).
      assert (Dn := HD n (or_introl eq_refl)).
      assert (C1 : Core (ca_heap c ++ a) (g ++ b) (w ++ v)).
      { apply core_block; auto. intros i Hi. destruct (Ia i Hi) as (x & Hx & Hx2).
        apply named_inside in Hx. eapply doc_inside; [exact Dn|]. eapply inside_trans; [apply Hx|exact Hx2]. }
      (* every new object is one of the attributes *)
      assert (NEW : forall i, List.length (ca_heap c) <= i < List.length (ca_heap c ++ a) ->
                l_is (py "attribute") (org (g ++ b) i) = true).
      { clear Hr IH C1 Ba Ia v. revert E1 Oa Sa Ea. generalize (k_len _ _ _ C). clear C Dn HD. revert g.
        assert (AT : forall x, In x (l_named "attribute" n) -> l_is (py "attribute") x = true).
        { intros x Hx. apply named_inside in Hx. apply Hx. }
        revert AT. generalize (l_named "attribute" n) as L. generalize (ca_heap c) as h.
        intros h L. revert h a b r. induction L as [|x L IHL]; intros h a b r AT g Lg E1 Oa Sa Ea.
        - cbn in E1. injection E1 as <-. cbn in Ea.
          assert (a = []) by (apply (app_inv_head h); rewrite app_nil_r; auto). subst a. rewrite app_nil_r. intros i Hi. lia.
        - cbn [alloc_all] in E1. unfold new_sattr at 1 in E1. destruct (parse_sattr x) as [o|e] eqn:Ex; [|discriminate].
          cbn [rbind alloc fst snd] in E1.
          destruct (alloc_all new_sattr L (h ++ [o])) as [r2|e] eqn:E2; [|discriminate]. cbn [rbind fst snd] in E1.
          injection E1 as <-. cbn [fst snd] in *.
          destruct (alloc_all_parses new_sattr L (fun y Hy => conj (new_sattr_parses y (AT y (or_intror Hy)))
                      (ex_intro _ _ (AT y (or_intror Hy)))) (h ++ [o]) (g ++ [x]) r2
                      ltac:(rewrite !app_length; cbn; lia) E2) as (a2 & b2 & Ea2 & _ & _ & Sa2 & _).
          rewrite Ea2, <- app_assoc in Ea. apply app_inv_head in Ea.
          cbn [map] in Oa. injection Oa as O1 O2.
          intros i Hi. destruct (Nat.eq_dec i (List.length h)) as [->|N].
          { rewrite O1. apply AT. left. reflexivity. }
          (* the others, by induction with the same origins *)
          destruct b as [|y b].
          { exfalso. rewrite <- Lg in O1. unfold org in O1. rewrite nth_overflow in O1 by (rewrite app_nil_r; lia).
            assert (X := AT x (or_introl eq_refl)). rewrite <- O1 in X. discriminate. }
          assert (Y : g ++ y :: b = (g ++ [y]) ++ b) by (rewrite <- app_assoc; reflexivity).
          rewrite Y in *. apply (IHL (h ++ [o]) a2 b r2 (fun z Hz => AT z (or_intror Hz)) (g ++ [y])).
          + rewrite !app_length. cbn. lia.
          + exact E2.
          + exact O2.
          + exact Sa2.
          + exact Ea2.
          + rewrite <- Ea in Hi. rewrite app_assoc in Hi. rewrite !app_length in *. cbn in *. lia. }
      rewrite Ea in Hr.
      match type of Hr with cat_attributeGroups _ ?x = _ =>
        destruct (IH (fun m Hm => HD m (or_intror Hm)) x (g ++ b) (w ++ v) c' C1 Hr)
        as (a2 & b2 & v2 & Ea2 & C2 & S2 & A2 & E2 & G2 & N2 & D2 & M2 & M3) end.
      cbn [ca_heap ca_simple ca_attribute ca_element ca_group] in *.
      assert (L1 := k_len _ _ _ C1). assert (L2 := k_len _ _ _ C2).
      exists (a ++ a2), (b ++ b2), (v ++ v2). rewrite !app_assoc. split; [exact Ea2|]. split; [exact C2|].
      do 4 (split; [assumption|]). split; [|split; [|split]].
      + intros i Hi. destruct (Nat.lt_ge_cases i (List.length (ca_heap c ++ a))) as [Li|Li].
        * rewrite org_app by lia. apply NEW. lia.
        * apply N2. lia.
      + intros k x Hx. destruct (D2 k x Hx) as [D|(m & ids & Hm & X)].
        * rewrite enter_sdict in D. destruct (l_attr "name" n) as [kn|] eqn:En; [|left; exact D].
          rewrite dget_dset in D. destruct (str_eqb k kn) eqn:Ek; [|left; exact D].
          apply str_eqb_eq in Ek. subst kn. injection D as <-. right. exists n, (snd r).
          split; [left; reflexivity|]. split; [exact En|]. split; [reflexivity|]. split.
          -- rewrite map_org_app; [exact Oa|]. intros i Hi. apply Sa in Hi. lia.
          -- intros i Hi. apply Sa in Hi. rewrite Ea2, !app_length in *. lia.
        * right. exists m, ids. split; [right; exact Hm|exact X].
      + intros k Hk. apply M2. rewrite enter_sdict. destruct (l_attr "name" n); [apply dmem_dset_mono|]; exact Hk.
      + intros m k [<-|Hm] Hk; [|exact (M3 m k Hm Hk)]. apply M2. rewrite enter_sdict, Hk. apply dmem_dset_same.
  Qed.

  (** ** Groups *)
  Lemma groups_ok : forall l c c', NoDup (map l_line l) -> cat_groups l c = Ok c' ->
    exists r, parse_lines new_sgroup l (ca_heap c) (ca_group c) = Ok r /\
      ca_heap c' = fst r /\ ca_group c' = snd r /\
      ca_simple c' = ca_simple c /\ ca_attribute c' = ca_attribute c /\ ca_element c' = ca_element c /\
      (forall k x, dget k (sdict c') = Some x -> dget k (sdict c) = Some x \/
         exists n i, In n l /\ l_attr "name" n = Some k /\ x = RGroup i /\ line_get n (snd r) = Some i) /\
      (forall k, dmem k (sdict c) = true -> dmem k (sdict c') = true) /\
      (forall n k, In n l -> l_attr "name" n = Some k -> dmem k (sdict c') = true).
  Proof.
    induction l as [|n l IH]; intros c c' ND Hr; cbn [cat_groups] in Hr; cbn [parse_lines].
    - injection Hr as <-. eexists. split; [reflexivity|]. cbn [fst snd]. do 5 (split; [reflexivity|]).
      split; [intros k x H; left; exact H|]. split; [auto|]. intros n k [].
    - destruct (new_sgroup n (ca_heap c)) as [r1|e] eqn:E1; [|discriminate]. cbn [rbind] in *.
      cbn [map] in ND. inversion ND as [|x y ND1 ND2]; subst x y.
      assert (X : exists s, sdict (mkCat [] s None [] [] []) =
                    match l_attr "name" n with Some k => dset k (RGroup (snd r1)) (sdict c) | None => sdict c end /\
                  cat_groups l (mkCat (fst r1) s (ca_simple c) (ca_attribute c) (ca_element c)
                    (line_set n (snd r1) (ca_group c))) = Ok c').
      { unfold sdict. destruct (l_attr "name" n) as [k|]; destruct (ca_schema c) as [d|]; cbn [rbind] in Hr; try discriminate;
          eexists; (split; [|exact Hr]; reflexivity). }
      destruct X as (s & Es & Hr'). clear Hr.
      destruct (IH _ _ ND2 Hr') as (r & Er & A1 & A2 & A3 & A4 & A5 & A6 & A7 & A8).
      cbn [ca_heap ca_simple ca_attribute ca_element ca_group] in *.
      change (sdict (mkCat (fst r1) s (ca_simple c) (ca_attribute c) (ca_element c) (line_set n (snd r1) (ca_group c))))
        with (sdict (mkCat [] s None [] [] [])) in *. rewrite Es in *.
      exists r. split; [exact Er|]. do 5 (split; [assumption|]). split; [|split].
      + intros k x Hx. destruct (A6 k x Hx) as [D|(m & i & Hm & Y)].
        * destruct (l_attr "name" n) as [kn|] eqn:En; [|left; exact D].
          rewrite dget_dset in D. destruct (str_eqb k kn) eqn:Ek; [|left; exact D].
          apply str_eqb_eq in Ek. subst kn. injection D as <-. right. exists n, (snd r1).
          split; [left; reflexivity|]. split; [exact En|]. split; [reflexivity|].
          rewrite (parse_lines_keeps _ _ _ _ _ n Er ND1). apply line_get_same.
        * right. exists m, i. split; [right; exact Hm|exact Y].
      + intros k Hk. apply A7. destruct (l_attr "name" n); [apply dmem_dset_mono|]; exact Hk.
      + intros m k [<-|Hm] Hk; [|exact (A8 m k Hm Hk)]. apply A7. rewrite Hk. apply dmem_dset_same.
  Qed.
End Catalog.
