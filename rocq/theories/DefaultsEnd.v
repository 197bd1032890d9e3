(** * The summary of nxdl.xsd: the attributes of its parts *)

From Coq Require Import List NArith ZArith Bool String Lia.
From Verif Require Import PyBase PyFacts InstallFacts CliFacts TreeFacts H5 SchemaMgr NxdlSchema Spec_Defaults
  DefaultsHeap DefaultsParse DefaultsCat DefaultsTypes DefaultsSummary.
Import ListNotations.
Open Scope string_scope.
Open Scope list_scope.

(** ** Dictionaries of children *)
Definition part_name (K : okind) (o : sobj) : pystr :=
  match so_name o with Some [] | None => anonymous K | Some s => s end.
Lemma okind_eqb_eq : forall a b, okind_eqb a b = true <-> a = b.
Proof. intros [] []; cbn; split; congruence. Qed.

Section Kids.
  Variables (K : okind) (h : heap).
  Let step := fun (d : dict nat) j =>
      match nth_error h j with
      | Some o =>
          if okind_eqb (so_kind o) K then
            dset (match so_name o with Some [] | None => anonymous K | Some s => s end) j d
          else d
      | None => d
      end.
  Lemma kids_get_fold : forall cs d k j, dget k (fold_left step cs d) = Some j ->
    dget k d = Some j \/ (In j cs /\ exists o, nth_error h j = Some o /\ so_kind o = K /\ part_name K o = k).
  Proof.
    induction cs as [|c cs IH]; intros d k j H; cbn in H; [left; exact H|].
    destruct (IH _ _ _ H) as [X|[X Y]]; [|right; split; [right; exact X|exact Y]].
    unfold step in X. destruct (nth_error h c) as [o|] eqn:E; [|left; exact X].
    destruct (okind_eqb (so_kind o) K) eqn:Ek; [|left; exact X].
    apply okind_eqb_eq in Ek. rewrite dget_dset in X.
    destruct (str_eqb k (match so_name o with Some [] | None => anonymous K | Some s => s end)) eqn:En; [|left; exact X].
    apply str_eqb_eq in En. injection X as <-. right. split; [left; reflexivity|]. exists o. repeat split; auto.
  Qed.
  Lemma kids_has_fold : forall cs d k, (exists j, dget k d = Some j) \/
    (exists j o, In j cs /\ nth_error h j = Some o /\ so_kind o = K /\ part_name K o = k) ->
    exists j, dget k (fold_left step cs d) = Some j.
  Proof.
    induction cs as [|c cs IH]; intros d k H; cbn.
    - destruct H as [H|(j & o & [] & _)]. exact H.
    - apply IH. destruct H as [(j & H)|(j & o & [->|Hj] & Ho & Hk & Hn)].
      + left. unfold step. destruct (nth_error h c) as [o|]; [|eauto]. destruct (okind_eqb (so_kind o) K); [|eauto].
        rewrite dget_dset. destruct (str_eqb k _); eauto.
      + left. unfold step. rewrite Ho. rewrite (proj2 (okind_eqb_eq _ _) Hk). exists j. rewrite dget_dset.
        assert (X : str_eqb k (match so_name o with Some [] | None => anonymous K | Some s => s end) = true)
          by (apply str_eqb_eq; rewrite <- Hn; reflexivity).
        rewrite X. reflexivity.
      + right. exists j, o. auto.
  Qed.
  Lemma kids_get : forall i k j, dget k (kids_of K h i) = Some j ->
    In j (children_at h i) /\ exists o, nth_error h j = Some o /\ so_kind o = K /\ part_name K o = k.
  Proof.
    intros i k j H. unfold kids_of in H. destruct (kids_get_fold _ _ _ _ H) as [X|X]; [discriminate|exact X].
  Qed.
  Lemma kids_has : forall i j o, In j (children_at h i) -> nth_error h j = Some o -> so_kind o = K ->
    exists j', dget (part_name K o) (kids_of K h i) = Some j'.
  Proof. intros i j o H1 H2 H3. apply kids_has_fold. right. exists j, o. auto. Qed.
End Kids.

Lemma anonymous_of_name : forall K (o : sobj) k, part_name K o = k -> k <> [] ->
  so_name o = Some k \/ (k = anonymous K /\ (so_name o = None \/ so_name o = Some [])).
Proof.
  intros K o k H Hk. unfold part_name in H. destruct (so_name o) as [[|x s]|]; subst k; auto.
Qed.
Lemma first_value_kids : forall K h i j, first_value (kids_of K h i) = Ok j -> exists k, dget k (kids_of K h i) = Some j.
Proof.
  intros K h i j H. destruct (kids_of K h i) as [|[k v] r]; [discriminate|]. cbn in H. injection H as <-.
  exists k. unfold dget. cbn. assert (X : str_eqb k k = true) by (apply str_eqb_eq; reflexivity). rewrite X. reflexivity.
Qed.
Lemma dgetitem_ok : forall V k (d : dict V) v, dgetitem k d = Ok v -> dget k d = Some v.
Proof. intros V k d v H. unfold dgetitem in H. destruct (dget k d); [injection H as <-; reflexivity|discriminate]. Qed.
Lemma local_cases : forall n k, key_of n = Some k ->
  refers n k \/ (kind_of n = KAttribute /\ k = py "NX_CHAR") \/ (kind_of n = KElement /\ k = py "str").
Proof.
  intros n k H. unfold key_of in H. destruct (kind_of n).
  - destruct (l_attr "type" n) as [v|] eqn:E; injection H as <-; [left; left; exists v; auto|right; left; auto].
  - destruct (l_attr "type" n) as [v|] eqn:E; injection H as <-; [left; left; exists v; auto|right; right; auto].
  - destruct (l_attr "ref" n) as [v|] eqn:E; [|discriminate]. cbn in H. injection H as <-. left. right. left. exists v. auto.
Qed.

Section Final.
  Variables (E : env) (limit : nat) (kids : list lnode) (defn t gr G : lnode) (D : pystr) (s : summary).
  Hypothesis TY : tidy kids.
  Hypothesis DB : defined_by kids defn t gr G D.

  Lemma defn_kid : In defn kids /\ l_is (py "element") defn = true.
  Proof. apply filter_In. rewrite (db_element _ _ _ _ _ _ DB). left. reflexivity. Qed.

  Section WithCatalog.
    Variables (c : catalog) (g : list lnode) (w : list nat) (d : nat) (ch : list nat).
    Hypothesis CO : CatOk kids defn c g w.
    Hypothesis Hd : by_line (ca_element c) defn = Ok d.
    Hypothesis Hch : schema_children c D = Ok ch.

    Let own := fun i => nth i w 0.
    Let P := fun i => In i ch /\ kind_of (org g i) <> KAttribute.
    Let h0 := hupd (fun p => so_set_children (so_children p ++ ch) p) d (ca_heap c).

    Lemma reg_d : registered g w (ca_element c) defn d.
    Proof.
      destruct defn_kid as [K1 K2].
      destruct (w_element _ _ _ _ _ CO defn) as (i & Hi).
      { apply anywhere_in; [|exact K2]. exact (kid_doc kids _ _ K1 K2). }
      unfold by_line in Hd. destruct Hi as (A & B). rewrite A in Hd. injection Hd as <-. split; [exact A|exact B].
    Qed.
    Lemma ch_ok : ct_ok kids g w D t ch.
    Proof.
      refine (complexType_entry kids TY g w c (w_entry _ _ _ _ _ CO) D ch t (db_complexType _ _ _ _ _ _ DB) Hch).
    Qed.
    Lemma not_extended : ~ extended kids D.
    Proof.
      intros (S & u & x & b & Hu & Hx & Hb & Hl).
      assert (X : x = defn).
      { apply (db_only _ _ _ _ _ _ DB).
        - destruct Hx as (cc & rest & Hcc & Hk & Hx). apply named_inside in Hcc.
          apply (doc_inside kids u); [exact (top_doc kids _ _ _ Hu)|].
          eapply inside_trans; [apply Hcc|]. apply inside_all. unfold inside. rewrite Hk. cbn. apply in_or_app. left. exact (l_is_all _ _ Hx).
        - right. right. exists b. auto. }
      destruct Hx as (cc & rest & _ & _ & Hx). rewrite X in Hx. discriminate (l_is_tag _ _ _ Hx (proj2 defn_kid)).
    Qed.
    (** elements and groups in the content of the definition type are in its declaration *)
    Lemma P_inside : forall i, P i -> inside t (org g i) /\ i < List.length g /\ own i = i.
    Proof.
      intros i [Hi Hk]. destruct (ct_other _ _ _ _ _ _ ch_ok i Hi Hk) as [A (T' & t' & Ht & Hin & Hor)].
      split; [|split; [exact (ct_lt _ _ _ _ _ _ ch_ok i Hi)|exact A]].
      destruct Hor as [->|X].
      - destruct (top_unique kids TY "complexType" "complexType" D t' t) as [X _]; try (cbn; tauto); auto.
        + exact (db_complexType _ _ _ _ _ _ DB).
        + rewrite <- X. exact Hin.
      - destruct (list_eq_dec N.eq_dec T' D) as [->|N]; [exfalso; exact (not_extended X)|].
        (* an extended type other than D: then D's declaration extends it, but D extends nothing *)
        exfalso. revert Hin Ht X N. clear A.
        destruct (ct_shape _ _ _ _ _ _ ch_ok) as (B & R & M & HB & HR).
        rewrite (HB (db_content _ _ _ _ _ _ DB)) in M. cbn [app] in M.
        intros Hin Ht X N.
        assert (Ho : In (org g i) (map (org g) ch)) by (apply in_map; exact Hi). rewrite M in Ho.
        assert (Hit : inside t (org g i) /\ (l_is (py "element") (org g i) = true \/ l_is (py "group") (org g i) = true)).
        { repeat (apply in_app_or in Ho; destruct Ho as [Ho|Ho]).
          - apply in_flat_map in Ho. destruct Ho as (sq & Hs & Hx). apply named_inside in Hs. unfold seq_nodes in Hx.
            apply in_app_or in Hx. destruct Hx as [Hx|Hx]; apply named_inside in Hx; (split; [|tauto]);
              (eapply inside_trans; [apply Hs|apply inside_all; apply Hx]).
          - apply named_inside in Ho. tauto.
          - apply named_inside in Ho. exfalso. apply Hk, kind_attribute, Ho.
          - exfalso. apply Hk, kind_attribute, HR. exact Ho. }
        destruct Hit as [Hit Htag].
        assert (Ne : t <> t').
        { intros <-. apply N. destruct Ht as (_ & _ & Ht). assert (Y := db_complexType _ _ _ _ _ _ DB). destruct Y as (_ & _ & Y). congruence. }
        destruct Htag as [Htag|Htag].
        + apply (two_kids kids "element" t t' (org g i) (t_lines _ TY "element" ltac:(cbn; tauto))); auto.
          * apply (db_complexType _ _ _ _ _ _ DB).
          * apply Ht.
          * apply inside_all. exact Hit.
          * apply inside_all. exact Hin.
        + apply (two_kids kids "group" t t' (org g i) (t_lines _ TY "group" ltac:(cbn; tauto))); auto.
          * apply (db_complexType _ _ _ _ _ _ DB).
          * apply Ht.
          * apply inside_all. exact Hit.
          * apply inside_all. exact Hin.
    Qed.
    (** the origin of an object of the catalogue is an attribute, element or group *)
    Lemma org_tag : forall i, P i -> l_is (py "element") (org g i) = true \/ l_is (py "group") (org g i) = true.
    Proof.
      intros i [Hi Hk].
      destruct (ct_shape _ _ _ _ _ _ ch_ok) as (B & R & M & HB & HR).
      rewrite (HB (db_content _ _ _ _ _ _ DB)) in M. cbn [app] in M.
      assert (Ho : In (org g i) (map (org g) ch)) by (apply in_map; exact Hi). rewrite M in Ho.
      repeat (apply in_app_or in Ho; destruct Ho as [Ho|Ho]).
      - apply in_flat_map in Ho. destruct Ho as (sq & Hs & Hx). unfold seq_nodes in Hx.
        apply in_app_or in Hx. destruct Hx as [Hx|Hx]; apply named_inside in Hx; tauto.
      - apply named_inside in Ho. tauto.
      - apply named_inside in Ho. exfalso. apply Hk, kind_attribute, Ho.
      - exfalso. apply Hk, kind_attribute, HR. exact Ho.
    Qed.
    (** nothing else of the top of the schema contains such an object *)
    Lemma P_only : forall i k, P i -> In k kids -> k <> t -> In (org g i) (l_all k) -> False.
    Proof.
      intros i k Hi Hk Ne Hin. destruct (P_inside i Hi) as (I1 & _). destruct (org_tag i Hi) as [T1|T1].
      - apply (two_kids kids "element" t k (org g i) (t_lines _ TY "element" ltac:(cbn; tauto))); auto.
        + apply (db_complexType _ _ _ _ _ _ DB).
        + apply inside_all. exact I1.
      - apply (two_kids kids "group" t k (org g i) (t_lines _ TY "group" ltac:(cbn; tauto))); auto.
        + apply (db_complexType _ _ _ _ _ _ DB).
        + apply inside_all. exact I1.
    Qed.

    Lemma core_c : Core kids (ca_heap c) g w.
    Proof. exact (w_core _ _ _ _ _ CO). Qed.
    Lemma d_obj : exists o, nth_error (ca_heap c) d = Some o /\ so_children o = [] /\
      h0 = hset (ca_heap c) d (so_set_children ch o).
    Proof.
      destruct reg_d as (A & B & C & _). rewrite (k_len _ _ _ _ core_c) in B.
      destruct (nth_error (ca_heap c) d) as [o|] eqn:Eo; [|apply nth_error_None in Eo; lia].
      destruct (k_obj _ _ _ _ core_c d o Eo) as (F & M & _). rewrite C in M.
      assert (Ec : so_children o = []).
      { assert (X : inline defn = []).
        { unfold inline. rewrite (kind_element _ (proj2 defn_kid)), (db_plain _ _ _ _ _ _ DB). reflexivity. }
        rewrite X in M. destruct (so_children o); [reflexivity|discriminate]. }
      exists o. split; [reflexivity|]. split; [exact Ec|]. unfold h0. rewrite (hupd_some _ _ _ _ Eo). rewrite Ec. reflexivity.
    Qed.
    Lemma h0_len : List.length h0 = List.length (ca_heap c).
    Proof. destruct d_obj as (o & _ & _ & ->). apply hset_length. Qed.
    Lemma h0_other : forall i, i <> d -> nth_error h0 i = nth_error (ca_heap c) i.
    Proof. intros i Hi. destruct d_obj as (o & _ & _ & ->). apply hset_other. congruence. Qed.
    Lemma h0_d : exists o, nth_error h0 d = Some (so_set_children ch o) /\ nth_error (ca_heap c) d = Some o.
    Proof.
      destruct d_obj as (o & Ho & _ & Eh). exists o. split; [|exact Ho]. rewrite Eh. apply hset_same. eapply nth_error_lt; eauto.
    Qed.
    Lemma kind_d : kind_of (org g d) = KElement.
    Proof. destruct reg_d as (_ & _ & C & _). rewrite C. apply kind_element. apply defn_kid. Qed.
    Lemma not_P_d : ~ P d.
    Proof.
      intros Hp. destruct (P_inside d Hp) as (I1 & _). destruct reg_d as (_ & _ & C & _). rewrite C in I1.
      apply (not_inside kids "element" defn t (t_lines _ TY "element" ltac:(cbn; tauto))); try apply defn_kid; [|exact I1].
      exact (top_doc kids _ _ _ (db_complexType _ _ _ _ _ _ DB)).
    Qed.
    Lemma group_static : forall k i, dget k (sdict c) = Some (RGroup i) ->
      i < List.length h0 /\ kind_of (org g i) = KGroup /\ ~ P i /\ i <> d /\ own i = i.
    Proof.
      intros k i Hk. destruct (w_entry _ _ _ _ _ CO k _ Hk) as (n & Hn & B & C & O).
      assert (Kg : kind_of (org g i) = KGroup) by (rewrite C; apply kind_group; apply Hn).
      split; [rewrite h0_len, <- (k_len _ _ _ _ core_c); exact B|]. split; [exact Kg|]. split; [|split; [|exact O]].
      - intros Hp. apply (P_only i n Hp); [apply Hn| |].
        + intros ->. destruct Hn as (_ & Hn & _). assert (Y := db_complexType _ _ _ _ _ _ DB). destruct Y as (_ & Y & _).
          discriminate (l_is_tag _ _ _ Hn Y).
        + rewrite C. apply (l_is_all (py "group")). apply Hn.
      - intros ->. rewrite kind_d in Kg. discriminate.
    Qed.
    Lemma child_own : forall i o x, i <> d -> nth_error h0 i = Some o -> In x (so_children o) -> x < i /\ own x = own i.
    Proof.
      intros i o x Hi Ho Hx. rewrite h0_other in Ho by exact Hi. destruct (k_obj _ _ _ _ core_c i o Ho) as (_ & _ & C). exact (C x Hx).
    Qed.
    Lemma own_le : forall i, i < List.length h0 -> i <= own i.
    Proof. intros i Hi. rewrite h0_len in Hi. exact (k_own _ _ _ _ core_c i Hi). Qed.

    Lemma items_copyable : forall k i, k <> D -> In i (items h0 (sdict c) k) -> copyable h0 g own P d i.
    Proof.
      intros k i Hk Hi. unfold items in Hi. destruct (dget k (sdict c)) as [x|] eqn:Ex; [|destruct Hi].
      assert (En := w_entry _ _ _ _ _ CO k x Ex). unfold copyable. rewrite h0_len, <- (k_len _ _ _ _ core_c).
      destruct x as [sn|ids|gi]; [destruct Hi| |].
      - destruct En as [(n & Hn & M & Lt)|(u & Hu & Ok1)].
        + split; [exact (Lt i Hi)|]. left. apply kind_attribute.
          assert (Y : In (org g i) (l_named "attribute" n)) by (rewrite <- M; apply in_map; exact Hi).
          apply named_inside in Y. apply Y.
        + split; [exact (ct_lt _ _ _ _ _ _ Ok1 i Hi)|].
          destruct (kind_of (org g i)) eqn:Ek; [left; reflexivity| |]; right.
          * destruct (ct_other _ _ _ _ _ _ Ok1 i Hi ltac:(congruence)) as [A (T' & t' & Ht & Hin & Hor)].
            assert (Nt : t' <> t).
            { intros ->. assert (X : T' = D).
              { destruct Ht as (_ & _ & Ht). assert (Y := db_complexType _ _ _ _ _ _ DB). destruct Y as (_ & _ & Y). congruence. }
              subst T'. destruct Hor as [X|X]; [congruence|exact (not_extended X)]. }
            fold own in A. change (nth i w 0) with (own i) in A. split.
            -- rewrite A. intros Hp. apply (P_only i t' Hp (proj1 Ht) Nt). apply inside_all. exact Hin.
            -- intros ->. destruct reg_d as (_ & _ & C & _). rewrite C in Hin.
               apply (not_inside kids "element" defn t' (t_lines _ TY "element" ltac:(cbn; tauto))); try apply defn_kid; [|exact Hin].
               exact (top_doc kids _ _ _ Ht).
          * destruct (ct_other _ _ _ _ _ _ Ok1 i Hi ltac:(congruence)) as [A (T' & t' & Ht & Hin & Hor)].
            assert (Nt : t' <> t).
            { intros ->. assert (X : T' = D).
              { destruct Ht as (_ & _ & Ht). assert (Y := db_complexType _ _ _ _ _ _ DB). destruct Y as (_ & _ & Y). congruence. }
              subst T'. destruct Hor as [X|X]; [congruence|exact (not_extended X)]. }
            change (nth i w 0) with (own i) in A. split.
            -- rewrite A. intros Hp. apply (P_only i t' Hp (proj1 Ht) Nt). apply inside_all. exact Hin.
            -- intros ->. rewrite kind_d in Ek. discriminate.
      - destruct (group_static k gi Ex) as (Lg & Kg & Np & Nd & Og).
        unfold children_at in Hi. destruct (nth_error h0 gi) as [o|] eqn:Eo; [|destruct Hi].
        destruct (child_own gi o i Nd Eo Hi) as [Li Oi]. split; [rewrite (k_len _ _ _ _ core_c), <- h0_len; lia|].
        right. split; [rewrite Oi, Og; exact Np|]. intros ->.
        destruct reg_d as (_ & _ & _ & Od). change (nth d w 0) with (own d) in Od. lia.
    Qed.

    Lemma end_ok : forall fuel h', apply_substitutions fuel (sdict c) (tdict c) d h0 = Ok h' ->
      exists b, Inv h0 g own P d (sdict c) (tdict c) D h' (g ++ b) [d] /\ nth_error h' d = nth_error h0 d /\
        (forall x ox, In x ch -> nth_error h' x = Some ox -> todo (sdict c) ox = false).
    Proof.
      intros fuel h' Hr.
      assert (KL := k_len _ _ _ _ core_c).
      destruct (apply_end h0 g own P d (sdict c) (tdict c) D) with (fuel := fuel) (h' := h') as (b & I & Ed & C); auto.
      - rewrite h0_len. exact KL.
      - intros k Hk. apply (t_plain _ TY). rewrite dmem_dget in Hk. destruct (dget k (sdict c)) as [x|] eqn:Ex; [|discriminate].
        assert (En := w_entry _ _ _ _ _ CO k x Ex).
        assert (X : exists tag n, declared_tag tag /\ top kids tag k n).
        { destruct x as [sn|ids|gi]; cbn in En.
          - destruct En as (_ & n & Hn). exists "simpleType", n. split; [cbn; tauto|exact Hn].
          - destruct En as [(n & Hn & _)|(n & Hn & _)]; [exists "attributeGroup", n|exists "complexType", n]; (split; [cbn; tauto|exact Hn]).
          - destruct En as (n & Hn & _). exists "group", n. split; [cbn; tauto|exact Hn]. }
        destruct X as (tag & n & X1 & X2). apply in_flat_map. exists n. split; [apply X2|]. exact (entry_name_top kids tag k n X1 X2).
      - intros i o Ho. destruct (Nat.eq_dec i d) as [->|Ni].
        + destruct h0_d as (o1 & H1 & H2). rewrite H1 in Ho. injection Ho as <-. apply set_children_fit.
          * apply fresh_fit. apply (k_obj _ _ _ _ core_c d o1 H2).
          * rewrite kind_d. discriminate.
        + rewrite h0_other in Ho by exact Ni. apply fresh_fit. apply (k_obj _ _ _ _ core_c i o Ho).
      - intros i o Ho. destruct (Nat.eq_dec i d) as [->|Ni].
        + destruct h0_d as (o1 & H1 & H2). rewrite H1 in Ho. injection Ho as <-. cbn.
          apply (r_key _ _ (proj1 (k_obj _ _ _ _ core_c d o1 H2))).
        + rewrite h0_other in Ho by exact Ni. apply (r_key _ _ (proj1 (k_obj _ _ _ _ core_c i o Ho))).
      - intros i o Ni Ho. rewrite h0_other in Ho by exact Ni. apply (k_obj _ _ _ _ core_c i o Ho).
      - intros i o x Ni Ho Hx. exact (child_own i o x Ni Ho Hx).
      - exact own_le.
      - destruct reg_d as (_ & B & _ & O). split; [rewrite h0_len, <- KL; exact B|]. split; [exact O|]. split; [exact kind_d|exact not_P_d].
      - intros o x Ho Hx. destruct h0_d as (o1 & H1 & H2). rewrite H1 in Ho. injection Ho as <-. cbn in Hx.
        assert (Lx := ct_lt _ _ _ _ _ _ ch_ok x Hx). split; [|rewrite h0_len, <- KL; exact Lx].
        right. split; [rewrite h0_len, <- KL; exact Lx|].
        destruct (kind_of (org g x)) eqn:Ek; [left; reflexivity| |]; right.
        + assert (Px : P x) by (split; [exact Hx|congruence]). destruct (P_inside x Px) as (_ & _ & O). rewrite O. exact Px.
        + assert (Px : P x) by (split; [exact Hx|congruence]). destruct (P_inside x Px) as (_ & _ & O). rewrite O. exact Px.
      - intros k i Hk Hi. exact (items_copyable k i Hk Hi).
      - intros k i Hk. destruct (group_static k i Hk) as (A & B & C & F & O). split; [exact A|]. split; [congruence|].
        rewrite O. auto.
      - intros i Ni Li Hk. rewrite h0_len in Li.
        assert (X : org g i = defn).
        { apply (db_only _ _ _ _ _ _ DB); [exact (k_in _ _ _ _ core_c i Li)|].
          destruct (db_name _ _ _ _ _ _ DB) as [N1 N2].
          destruct (local_cases _ _ Hk) as [X|[[_ X]|[_ X]]]; [exact X|contradiction|contradiction]. }
        apply Ni. assert (Y := w_defn _ _ _ _ _ CO i Li X). destruct reg_d as (A & _). congruence.
      - exists b. split; [exact I|]. split; [exact Ed|]. intros x ox Hx Hox. apply (C x ox); [|exact Hox].
        unfold children_at. destruct h0_d as (o1 & H1 & _). rewrite H1. exact Hx.
    Qed.

    (** attributes of an object whose content is finished *)
    Lemma simple_ref : forall k v, dget k (tdict c) = Some v -> dget k (sdict c) = Some (RSimple k).
    Proof.
      intros k v Hv. assert (Hm : dmem k (tdict c) = true) by (rewrite dmem_dget, Hv; reflexivity).
      destruct (w_simple _ _ _ _ _ CO k Hm) as [Hs (n & Hn)]. rewrite dmem_dget in Hs.
      destruct (dget k (sdict c)) as [x|] eqn:Ex; [|discriminate]. assert (En := w_entry _ _ _ _ _ CO k x Ex).
      destruct x as [sn|ids|gi]; cbn in En.
      - destruct En as [-> _]. reflexivity.
      - destruct En as [(m & Hm2 & _)|(m & Hm2 & _)].
        + destruct (top_unique kids TY "simpleType" "attributeGroup" k n m) as [_ X]; auto; try (cbn; tauto). discriminate X.
        + destruct (top_unique kids TY "simpleType" "complexType" k n m) as [_ X]; auto; try (cbn; tauto). discriminate X.
      - destruct En as (m & Hm2 & _).
        destruct (top_unique kids TY "simpleType" "group" k n m) as [_ X]; auto; try (cbn; tauto). discriminate X.
    Qed.
    Lemma dmem_entry : forall k, dmem k (sdict c) = true -> In k (flat_map entry_name kids).
    Proof.
      intros k Hk. rewrite dmem_dget in Hk. destruct (dget k (sdict c)) as [x|] eqn:Ex; [|discriminate].
      assert (En := w_entry _ _ _ _ _ CO k x Ex).
      assert (X : exists tag n, declared_tag tag /\ top kids tag k n).
      { destruct x as [sn|ids|gi]; cbn in En.
        - destruct En as (_ & n & Hn). exists "simpleType", n. split; [cbn; tauto|exact Hn].
        - destruct En as [(n & Hn & _)|(n & Hn & _)]; [exists "attributeGroup", n|exists "complexType", n]; (split; [cbn; tauto|exact Hn]).
        - destruct En as (n & Hn & _). exists "group", n. split; [cbn; tauto|exact Hn]. }
      destruct X as (tag & n & X1 & X2). apply in_flat_map. exists n. split; [apply X2|]. exact (entry_name_top kids tag k n X1 X2).
    Qed.

    Variables (h' : heap) (b : list lnode).
    Hypothesis I : Inv h0 g own P d (sdict c) (tdict c) D h' (g ++ b) [d].
    Hypothesis Hh : su_heap s = h'.
    Hypothesis Ht : su_simpleType s = tdict c.

    Lemma kind_attr_is : forall n, kind_of n = KAttribute -> l_is (py "attribute") n = true.
    Proof.
      intros n H. unfold kind_of in H. destruct (l_is (py "attribute") n); [reflexivity|].
      destruct (l_is (py "element") n); discriminate.
    Qed.

    Lemma says_ok : forall a o, kind_of a = KAttribute -> fit (sdict c) (tdict c) a o -> todo (sdict c) o = false ->
      says kids (su_simpleType s) a (mkAD (so_key o) (so_required o) (so_default o) (so_patterns o) (so_maxLength o)).
    Proof.
      intros a o Ka F T. destruct (f_attr _ _ _ _ F Ka) as (_ & R & Df). constructor; cbn.
      - rewrite R. unfold use_required. destruct (l_attr "use" a) as [u|].
        + split; [intros X; apply str_eqb_eq in X; f_equal; exact X|intros X; apply str_eqb_eq; injection X as X; exact X].
        + split; discriminate.
      - exact Df.
      - intros ty v Hty Hv. rewrite Ht in Hv. assert (Hr := simple_ref _ _ Hv).
        assert (Hk : keyed (sdict c) a = Some (local_name ty)).
        { unfold keyed, key_of. rewrite Ka, Hty. rewrite dmem_dget, Hr. reflexivity. }
        assert (X := f_final _ _ _ _ F Ka _ Hk T). unfold final_rules in X. rewrite Hr, Hv in X. injection X as X1 X2. auto.
      - intros Hty Hnx.
        assert (Hk : keyed (sdict c) a = None).
        { unfold keyed, key_of. rewrite Ka.
          destruct (l_attr "type" a) as [ty|].
          - destruct Hty as [Hty|(ty' & E1 & Hn)]; [discriminate|]. injection E1 as <-.
            destruct (dmem (local_name ty) (sdict c)) eqn:Em; [|reflexivity]. exfalso. apply Hn, dmem_entry, Em.
          - destruct (dmem (local_name (py "nx:NX_CHAR")) (sdict c)) eqn:Em; [|reflexivity]. exfalso. apply Hnx.
            apply dmem_entry in Em. exact Em. }
        destruct (f_rules _ _ _ _ F Ka (or_intror Hk)) as [X1 X2]. split; [exact X2|].
        intros p x Hp Hx. rewrite X1. unfold inline_patterns. rewrite Hp, Hx. reflexivity.
    Qed.

    Lemma attributes_ok : forall i T,
      (forall a, l_is (py "attribute") a = true -> (declares kids T a <-> exists j, In j (children_at h' i) /\ org (g ++ b) j = a)) ->
      (forall j o, In j (children_at h' i) -> nth_error h' j = Some o -> todo (sdict c) o = false) ->
      attributes_of_type kids s i T.
    Proof.
      intros i T HD HT. split.
      - intros a k Ha Hk Hne Hnanon Huniq. rewrite Hh. unfold attribute_of.
        assert (Ta : l_is (py "attribute") a = true).
        { clear - Ha. induction Ha as [T t0 a _ H|T t0 x a _ _ H|T t0 x b0 a _ _ _ _ IH|T t0 r k g0 a _ _ _ _ H]; auto;
            apply named_inside in H; apply H. }
        destruct (proj1 (HD a Ta) Ha) as (j & Hj & Ej).
        assert (Lj : exists o, nth_error h' j = Some o).
        { unfold children_at in Hj. destruct (nth_error h' i) as [oi|] eqn:Eoi; [|destruct Hj].
          assert (L := i_ch _ _ _ _ _ _ _ _ _ _ _ I _ _ _ Eoi Hj). destruct (nth_error h' j) eqn:X; [eauto|]. apply nth_error_None in X. lia. }
        destruct Lj as (o & Ho). assert (F := i_fit _ _ _ _ _ _ _ _ _ _ _ I _ _ Ho). rewrite Ej in F.
        assert (Ka := kind_attribute a Ta).
        assert (Pn : part_name KAttribute o = k).
        { unfold part_name. rewrite (f_name _ _ _ _ F), Hk. destruct k; [contradiction|reflexivity]. }
        destruct (kids_has KAttribute h' i j o Hj Ho) as (j' & Hj'); [rewrite (f_kind _ _ _ _ F); exact Ka|].
        rewrite Pn in Hj'. rewrite Hj'.
        destruct (kids_get KAttribute h' i k j' Hj') as (Hin & o' & Ho' & Hk' & Hn').
        rewrite Ho'. eexists. split; [reflexivity|].
        assert (F' := i_fit _ _ _ _ _ _ _ _ _ _ _ I _ _ Ho').
        assert (Ka' : kind_of (org (g ++ b) j') = KAttribute) by (rewrite <- (f_kind _ _ _ _ F'); exact Hk').
        assert (Ta' := kind_attr_is _ Ka').
        assert (Hd' : declares kids T (org (g ++ b) j')) by (apply (HD _ Ta'); exists j'; auto).
        assert (Na : l_attr "name" (org (g ++ b) j') = Some k).
        { destruct (anonymous_of_name _ _ _ Hn' Hne) as [X|[X _]]; [|contradiction].
          rewrite <- (f_name _ _ _ _ F'). exact X. }
        rewrite (Huniq _ Hd' Na) in F'. apply says_ok; auto. apply (HT j' o' Hin Ho').
      - intros k Hk. rewrite Hh in Hk. unfold attribute_names in Hk. apply dmem_In in Hk. rewrite dmem_dget in Hk.
        destruct (dget k (kids_of KAttribute h' i)) as [j|] eqn:Ej; [|discriminate].
        destruct (kids_get KAttribute h' i k j Ej) as (Hin & o & Ho & Hko & Hn).
        assert (F := i_fit _ _ _ _ _ _ _ _ _ _ _ I _ _ Ho).
        assert (Ka : kind_of (org (g ++ b) j) = KAttribute) by (rewrite <- (f_kind _ _ _ _ F); exact Hko).
        assert (Hd' : declares kids T (org (g ++ b) j)) by (apply (HD _ (kind_attr_is _ Ka)); exists j; auto).
        unfold part_name in Hn. rewrite (f_name _ _ _ _ F) in Hn.
        destruct (l_attr "name" (org (g ++ b) j)) as [[|x n]|] eqn:En.
        + left. symmetry. exact Hn.
        + right. exists (org (g ++ b) j). split; [exact Hd'|]. rewrite En, Hn. reflexivity.
        + left. symmetry. exact Hn.
    Qed.

    Hypothesis Ed : nth_error h' d = nth_error h0 d.
    Hypothesis Cd : forall x ox, In x ch -> nth_error h' x = Some ox -> todo (sdict c) ox = false.

    Lemma d_children : children_at h' d = ch.
    Proof. unfold children_at. rewrite Ed. destruct h0_d as (o1 & H1 & _). rewrite H1. reflexivity. Qed.
    Lemma org_old : forall i, i < List.length g -> org (g ++ b) i = org g i.
    Proof. intros i Hi. apply org_app. exact Hi. Qed.

    Lemma definition_attrs : attributes_of_type kids s d D.
    Proof.
      apply attributes_ok.
      - intros a Ta. rewrite d_children, (ct_attr _ _ _ _ _ _ ch_ok a Ta). split; intros (j & Hj & Ej); exists j; (split; [exact Hj|]).
        + rewrite org_old; [exact Ej|]. exact (ct_lt _ _ _ _ _ _ ch_ok j Hj).
        + rewrite org_old in Ej; [exact Ej|]. exact (ct_lt _ _ _ _ _ _ ch_ok j Hj).
      - intros j o Hj Ho. rewrite d_children in Hj. exact (Cd j o Hj Ho).
    Qed.

    (** an object other than the definition that is of a type of the schema *)
    Lemma finished : forall j o k, j <> d -> nth_error h' j = Some o -> todo (sdict c) o = false ->
      kind_of (org (g ++ b) j) <> KAttribute -> keyed (sdict c) (org (g ++ b) j) = Some k ->
      map (org (g ++ b)) (children_at h' j) = inline (org (g ++ b) j) ++ ref_nodes h0 g (sdict c) k /\
      (forall x ox, In x (children_at h' j) -> nth_error h' x = Some ox -> todo (sdict c) ox = false).
    Proof.
      intros j o k Hj Ho T Kj Kk. assert (F := i_fit _ _ _ _ _ _ _ _ _ _ _ I _ _ Ho).
      assert (Dn := not_todo_done _ _ _ _ _ F Kk T).
      assert (Nj : ~ In j [d]) by (intros [X|[]]; congruence).
      unfold children_at. rewrite Ho. split.
      - exact (proj1 (i_org _ _ _ _ _ _ _ _ _ _ _ I _ _ Ho Nj Kj) Dn k Kk).
      - intros x ox Hx Hox. exact (i_closed _ _ _ _ _ _ _ _ _ _ _ I _ _ _ _ Ho Nj Dn Hx Hox).
    Qed.

    Lemma typed_ids : forall T tt, top kids "complexType" T tt -> exists ids, items h0 (sdict c) T = ids /\ ct_ok kids g w T tt ids.
    Proof.
      intros T tt HT.
      { assert (Hm := w_complex _ _ _ _ _ CO T tt HT). unfold items. rewrite dmem_dget in Hm.
        destruct (dget T (sdict c)) as [y|] eqn:Ey; [|discriminate]. assert (En := w_entry _ _ _ _ _ CO T y Ey).
        destruct y as [sn|ids|gi]; cbn in En.
        - destruct En as (_ & n & Hn). destruct (top_unique kids TY "complexType" "simpleType" T tt n) as [_ X]; auto; try (cbn; tauto). discriminate X.
        - destruct En as [(n & Hn & _)|(n & Hn & En)].
          + destruct (top_unique kids TY "complexType" "attributeGroup" T tt n) as [_ X]; auto; try (cbn; tauto). discriminate X.
          + destruct (top_unique kids TY "complexType" "complexType" T tt n) as [X _]; auto; try (cbn; tauto). subst n. exists ids. auto.
        - destruct En as (n & Hn & _). destruct (top_unique kids TY "complexType" "group" T tt n) as [_ X]; auto; try (cbn; tauto). discriminate X. }
    Qed.

    Lemma typed_attrs : forall j o x T tt, j <> d -> nth_error h' j = Some o -> todo (sdict c) o = false ->
      org (g ++ b) j = x -> l_is (py "element") x = true -> l_named "complexType" x = [] ->
      (exists v, l_attr "type" x = Some v /\ local_name v = T) -> top kids "complexType" T tt ->
      attributes_of_type kids s j T.
    Proof.
      intros j o x T tt Hj Ho To Ej Tx Px (v & Hv & HvT) HT.
      assert (Kx := kind_element x Tx).
      assert (Kk : keyed (sdict c) (org (g ++ b) j) = Some T).
      { rewrite Ej. unfold keyed, key_of. rewrite Kx, Hv, HvT. rewrite (w_complex _ _ _ _ _ CO T tt HT). reflexivity. }
      destruct (finished j o T Hj Ho To ltac:(rewrite Ej, Kx; discriminate) Kk) as [M C].
      rewrite Ej in M. assert (Ix : inline x = []) by (unfold inline; rewrite Kx, Px; reflexivity).
      rewrite Ix in M. cbn [app] in M.
      destruct (typed_ids T tt HT) as (ids & Eids & Ok1).
      apply attributes_ok; [|exact C].
      intros a Ta. rewrite (ct_attr _ _ _ _ _ _ Ok1 a Ta). unfold ref_nodes in M. rewrite Eids in M. split.
      - intros (i & Hi & Ei).
        assert (X : In a (map (org (g ++ b)) (children_at h' j))).
        { rewrite M. apply filter_In. split; [rewrite <- Ei; apply in_map; exact Hi|].
          unfold is_rec. rewrite (kind_attribute a Ta). reflexivity. }
        apply in_map_iff in X. destruct X as (j' & E' & Hj'). exists j'. auto.
      - intros (j' & Hj' & E').
        assert (X : In a (map (org (g ++ b)) (children_at h' j))) by (rewrite <- E'; apply in_map; exact Hj').
        rewrite M in X. apply filter_In in X. destruct X as [X _]. apply in_map_iff in X.
        destruct X as (i & E2 & Hi). exists i. auto.
    Qed.

    (** the group in the definition *)
    Lemma ch_groups : forall i, In i ch -> kind_of (org g i) = KGroup -> org g i = gr.
    Proof.
      intros i Hi Hk.
      destruct (ct_shape _ _ _ _ _ _ ch_ok) as (B & R & M & HB & HR).
      rewrite (HB (db_content _ _ _ _ _ _ DB)) in M. cbn [app] in M.
      assert (Ho : In (org g i) (map (org g) ch)) by (apply in_map; exact Hi). rewrite M in Ho.
      assert (X : In (org g i) (flat_map (l_named "group") (l_named "sequence" t) ++ l_named "group" t)).
      { repeat (apply in_app_or in Ho; destruct Ho as [Ho|Ho]).
        - apply in_or_app. left. apply in_flat_map in Ho. destruct Ho as (sq & Hs & Hx). apply in_flat_map. exists sq. split; [exact Hs|].
          unfold seq_nodes in Hx. apply in_app_or in Hx. destruct Hx as [Hx|Hx]; [|exact Hx].
          apply named_inside in Hx. rewrite (kind_element _ (proj2 Hx)) in Hk. discriminate.
        - apply in_or_app. right. exact Ho.
        - apply named_inside in Ho. rewrite (kind_attribute _ (proj2 Ho)) in Hk. discriminate.
        - rewrite (kind_attribute _ (HR _ Ho)) in Hk. discriminate. }
      rewrite (db_reference _ _ _ _ _ _ DB) in X. destruct X as [X|[]]. symmetry. exact X.
    Qed.
    Lemma gr_group : l_is (py "group") gr = true.
    Proof.
      assert (X : In gr (flat_map (l_named "group") (l_named "sequence" t) ++ l_named "group" t)).
      { rewrite (db_reference _ _ _ _ _ _ DB). left. reflexivity. }
      apply in_app_or in X. destruct X as [X|X].
      - apply in_flat_map in X. destruct X as (sq & _ & X). apply named_inside in X. apply X.
      - apply named_inside in X. apply X.
    Qed.
    Lemma group_items : forall k G0, top kids "group" k G0 -> map (org g) (items h0 (sdict c) k) = l_path2 "sequence" "element" G0.
    Proof.
      intros k G0 HG.
      assert (Hm := w_group _ _ _ _ _ CO _ _ HG). rewrite dmem_dget in Hm. unfold items.
      destruct (dget (k) (sdict c)) as [y|] eqn:Ey; [|discriminate].
      assert (En := w_entry _ _ _ _ _ CO _ y Ey).
      destruct y as [sn|ids|gj]; cbn in En.
      - destruct En as (_ & n & Hn). destruct (top_unique kids TY "group" "simpleType" (k) G0 n) as [_ X]; auto; try (cbn; tauto). discriminate X.
      - destruct En as [(n & Hn & _)|(n & Hn & _)].
        + destruct (top_unique kids TY "group" "attributeGroup" (k) G0 n) as [_ X]; auto; try (cbn; tauto). discriminate X.
        + destruct (top_unique kids TY "group" "complexType" (k) G0 n) as [_ X]; auto; try (cbn; tauto). discriminate X.
      - destruct En as (n & Hn & Lj & Oj & _).
        destruct (top_unique kids TY "group" "group" (k) G0 n) as [X _]; auto; try (cbn; tauto). assert (Oj2 : org g gj = G0) by congruence. clear n Hn Oj X. rename Oj2 into Oj.
        assert (Kj : kind_of (org g gj) = KGroup) by (rewrite Oj; apply kind_group; apply HG).
        assert (Nj : gj <> d) by (intros ->; rewrite kind_d in Kj; discriminate).
        unfold children_at. rewrite h0_other by exact Nj. rewrite (k_len _ _ _ _ core_c) in Lj.
        destruct (nth_error (ca_heap c) gj) as [og|] eqn:Eo; [|apply nth_error_None in Eo; lia].
        destruct (k_obj _ _ _ _ core_c gj og Eo) as (_ & Mj & _). rewrite Mj, Oj. unfold inline. rewrite (kind_group G0) by apply HG. reflexivity.
    Qed.
    Lemma group_content : forall k gi, dget k (kids_of KGroup h' d) = Some gi ->
      map (org (g ++ b)) (children_at h' gi) = l_path2 "sequence" "element" G /\
      (forall x ox, In x (children_at h' gi) -> nth_error h' x = Some ox -> todo (sdict c) ox = false).
    Proof.
      intros k gi Hk. destruct (kids_get KGroup h' d k gi Hk) as (Hin & o & Ho & Hko & _). rewrite d_children in Hin.
      assert (F := i_fit _ _ _ _ _ _ _ _ _ _ _ I _ _ Ho).
      assert (Lg := ct_lt _ _ _ _ _ _ ch_ok gi Hin). rewrite org_old in F by exact Lg.
      assert (Kg : kind_of (org g gi) = KGroup) by (rewrite <- (f_kind _ _ _ _ F); exact Hko).
      assert (Eg := ch_groups gi Hin Kg).
      destruct (db_group _ _ _ _ _ _ DB) as (v & Hv & HG).
      assert (Ng : gi <> d) by (intros ->; rewrite kind_d in Kg; discriminate).
      assert (KK : keyed (sdict c) (org (g ++ b) gi) = Some (local_name v)).
      { rewrite org_old by exact Lg. unfold keyed, key_of. rewrite Kg, Eg, Hv. cbn [option_map].
        rewrite (w_group _ _ _ _ _ CO _ _ HG). reflexivity. }
      destruct (finished gi o (local_name v) Ng Ho (Cd gi o Hin Ho)) as [M C]; [rewrite org_old by exact Lg; rewrite Kg; discriminate|exact KK|].
      split; [|exact C]. rewrite M, org_old by exact Lg. rewrite Eg.
      assert (Ig : inline gr = []).
      { unfold inline. rewrite (kind_group _ gr_group). unfold l_path2. rewrite (db_empty _ _ _ _ _ _ DB). reflexivity. }
      rewrite Ig. cbn [app]. unfold ref_nodes.
      rewrite (group_items _ _ HG).
      assert (ID : forall l, (forall y, In y l -> l_is (py "element") y = true) -> filter (fun n => negb (is_rec n)) l = l).
        { induction l as [|y l IHl]; intros Hl; [reflexivity|]. cbn [filter].
          unfold is_rec at 1. rewrite (kind_element y (Hl y (or_introl eq_refl))). cbn [negb]. f_equal. apply IHl.
          intros z Hz. apply Hl. right. exact Hz. }
        apply ID. intros y Hy. apply path2_inside in Hy. apply Hy.
    Qed.

    Lemma component_attrs : forall k gi (name : string) j x T, dget k (kids_of KGroup h' d) = Some gi ->
      py name <> [] -> py name <> py "(element)" ->
      dget (py name) (kids_of KElement h' gi) = Some j -> component kids G name x T -> attributes_of_type kids s j T.
    Proof.
      intros k gi name j x T Hk N1 N2 Hj CM. destruct (group_content k gi Hk) as [M C].
      destruct (kids_get KElement h' gi (py name) j Hj) as (Hin & o & Ho & Hko & Hn).
      assert (F := i_fit _ _ _ _ _ _ _ _ _ _ _ I _ _ Ho).
      assert (Ix : In (org (g ++ b) j) (l_path2 "sequence" "element" G)) by (rewrite <- M; apply in_map; exact Hin).
      assert (Nm : l_attr "name" (org (g ++ b) j) = Some (py name)).
      { destruct (anonymous_of_name _ _ _ Hn N1) as [X|[X _]]; [|contradiction]. rewrite <- (f_name _ _ _ _ F). exact X. }
      assert (Ex := cm_unique _ _ _ _ _ CM _ Ix Nm).
      destruct (cm_complexType _ _ _ _ _ CM) as (tt & HT).
      destruct (path2_inside _ _ _ _ Ix) as [Ig Te].
      apply (typed_attrs j o x T tt); auto.
      - intros ->. destruct (db_group _ _ _ _ _ _ DB) as (v & _ & HG).
        destruct reg_d as (_ & Ld & Od & _). rewrite org_old in Ig by exact Ld. rewrite Od in Ig.
        apply (not_inside kids "element" defn G (t_lines _ TY "element" ltac:(cbn; tauto))); try apply defn_kid; [|exact Ig].
        exact (top_doc kids _ _ _ HG).
      - exact (C j o Hin Ho).
      - rewrite <- Ex. exact Te.
      - exact (cm_plain _ _ _ _ _ CM).
      - exact (cm_type _ _ _ _ _ CM).
    Qed.

    Lemma inside_in : forall n m x, inside n m -> inside m x -> inside n x.
    Proof.
      intros n m x H1 H2. apply (inside_trans n m x H1). destruct m as [|tg ln at_ ks]; [destruct H2|].
      cbn [l_all]. right. exact H2.
    Qed.
    Lemma in_F2 : forall A B (f : A -> res B) l r, traverse f l = Ok r -> forall x, In x l -> exists y, f x = Ok y.
    Proof.
      intros A B f. induction l as [|y l IH]; intros r Hr x Hx; [destruct Hx|]. cbn [traverse] in Hr.
      destruct (f y) as [v|e] eqn:E1; [|discriminate]. cbn [rbind] in Hr. destruct (traverse f l) as [vs|e] eqn:E2; [|discriminate].
      destruct Hx as [<-|Hx]; [exists v; exact E1|]. exact (IH vs eq_refl x Hx).
    Qed.
    (** content without end *)
    Lemma one_step : forall j o n', j <> d -> nth_error h' j = Some o -> todo (sdict c) o = false ->
      content kids (org (g ++ b) j) n' ->
      exists x ox, In x (children_at h' j) /\ nth_error h' x = Some ox /\ todo (sdict c) ox = false /\
        org (g ++ b) x = n' /\ x <> d.
    Proof.
      intros j o n' Hj Ho T Hc.
      assert (M : kind_of (org (g ++ b) j) <> KAttribute /\ exists k, keyed (sdict c) (org (g ++ b) j) = Some k /\
        In n' (ref_nodes h0 g (sdict c) k) /\ exists m, In m kids /\ m <> defn /\ inside m n').
      { destruct Hc as [n v t0 sq n' He Hp Hv HtT Hs Hn|n v G0 n' Hg Hp Hv HG Hn].
        - assert (Kn := kind_element n He). split; [rewrite Kn; discriminate|]. exists (local_name v). split.
          { unfold keyed, key_of. rewrite Kn, Hv, (w_complex _ _ _ _ _ CO _ t0 HtT). reflexivity. }
          destruct (typed_ids _ _ HtT) as (ids & Ei & Oi). destruct (ct_shape _ _ _ _ _ _ Oi) as (B & R & MM & _).
          split.
          + unfold ref_nodes. rewrite Ei, MM. apply filter_In. split.
            * apply in_or_app. left. apply in_flat_map. exists sq. split; [exact Hs|]. unfold seq_nodes. apply in_or_app.
              destruct Hn as [Hn|[Hn _]]; auto.
            * destruct Hn as [Hn|[Hn Nn]]; apply named_inside in Hn; unfold is_rec.
              -- rewrite (kind_element _ (proj2 Hn)). reflexivity.
              -- rewrite (kind_group _ (proj2 Hn)). unfold key_of. rewrite (kind_group _ (proj2 Hn)).
                 destruct (l_attr "ref" n') as [r|] eqn:Er; [|reflexivity]. cbn [option_map].
                 destruct (str_eqb (local_name r) (py "groupGroup")) eqn:E1; [|reflexivity]. apply str_eqb_eq in E1.
                 exfalso. apply Nn. split; [apply Hn|]. exists r. auto.
          + exists t0. split; [apply HtT|]. split.
            * intros ->. destruct HtT as (_ & HtT & _). assert (X := l_is_tag _ _ _ HtT (proj2 defn_kid)). discriminate X.
            * apply named_inside in Hs. destruct Hn as [Hn|[Hn _]]; apply named_inside in Hn; exact (inside_in _ _ _ (proj1 Hs) (proj1 Hn)).
        - assert (Kn := kind_group n Hg). split; [rewrite Kn; discriminate|]. exists (local_name v). split.
          { unfold keyed, key_of. rewrite Kn, Hv. cbn [option_map]. rewrite (w_group _ _ _ _ _ CO _ _ HG). reflexivity. }
          split.
          + unfold ref_nodes. rewrite (group_items _ _ HG). apply filter_In. split; [exact Hn|]. apply path2_inside in Hn.
            unfold is_rec. rewrite (kind_element _ (proj2 Hn)). reflexivity.
          + exists G0. split; [apply HG|]. split.
            * intros ->. destruct HG as (_ & HtT & _). assert (X := l_is_tag _ _ _ HtT (proj2 defn_kid)). discriminate X.
            * apply path2_inside in Hn. apply Hn. }
      destruct M as (K & k & Kk & Hn & m & Hm & Nm & Im).
      destruct (finished j o k Hj Ho T K Kk) as [M C].
      assert (X : In n' (map (org (g ++ b)) (children_at h' j))) by (rewrite M; apply in_or_app; right; exact Hn).
      apply in_map_iff in X. destruct X as (x & Ex & Hx).
      assert (Lx : x < List.length h').
      { unfold children_at in Hx. rewrite Ho in Hx. exact (i_ch _ _ _ _ _ _ _ _ _ _ _ I _ _ _ Ho Hx). }
      destruct (nth_error h' x) as [ox|] eqn:Eo; [|apply nth_error_None in Eo; lia].
      exists x, ox. split; [exact Hx|]. split; [exact Eo|]. split; [exact (C x ox Hx Eo)|]. split; [exact Ex|].
      intros ->. destruct reg_d as (_ & Ld & Od & _). rewrite org_old in Ex by exact Ld. rewrite Od in Ex. subst n'.
      apply (not_inside kids "element" defn m (t_lines _ TY "element" ltac:(cbn; tauto))); try apply defn_kid; [|exact Im].
      destruct m as [|tg ln at_ ks]; [destruct Im|]. apply in_flat_map. eexists. split; [exact Hm|]. left. reflexivity.
    Qed.
    Lemma no_end : forall (S : lnode -> Prop), (forall n, S n -> exists n', content kids n n' /\ S n') ->
      forall fuel j o, j <> d -> nth_error h' j = Some o -> todo (sdict c) o = false -> S (org (g ++ b) j) ->
      build_tree fuel h' j <> Ok tt.
    Proof.
      intros S HS. induction fuel as [|fuel IH]; intros j o Hj Ho T HSj; [discriminate|].
      destruct (HS _ HSj) as (n' & Hc & Sn). destruct (one_step j o n' Hj Ho T Hc) as (x & ox & Hx & Hox & Tx & Ex & Nx).
      cbn [build_tree]. destruct (traverse (build_tree fuel h') (children_at h' j)) as [l|e] eqn:E1; [|discriminate].
      exfalso. destruct (in_F2 _ _ _ _ _ E1 x Hx) as ([] & X).
      apply (IH x ox Nx Hox Tx); [rewrite Ex; exact Sn|exact X].
    Qed.
  End WithCatalog.

  Lemma summary_parts : nxdl_summary E limit kids = Ok s ->
    attributes_of_type kids s (su_definition s) D /\
    (forall name i, In (name, i) [("attribute", su_attribute s); ("doc", su_doc s); ("field", su_field s);
                                  ("link", su_link s); ("group", su_group_attrs s)] ->
       forall x T, component kids G name x T -> attributes_of_type kids s i T).
  Proof.
    intros Hs. unfold nxdl_summary in Hs.
    destruct (read_catalog E kids) as [c|e] eqn:E1; [|discriminate]. cbn [rbind] in Hs.
    destruct (read_catalog_ok kids TY E defn c (proj1 defn_kid) (proj2 defn_kid) E1) as (g & w & CO).
    unfold init_definition in Hs. rewrite (db_element _ _ _ _ _ _ DB) in Hs.
    destruct (by_line (ca_element c) defn) as [d|e] eqn:E2; [|discriminate]. cbn [rbind] in Hs.
    destruct (db_type _ _ _ _ _ _ DB) as (v & Hv & HvD). unfold l_attr in Hv. unfold dgetitem at 1 in Hs. rewrite Hv in Hs. cbn [rbind] in Hs.
    rewrite HvD in Hs.
    destruct (schema_children c D) as [ch|e] eqn:E3; [|discriminate]. cbn [rbind] in Hs.
    match type of Hs with context [apply_substitutions limit ?a ?b d ?h] =>
      change a with (sdict c) in Hs; change b with (tdict c) in Hs;
      destruct (apply_substitutions limit (sdict c) (tdict c) d h) as [h'|e] eqn:E4; [|discriminate] end.
    cbn [rbind fst snd] in Hs.
    destruct (build_tree limit h' d) as [[]|e]; [|discriminate]. cbn [rbind] in Hs.
    destruct (first_value (kids_of KGroup h' d)) as [gi|e] eqn:E5; [|discriminate]. cbn [rbind] in Hs.
    destruct (dgetitem (py "group") (kids_of KElement h' gi)) as [jg|e] eqn:Eg; [|discriminate]. cbn [rbind] in Hs.
    destruct (dgetitem (py "attribute") (kids_of KElement h' gi)) as [ja|e] eqn:Ea; [|discriminate]. cbn [rbind] in Hs.
    destruct (dgetitem (py "doc") (kids_of KElement h' gi)) as [jd|e] eqn:Edc; [|discriminate]. cbn [rbind] in Hs.
    destruct (dgetitem (py "field") (kids_of KElement h' gi)) as [jf|e] eqn:Ef; [|discriminate]. cbn [rbind] in Hs.
    destruct (dgetitem (py "link") (kids_of KElement h' gi)) as [jl|e] eqn:El; [|discriminate]. cbn [rbind] in Hs.
    destruct (first_value (kids_of KElement h' d)) as [js|e] eqn:Es; [|discriminate]. cbn [rbind] in Hs.
    destruct (ca_simple c) as [st|] eqn:Est; [|discriminate]. cbn [rbind] in Hs. injection Hs as Hs.
    destruct (end_ok c g w d ch CO E2 E3 limit h' E4) as (b & I & Ed & Cd).
    assert (Hh : su_heap s = h') by (rewrite <- Hs; reflexivity).
    assert (Ht : su_simpleType s = tdict c) by (unfold tdict; rewrite Est, <- Hs; reflexivity).
    assert (Hd : su_definition s = d) by (rewrite <- Hs; reflexivity).
    destruct (first_value_kids _ _ _ _ E5) as (kg & Hkg).
    split.
    - rewrite Hd. exact (definition_attrs c g w d ch CO E2 E3 h' b I Hh Ht Ed Cd).
    - intros name i Hi x T CM.
      assert (X : dget (py name) (kids_of KElement h' gi) = Some i /\ py name <> [] /\ py name <> py "(element)").
      { destruct Hi as [Hi|[Hi|[Hi|[Hi|[Hi|[]]]]]]; injection Hi as <- <-; rewrite <- Hs; cbn [su_attribute su_doc su_field su_link su_group_attrs];
          (split; [apply dgetitem_ok; assumption|split; discriminate]). }
      destruct X as (X1 & X2 & X3).
      exact (component_attrs c g w d ch CO E2 E3 h' b I Hh Ht Ed Cd kg gi name i x T Hkg X2 X3 X1 CM).
  Qed.

  (** content that never ends, somewhere in the content of the definition *)
  Lemma endless : forall (S : lnode -> Prop), (forall n, S n -> exists n', content kids n n' /\ S n') ->
    forall sq n0, In sq (l_named "sequence" t) -> In n0 (seq_nodes sq) -> S n0 -> nxdl_summary E limit kids <> Ok s.
  Proof.
    intros S HS sq n0 Hsq Hn0 S0 Hs. unfold nxdl_summary in Hs.
    destruct (read_catalog E kids) as [c|e] eqn:E1; [|discriminate]. cbn [rbind] in Hs.
    destruct (read_catalog_ok kids TY E defn c (proj1 defn_kid) (proj2 defn_kid) E1) as (g & w & CO).
    unfold init_definition in Hs. rewrite (db_element _ _ _ _ _ _ DB) in Hs.
    destruct (by_line (ca_element c) defn) as [d|e] eqn:E2; [|discriminate]. cbn [rbind] in Hs.
    destruct (db_type _ _ _ _ _ _ DB) as (v & Hv & HvD). unfold l_attr in Hv. unfold dgetitem at 1 in Hs. rewrite Hv in Hs. cbn [rbind] in Hs.
    rewrite HvD in Hs.
    destruct (schema_children c D) as [ch|e] eqn:E3; [|discriminate]. cbn [rbind] in Hs.
    match type of Hs with context [apply_substitutions limit ?a ?b d ?h] =>
      change a with (sdict c) in Hs; change b with (tdict c) in Hs;
      destruct (apply_substitutions limit (sdict c) (tdict c) d h) as [h'|e] eqn:E4; [|discriminate] end.
    cbn [rbind fst snd] in Hs.
    destruct (build_tree limit h' d) as [[]|e] eqn:E5; [|discriminate].
    destruct (end_ok c g w d ch CO E2 E3 limit h' E4) as (b & I & Ed & Cd).
    assert (CH := ch_ok c g w ch CO E3).
    destruct (ct_shape _ _ _ _ _ _ CH) as (B & R & M & _).
    assert (X : In n0 (map (org g) ch)) by (rewrite M; apply in_or_app; left; apply in_flat_map; exists sq; auto).
    apply in_map_iff in X. destruct X as (j & Ej & Hj).
    assert (Lj := ct_lt _ _ _ _ _ _ CH j Hj).
    assert (Lh : List.length h' = List.length (g ++ b)) by (symmetry; exact (i_len _ _ _ _ _ _ _ _ _ _ _ I)).
    destruct (nth_error h' j) as [o|] eqn:Eo; [|apply nth_error_None in Eo; rewrite Lh, app_length in Eo; lia].
    assert (Dch := d_children c g w d ch CO E2 h' Ed).
    assert (NP := not_P_d c g w d ch CO E2 E3).
    destruct limit as [|fuel]; [discriminate|]. cbn [build_tree] in E5. rewrite Dch in E5.
    destruct (traverse (build_tree fuel h') ch) as [l|e] eqn:E6; [|discriminate].
    destruct (in_F2 _ _ _ _ _ E6 j Hj) as ([] & X).
    apply (no_end c g w d ch CO E2 h' b I S HS fuel j o); auto.
    - intros ->. apply NP. split; [exact Hj|].
      rewrite (kind_d c g w d ch CO E2). discriminate.
    - exact (Cd j o Hj Eo).
    - rewrite (org_old g b j Lj), Ej. exact S0.
  Qed.
End Final.
