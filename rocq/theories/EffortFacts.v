(** * Counting the items of a validation *)

From Coq Require Import List NArith ZArith Bool String Lia Permutation.
From Verif Require Import PyBase PyFacts H5 Findings Nxdl Core Catalog Validate Trace CatalogFacts Spec_Run Spec_Catalog PathFacts CatalogRun
  AddressFacts CatalogEnd CatalogTerm PresenceFacts CatalogSamples Spec_Effort.
Import ListNotations.
Local Open Scope nat_scope.

Lemma NoDup_app_i : forall A (a b : list A), NoDup a -> NoDup b -> (forall x, In x a -> ~ In x b) -> NoDup (a ++ b).
Proof.
  induction a as [|x a IH]; intros b Ha Hb Hd; simpl; auto. inversion Ha; subst. constructor.
  - intros H. apply in_app_or in H as [H|H]; [contradiction|]. apply (Hd x); simpl; auto.
  - apply IH; auto. intros y Hy. apply Hd. right. auto.
Qed.

Lemma register_length : forall it s s' i, register it s = (s', Ok i) -> List.length (st_items s') = S (List.length (st_items s)).
Proof. intros it s s' i H. rewrite register_state in H. inversion H; subst. simpl. rewrite app_length. simpl. lia. Qed.

Lemma attrs_length : forall i it l s s', for_each (fun ka => let* _i := register (attr_item i it (snd ka) (Some (fst ka))) in ret tt) l s = (s', Ok tt) ->
  List.length (st_items s') = List.length (st_items s) + List.length l.
Proof.
  induction l as [|x l IH]; intros s s' H; cbn [for_each] in H.
  - inversion H; subst. simpl. lia.
  - apply bind_ok in H as [[] [s1 [H1 H2]]]. apply bind_ok in H1 as [j [s2 [H1 H3]]]. inversion H3; subst.
    apply register_length in H1. apply IH in H2. simpl. lia.
Qed.

Lemma item_same : forall i s s' it, item i s = (s', Ok it) -> s' = s.
Proof. intros i s s' it H. unfold item in H. destruct (nth_error _ _); inversion H; auto. Qed.

Lemma get_subject_length : forall c parent h s s' i, get_subject c parent h s = (s', Ok i) ->
  List.length (st_items s') = List.length (st_items s) + S (List.length (attrs_of (c_world c) h)).
Proof.
  intros c parent h s s' i H. unfold get_subject in H. apply bind_ok in H as [op [s1 [H1 H]]].
  assert (s1 = s).
  { destruct parent as [p|]; [|inversion H1; auto]. apply bind_ok in H1 as [pit [s2 [H1 H2]]]. inversion H2; subst. eapply item_same; eauto. }
  subst s1. apply bind_ok in H as [it [s1 [H2 H]]]. apply lift_ok in H2 as [-> H2]. apply bind_ok in H as [j [s2 [H3 H]]].
  apply bind_ok in H as [[] [s3 [H4 H]]]. inversion H; subst. apply register_length in H3. apply attrs_length in H4.
  rewrite H4, H3. unfold sorted_items. rewrite (Permutation_length (sorted_by_perm _ _)). lia.
Qed.

Section Count.
  Variable c : ctx.
  Variable file : pystr.
  Variable f : h5file.
  Let w := c_world c.
  Hypothesis Hfile : dget file w = Some (FHdf5 f).
  Hypothesis Hplain : plain_file f.
  Hypothesis Hdist : distinct_names f.

  Let sum (P : list (list pystr * nat)) : nat := list_sum (map (fun x => weight f (snd x)) P).

  (** every way from object [o] *)
  Definition ways (o : nat) (P : list (list pystr * nat)) : Prop := NoDup P /\ forall p b, In (p, b) P <-> leads f o p b.

  Lemma leaf_ways : forall h, h_file h = file -> h_isfile h = false -> isHdf5Group w h = false -> ways (h_oid h) [([], h_oid h)].
  Proof.
    intros h Hf Hi Hg. split; [constructor; [intros []|constructor]|]. intros p b. split.
    - intros [E|[]]. inversion E; subst. constructor.
    - intros L. destruct p as [|n p]; [inversion L; subst; left; auto|exfalso].
      apply leads_keys in L. assert (X : ~ is_group f (h_oid h)). { intros Z. apply (group_is w file f Hfile h Hf Hi) in Z. congruence. }
      unfold members in L. destruct (nth_error f (h_oid h)) as [ob|] eqn:E; [|destruct L]. destruct (ob_kind ob) eqn:Ek; [|destruct L|destruct L].
      apply X. exists ob, links. auto.
  Qed.

  Lemma count : forall n parent g s s', group_address_catalog n c parent g s = (s', Ok tt) -> h_file g = file ->
    exists P, ways (h_oid g) P /\ List.length (st_items s') = List.length (st_items s) + sum P.
  Proof.
    induction n as [|n IH]; intros parent g s s' H Hg; [inversion H|]. rewrite catalog_unfold in H.
    apply bind_ok in H as [i [s1 [H1 H]]]. apply bind_ok in H as [it [s2 [H2 H]]]. apply item_same in H2. subst s2.
    apply bind_ok in H as [p [s2 [H2 H]]].
    assert (s2 = s1). { unfold last_of_classpath in H2. destruct (dget (it_cp it) (st_cp s1)) as [l|]; [destruct (rev l)|]; inversion H2; auto. }
    subst s2. clear H2. apply get_subject_length in H1. fold w in H1. rewrite (attrs_attributes w file f Hfile _ Hg) in H1.
    fold w in H. rewrite (links_members w file f Hfile _ Hg) in H.
    assert (L : forall l sa sb, incl l (dkeys (members f (h_oid g))) -> NoDup l -> for_each (step_member n c g p) l sa = (sb, Ok tt) ->
       exists P, NoDup P /\ (forall q b, In (q, b) P <-> exists m r, q = m :: r /\ In m l /\ leads f (h_oid g) q b)
         /\ List.length (st_items sb) = List.length (st_items sa) + sum P).
    { induction l as [|m l IHl]; intros sa sb Hl Hn Hf.
      - inversion Hf; subst. exists []. split; [constructor|]. split; [|unfold sum; simpl; lia].
        intros q b. split; [intros []|]. intros [m [r [_ [[] _]]]].
      - cbn [for_each] in Hf. apply bind_ok in Hf as [[] [sc [Hm Hf]]]. apply NoDup_cons_iff in Hn as [Nm Nl].
        destruct (IHl sc sb (fun x Hx => Hl x (or_intror Hx)) Nl Hf) as [P2 [N2 [W2 S2]]].
        unfold step_member in Hm. apply bind_ok in Hm as [h [sd [He Hm]]]. apply lift_ok in He as [-> He]. fold w in He, Hm.
        assert (Hname : link_name m).
        { specialize (Hl m (or_introl eq_refl)). unfold dkeys in Hl. apply in_map_iff in Hl as [[m' l'] [E Hin]]. simpl in E. subst m'. apply Hplain in Hin. tauto. }
        destruct (getitem_member w file f Hfile Hplain _ _ _ Hg Hname He) as [G1 [G2 [_ G4]]].
        assert (X : exists P1, ways (h_oid h) P1 /\ List.length (st_items sc) = List.length (st_items sa) + sum P1).
        { destruct (isHdf5Group w h) eqn:Eg; [eapply IH; eauto|]. apply bind_ok in Hm as [j [se [Hs Hr]]]. injection Hr as ->.
          apply get_subject_length in Hs. fold w in Hs. rewrite (attrs_attributes w file f Hfile _ G1) in Hs.
          exists [([], h_oid h)]. split; [apply leaf_ways; auto|]. rewrite Hs. unfold sum, weight. simpl. lia. }
        destruct X as [P1 [[N1 W1] S1]].
        exists (map (fun x => (m :: fst x, snd x)) P1 ++ P2). split; [|split].
        + apply NoDup_app_i; auto.
          * apply FinFun.Injective_map_NoDup; auto. intros [a b] [a' b'] E. simpl in E. inversion E; auto.
          * intros [q b] Hq Hq2. apply in_map_iff in Hq as [[r b'] [E _]]. simpl in E. inversion E; subst.
            apply W2 in Hq2 as [m' [r' [E2 [I2 _]]]]. inversion E2; subst. contradiction.
        + intros q b. rewrite in_app_iff. split.
          * intros [Hq|Hq].
            -- apply in_map_iff in Hq as [[r b'] [E I]]. simpl in E. inversion E; subst. apply W1 in I. exists m, r. split; auto. split; [left; auto|].
               change (m :: r) with ([m] ++ r). apply leads_app. eauto.
            -- apply W2 in Hq as [m' [r [E [I Le]]]]. exists m', r. split; auto. split; [right|]; auto.
          * intros [m' [r [-> [[<-|I] Le]]]].
            -- left. change (m :: r) with ([m] ++ r) in Le. apply leads_app in Le as [o [L1 L2]]. rewrite (leads_fun _ _ _ _ L1 _ G2) in L2.
               apply in_map_iff. exists (r, b). split; auto. apply W1. auto.
            -- right. apply W2. exists m', r. auto.
        + rewrite S2, S1. unfold sum. rewrite map_app, map_map, list_sum_app. simpl. lia. }
    destruct (L _ _ _ (fun x Hx => Hx) (proj1 (Hdist (h_oid g))) H) as [P [N1 [W1 S1]]].
    exists (([], h_oid g) :: P). split.
    - split.
      + constructor; auto. intros I. apply W1 in I as [m [r [E _]]]. discriminate.
      + intros q b. split.
        * intros [E|I]; [inversion E; subst; constructor|]. apply W1 in I as [m [r [_ [_ Le]]]]. auto.
        * intros Le. destruct q as [|m r]; [left; inversion Le; auto|right]. apply W1. exists m, r. split; auto. split; auto. eapply leads_keys; eauto.
    - rewrite S1, H1. unfold sum, weight. simpl. lia.
  Qed.
End Count.

Lemma listed_count : forall c s, cinv c s -> List.length (List.concat (map snd (st_cp s))) = List.length (st_items s).
Proof. intros c s H. pose proof (Permutation_length (ci_cpperm _ _ H)) as X. rewrite seq_length in X. exact X. Qed.

Lemma build_count : forall u w fname f cl s, dget fname w = Some (FHdf5 f) -> plain_file f -> distinct_names f ->
  build_address_catalog (mk_ctx u w fname) (fresh_state cl) = (s, Ok tt) ->
  exists P, all_ways f P /\ List.length (List.concat (map snd (st_cp s))) = list_sum (map (fun x => weight f (snd x)) P).
Proof.
  intros u w fname f cl s Hf Hp Hd H. destruct (build_spec _ _ _ _ H) as [HI _].
  destruct (count (mk_ctx u w fname) fname f Hf Hp Hd _ _ _ _ _ H eq_refl) as [P [W S1]].
  exists P. split; [exact W|]. rewrite (listed_count _ _ HI), S1. reflexivity.
Qed.

Lemma effort : forall u w v fname v' r f, dget fname w = Some (FHdf5 f) -> validate u w v fname = (v', r) -> catalogued v' r ->
  plain_file f -> distinct_names f ->
  exists P, all_ways f P /\ items_listed v' = list_sum (map (fun x => weight f (snd x)) P).
Proof.
  intros u w v fname v' r f Hf Hv Hc Hp Hd. destruct (validate_trace _ _ _ _ _ _ _ Hf Hv) as [s1 [rb [log [Eb [T [HI _]]]]]].
  pose proof (catalogued_ok _ _ _ _ _ _ _ Hf Hv _ _ Eb Hc) as ->.
  unfold items_listed. rewrite (tr_cp _ _ _ T). eapply build_count; eauto.
Qed.

Lemma sum_incl : forall (g : nat -> nat) l l', NoDup l -> incl l l' -> list_sum (map g l) <= list_sum (map g l').
Proof.
  induction l as [|x l IH]; intros l' Hn Hi; simpl; [lia|]. inversion Hn; subst.
  destruct (in_split x l' (Hi x (or_introl eq_refl))) as [a [b ->]]. rewrite map_app. simpl. rewrite list_sum_app. simpl.
  assert (X : incl l (a ++ b)).
  { intros y Hy. specialize (Hi y (or_intror Hy)). apply in_app_iff. apply in_app_iff in Hi as [Hi|[Hi|Hi]]; auto. subst. contradiction. }
  specialize (IH (a ++ b) H2 X). rewrite map_app, list_sum_app in IH. lia.
Qed.

Lemma leads_lt : forall f p a b, leads f a p b -> a < List.length f -> b < List.length f.
Proof.
  intros f p a b H. induction H as [a|a n p o b D L R IHR|a n p t o b D L IHL R IHR]; auto.
  intros Ha. apply IHR, IHL. destruct (is_abs t); auto. lia.
Qed.

Lemma ways_bound : forall f P, f <> [] -> one_way f -> all_ways f P -> list_sum (map (fun x => weight f (snd x)) P) <= file_size f.
Proof.
  intros f P Hne H1 [Hn Hw]. unfold file_size. rewrite <- (map_map snd (weight f)). apply sum_incl.
  - assert (X : forall p q o, In (p, o) P -> In (q, o) P -> p = q) by (intros p q o A B; apply Hw in A, B; eauto).
    clear Hw. induction P as [|[p o] P IH]; simpl; [constructor|]. inversion Hn; subst. constructor.
    + intros I. apply in_map_iff in I as [[q o'] [E I]]. simpl in E. subst o'. assert (p = q) by (eapply X; simpl; eauto). subst. contradiction.
    + apply IH; auto. intros a b o' A B. eapply X; simpl; eauto.
  - intros o I. apply in_map_iff in I as [[p o'] [E I]]. simpl in E. subst o'. apply Hw in I. apply in_seq. split; [lia|].
    simpl. eapply leads_lt; eauto. destruct f; [congruence|]. simpl. lia.
Qed.

(** ** Two links from each group to the next *)
Definition rung (k i : nat) : h5obj :=
  mkObj (KGroup (if i <? k then [(py "a", LHard (S i)); (py "b", LHard (S i))] else [])) [].
Definition ladder (k : nat) : h5file := map (rung k) (seq 0 (S k)).

Lemma ladder_nth : forall k i, i <= k -> nth_error (ladder k) i = Some (rung k i).
Proof.
  intros k i H. unfold ladder. apply map_nth_error. rewrite nth_error_nth' with (d := 0); [|rewrite seq_length; lia].
  rewrite seq_nth; [reflexivity|lia].
Qed.

Lemma ladder_len : forall k, List.length (ladder k) = S k.
Proof. intros. unfold ladder. rewrite map_length, seq_length. reflexivity. Qed.

Lemma ladder_members : forall k i, members (ladder k) i = if i <? k then [(py "a", LHard (S i)); (py "b", LHard (S i))] else [].
Proof.
  intros k i. unfold members. destruct (Nat.le_gt_cases i k) as [H|H].
  - rewrite ladder_nth by auto. reflexivity.
  - rewrite (proj2 (nth_error_None _ _)) by (rewrite ladder_len; lia). destruct (Nat.ltb_spec i k); [lia|reflexivity].
Qed.

Lemma ladder_attributes : forall k i, attributes (ladder k) i = [].
Proof.
  intros k i. unfold attributes. destruct (Nat.le_gt_cases i k) as [H|H].
  - rewrite ladder_nth by auto. reflexivity.
  - rewrite (proj2 (nth_error_None _ _)) by (rewrite ladder_len; lia). reflexivity.
Qed.

Lemma ladder_ranked : forall k, hard_ranked (ladder k) (fun i => k - i).
Proof.
  intros k o n l H. rewrite ladder_members in H. destruct (Nat.ltb_spec o k); [|destruct H].
  assert (link_name (py "a") /\ link_name (py "b")) as [A B].
  { split; (split; [discriminate|split; [intros [X|[]]; discriminate|discriminate]]). }
  destruct H as [E|[E|[]]]; inversion E; subst; (split; [auto|]; exists (S o); split; auto; rewrite ladder_len; split; lia).
Qed.

Lemma ladder_plain : forall k, plain_file (ladder k).
Proof. intros k o n l H. destruct (ladder_ranked k _ _ _ H) as [A [o' [-> _]]]. split; auto. intros; discriminate. Qed.

Lemma ladder_distinct : forall k, distinct_names (ladder k).
Proof.
  intros k o. rewrite ladder_members, ladder_attributes. split; [|constructor]. destruct (o <? k); [|constructor].
  simpl. constructor; [intros [X|[]]; discriminate|]. constructor; [intros []|constructor].
Qed.

Fixpoint words (k : nat) : list (list pystr) :=
  match k with O => [[]] | S k => map (cons (py "a")) (words k) ++ map (cons (py "b")) (words k) end.

Lemma words_len : forall k, List.length (words k) = 2 ^ k.
Proof. induction k as [|k IH]; [reflexivity|]. cbn [words]. rewrite app_length, !map_length, IH, Nat.pow_succ_r'. lia. Qed.

Lemma words_nodup : forall k, NoDup (words k).
Proof.
  induction k as [|k IH]; cbn [words]; [constructor; [intros []|constructor]|].
  apply NoDup_app_i.
  - apply FinFun.Injective_map_NoDup; auto. intros x y E. inversion E; auto.
  - apply FinFun.Injective_map_NoDup; auto. intros x y E. inversion E; auto.
  - intros x A B. apply in_map_iff in A as [y [<- _]]. apply in_map_iff in B as [z [E _]]. inversion E.
Qed.

Lemma words_lead : forall k n i p, i + n = k -> In p (words n) -> leads (ladder k) i p k.
Proof.
  intros k. induction n as [|n IH]; intros i p E H; cbn [words] in H.
  - destruct H as [<-|[]]. replace i with k by lia. constructor.
  - assert (M : members (ladder k) i = [(py "a", LHard (S i)); (py "b", LHard (S i))]).
    { rewrite ladder_members. destruct (Nat.ltb_spec i k); [reflexivity|lia]. }
    apply in_app_iff in H as [H|H]; apply in_map_iff in H as [q [<- H]];
      (apply le_hard with (o := S i); [rewrite M; reflexivity|rewrite ladder_len; lia|apply IH; auto; lia]).
Qed.

Lemma sum_ge : forall A (g : A -> nat) l, (forall x, 1 <= g x) -> List.length l <= list_sum (map g l).
Proof. intros A g l H. induction l as [|x l IH]; simpl; [lia|]. specialize (H x). lia. Qed.

Lemma ladder_described : forall E k fname, described E [(fname, FHdf5 (ladder k))] fname.
Proof.
  intros E k fname h x v _ Hin _. exfalso. unfold attrs_of, obj_of, get_obj in Hin. cbn [dget aget] in Hin.
  unfold dget in Hin. cbn [aget] in Hin. destruct (str_eqb (h_file h) fname); [|destruct Hin].
  pose proof (ladder_attributes k (h_oid h)) as X. unfold attributes in X. destruct (nth_error (ladder k) (h_oid h)); [|destruct Hin].
  rewrite X in Hin. destruct Hin.
Qed.

Lemma ladder_effort : forall u v fname k v' r, k < u_reclimit u -> validate u [(fname, FHdf5 (ladder k))] v fname = (v', r) ->
  2 ^ k <= items_listed v'.
Proof.
  intros u v fname k v' r Hk Hv.
  assert (Hf : dget fname [(fname, FHdf5 (ladder k))] = Some (FHdf5 (ladder k))). { unfold dget. simpl. rewrite str_eqb_refl. reflexivity. }
  destruct (hard_conditions _ _ _ _ Hf (ladder_ranked k) (u_reclimit u)) as [A B]; [lia|].
  destruct (cataloguing_completes _ _ _ _ _ _ _ Hf Hv A B (ladder_described _ _ _)) as [s [Hs [_ Hcp]]].
  destruct (build_count _ _ _ _ _ _ Hf (ladder_plain k) (ladder_distinct k) Hs) as [P [[N1 W1] S1]].
  unfold items_listed. rewrite Hcp, S1. etransitivity; [|apply sum_ge; intros; unfold weight; lia].
  rewrite <- words_len, <- (map_length (fun p => (p, k))). apply NoDup_incl_length.
  - apply FinFun.Injective_map_NoDup; [|apply words_nodup]. intros x y E. inversion E; auto.
  - intros [p o] H. apply in_map_iff in H as [q [E H]]. inversion E; subst. apply W1. apply (words_lead o o 0 p); auto.
Qed.

(** ** Files in which every object is linked once *)
Lemma once_one_way : forall f, once_linked f -> one_way f.
Proof.
  intros f [H1 H2]. assert (S1 : forall a n b, leads f a [n] b -> In (n, LHard b) (members f a)).
  { intros a n b L. inversion L as [|? ? ? o ? D Lo R|? ? ? t o ? D Lo R]; subst.
    - inversion R; subst. apply dget_In in D. auto.
    - apply dget_In in D. destruct (H1 _ _ _ D) as [x [X _]]. discriminate. }
  intros p. induction p as [|n p IH] using rev_ind; intros q o Hp Hq; destruct q as [|m q _] using rev_ind; auto.
  - inversion Hp; subst. apply leads_app in Hq as [x [_ Hq]]. apply S1 in Hq. destruct (H1 _ _ _ Hq) as [t [E X]]. inversion E; congruence.
  - inversion Hq; subst. apply leads_app in Hp as [x [_ Hp]]. apply S1 in Hp. destruct (H1 _ _ _ Hp) as [t [E X]]. inversion E; congruence.
  - apply leads_app in Hp as [x [P1 P2]]. apply leads_app in Hq as [y [Q1 Q2]]. apply S1 in P2, Q2.
    destruct (H2 _ _ _ _ _ P2 Q2) as [-> ->]. rewrite (IH _ _ P1 Q1). reflexivity.
Qed.

(** a check for the samples: the links with the object they are in *)
Definition linkage (f : h5file) : list (nat * pystr * link) :=
  flat_map (fun o => map (fun nl => (o, fst nl, snd nl)) (members f o)) (seq 0 (List.length f)).
Definition targets (f : h5file) : list nat := map (fun x => match snd x with LHard t => t | _ => 0 end) (linkage f).
Fixpoint nodupb (l : list nat) : bool := match l with [] => true | x :: l => negb (existsb (Nat.eqb x) l) && nodupb l end.
Definition onceb (f : h5file) : bool := negb (existsb (Nat.eqb 0) (targets f)) && nodupb (targets f).

Lemma linkage_in : forall f o n l, In (n, l) (members f o) -> In (o, n, l) (linkage f).
Proof.
  intros f o n l H. unfold linkage. apply in_flat_map. exists o. split.
  - apply in_seq. split; [lia|]. simpl. unfold members in H. destruct (nth_error f o) eqn:E; [|destruct H]. apply nth_error_Some. congruence.
  - apply in_map_iff. exists (n, l). auto.
Qed.

Lemma nodupb_ok : forall l, nodupb l = true -> NoDup l.
Proof.
  induction l as [|x l IH]; simpl; intros H; constructor; apply andb_true_iff in H as [A B]; auto.
  intros I. apply negb_true_iff in A. rewrite <- not_true_iff_false in A. apply A. apply existsb_exists. exists x. split; auto. apply Nat.eqb_refl.
Qed.

Lemma nodup_map_inj : forall A B (g : A -> B) l, NoDup (map g l) -> forall x y, In x l -> In y l -> g x = g y -> x = y.
Proof.
  induction l as [|z l IH]; simpl; intros Hn x y Hx Hy E; [destruct Hx|]. inversion Hn; subst.
  destruct Hx as [<-|Hx], Hy as [<-|Hy]; auto; exfalso; match goal with H : ~ In _ _ |- _ => apply H end; [rewrite E|rewrite <- E]; apply in_map; auto.
Qed.

Lemma onceb_ok : forall f, onceb f = true -> once_linked f.
Proof.
  intros f H. apply andb_true_iff in H as [A B]. apply negb_true_iff in A. rewrite <- not_true_iff_false in A. apply nodupb_ok in B. split.
  - intros o n l I. apply linkage_in in I.
    assert (X : (match l with LHard t => t | _ => 0 end) <> 0).
    { intros X. apply A. apply existsb_exists. exists 0. split; auto. unfold targets. apply in_map_iff. exists (o, n, l). auto. }
    destruct l; [eauto| |]; congruence.
  - intros o n o' n' t I J. apply linkage_in in I, J. assert (E : (o, n, LHard t) = (o', n', LHard t)).
    { eapply nodup_map_inj; [exact B| | |]; auto. }
    inversion E; auto.
Qed.
