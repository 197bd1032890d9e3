(** * Lemmas: listing file sets while others are installed *)

From Coq Require Import List NArith ZArith Bool String Lia.
From Verif Require Import PyBase PyFacts Cache Install Conc Listing Spec_FileSets Spec_Listing CacheSetFacts InstallFacts ConcFacts.
Import ListNotations.
Open Scope string_scope.
Open Scope list_scope.

(** ** What a process that looks can find *)
Inductive finds {B} (P : entries -> Prop) (Q : res B -> Prop) : look B -> Prop :=
| fi_got : forall r, Q r -> finds P Q (Got r)
| fi_look : forall f, (forall s, P s -> finds P Q (f s)) -> finds P Q (Look f).

Lemma watch_state : forall {A B} turns e (ps : list (prog A)) (q : look B), fst (watch turns e ps q) = schedule (others turns) e ps.
Proof.
  induction turns as [|[i|] turns IH]; intros e ps q; cbn [watch others flat_map app schedule]; [reflexivity | | apply IH].
  destruct (nth_error ps i) as [p|]; [|apply IH]. destruct (step p e) as [e' p']. apply IH.
Qed.
Lemma moment_later : forall {A} t turns e (ps : list (prog A)) s,
  moment turns (fst (schedule (others [t]) e ps)) (snd (schedule (others [t]) e ps)) s -> moment (t :: turns) e ps s.
Proof.
  intros A t turns e ps s (before & after & -> & ->). exists (t :: before), after. split; [reflexivity|]. replace (others (t :: before)) with (others [t] ++ others before) by (destruct t; reflexivity).
  assert (X : forall l l' e (ps : list (prog A)), schedule (l ++ l') e ps = schedule l' (fst (schedule l e ps)) (snd (schedule l e ps))).
  { induction l as [|i l IH]; intros l' e1 ps1; cbn [app schedule]; [reflexivity|]. destruct (nth_error ps1 i) as [p|]; [destruct (step p e1) as [e2 p2]|]; apply IH. }
  rewrite X. reflexivity.
Qed.
Lemma watch_finds : forall {A B} (Q : res B -> Prop) turns (P : entries -> Prop) e (ps : list (prog A)) q, (forall s, moment turns e ps s -> P s) ->
  finds P Q q -> finds P Q (snd (watch turns e ps q)).
Proof.
  induction turns as [|[i|] turns IH]; intros P e ps q HP F; cbn [watch]; [exact F | |].
  - destruct (schedule [i] e ps) as [e' ps'] eqn:E. apply IH; [|exact F]. intros s H. apply HP. apply moment_later. unfold others. cbn [flat_map app]. rewrite E. exact H.
  - apply IH.
    + intros s H. apply HP. apply moment_later. exact H.
    + inversion F as [r HQ | f HF]; subst; [constructor; exact HQ|]. apply HF, HP. exists [], (None :: turns). split; reflexivity.
Qed.

(** ** Listing *)
Section Listing.
  Variables (rj : json_reader) (cpath : pystr) (P : entries -> Prop).
  Definition seen (sets : dict fileset) : Prop := forall n fs, dget n sets = Some fs -> exists s, P s /\ offered rj cpath s n fs.
  Definition always (n : pystr) : Prop := forall s, P s -> exists fs, offered rj cpath s n fs.
  Definition outcome (known : list pystr) (r : res (dict fileset)) : Prop :=
    match r with
    | Ok sets => seen sets /\ (forall n, In n known -> always n -> dget n sets <> None)
    | Exn x => exists n, trouble rj P n x
    end.

  Lemma info_sub : forall s n t, info_file s n = Some t -> exists sub, dget n s = Some (TDir sub) /\ dget (py "__github_info__.json") sub = Some t.
  Proof.
    intros s n t H. unfold info_file in H. rewrite tget_cons in H. destruct (dget n s) as [[c|sub]|]; try discriminate. exists sub. split; [reflexivity|].
    cbn [tsub] in H. rewrite tget_cons in H. destruct (dget _ sub); exact H.
  Qed.
  Lemma sub_info : forall s n sub t, dget n s = Some (TDir sub) -> dget (py "__github_info__.json") sub = Some t -> info_file s n = Some t.
  Proof. intros s n sub t G H. unfold info_file. rewrite tget_cons, G. cbn [tsub]. rewrite tget_cons, H. reflexivity. Qed.

  Lemma list_items_finds : forall items known acc, seen acc -> (forall n, In n known -> always n -> dget n acc <> None) ->
    finds P (outcome (known ++ items)) (list_items rj cpath acc items).
  Proof.
    induction items as [|item items IH]; intros known acc Sa Ka; cbn [list_items].
    - rewrite app_nil_r. constructor. split; assumption.
    - assert (E : known ++ item :: items = (known ++ [item]) ++ items) by (rewrite <- app_assoc; reflexivity). rewrite E.
      assert (Skip : (exists s, P s /\ forall fs, ~ offered rj cpath s item fs) -> finds P (outcome ((known ++ [item]) ++ items)) (list_items rj cpath acc items)).
      { intros (s & Ps & No). apply IH; [exact Sa|]. intros n H Al. apply in_app_or in H as [H | [<- | []]]; [auto|]. destruct (Al s Ps) as (fs & O). destruct (No fs O). }
      constructor. intros s1 P1. destruct (tget [item] s1) as [[c|sub]|] eqn:G1.
      1, 3: apply Skip; exists s1; split; [exact P1|]; intros fs (sub & text & i & label & D & _); rewrite tget_cons, D in G1; discriminate.
      constructor. intros s2 P2. change (tget [item; INFO_FILE_NAME] s2) with (info_file s2 item). destruct (info_file s2 item) as [t2|] eqn:G2; cbn [is_some].
      2: apply Skip; exists s2; split; [exact P2|]; intros fs (sub2 & text & i & label & D & F & _); rewrite (sub_info _ _ _ _ D F) in G2; discriminate.
      constructor. intros s3 P3. change (tget [item; INFO_FILE_NAME] s3) with (info_file s3 item). destruct (info_file s3 item) as [t3|] eqn:G3; cbn [is_some].
      2: constructor; exists item; eapply tr_gone; [exact P2 | exact P3 | congruence | congruence].
      constructor. intros s4 P4. change (tget [item; INFO_FILE_NAME] s4) with (info_file s4 item). destruct (info_file s4 item) as [[text|sub4]|] eqn:G4.
      2, 3: constructor; exists item; eapply tr_gone; [exact P3 | exact P4 | congruence | congruence].
      destruct (rj text) as [i|x] eqn:R; [|constructor; exists item; eapply tr_text; eauto].
      assert (O : offered rj cpath s4 item (mkFS (cpath ++ [ch_slash] ++ item) (cache_label (cpath ++ [ch_slash] ++ item)) i)).
      { apply info_sub in G4 as (sub4 & D & F). exists sub4, text, i, (cache_label (cpath ++ [ch_slash] ++ item)). split; [exact D|]. split; [exact F|]. split; [exact R|]. split; [apply cache_label_spec; reflexivity | reflexivity]. }
      apply IH.
      + intros n fs H. rewrite dget_dset in H. destruct (str_eqb_spec n item) as [-> | N]; [injection H as <-; eauto | auto].
      + intros n H Al. rewrite dget_dset. destruct (str_eqb_spec n item) as [-> | N]; [discriminate|]. apply in_app_or in H as [H | [<- | []]]; [auto | congruence].
  Qed.

  Lemma offered_unique : forall s n a b, offered rj cpath s n a -> offered rj cpath s n b -> a = b.
  Proof.
    intros s n a b (sub & text & i & l & D & F & R & L & ->) (sub' & text' & i' & l' & D' & F' & R' & L' & ->).
    assert (sub' = sub) by congruence. subst sub'. assert (text' = text) by congruence. subst text'. assert (i' = i) by congruence. subst i'.
    apply cache_label_spec in L. apply cache_label_spec in L'. congruence.
  Qed.

  Lemma list_sets_finds : finds P (fun r => match r with
      | Ok sets => seen sets /\ (forall n fs, (forall s, P s -> offered rj cpath s n fs) -> dget n sets = Some fs)
      | Exn x => exists n, trouble rj P n x end) (list_sets rj cpath).
  Proof.
    constructor. intros s Ps. assert (X : finds P (outcome ([] ++ map fst s)) (list_items rj cpath [] (map fst s))) by (apply list_items_finds; [intros n fs; discriminate | intros n []]).
    cbn [app] in X. revert X. generalize (list_items rj cpath [] (map fst s)). induction 1 as [r Q | f _ IH]; constructor; [|exact IH].
    destruct r as [sets|x]; [|exact Q]. destruct Q as [Q1 Q2]. split; [exact Q1|]. intros n fs Al.
    assert (J : In n (map fst s)) by (destruct (Al s Ps) as (sub & text & i & l & D & _); apply dmem_In; unfold dmem, amem; unfold dget in D; rewrite D; reflexivity).
    assert (Y : dget n sets <> None) by (apply Q2; [exact J|]; intros s' Ps'; eauto).
    destruct (dget n sets) as [fs'|] eqn:G; [|congruence]. destruct (Q1 n fs' G) as (s' & Ps' & O). f_equal. eapply offered_unique; eauto.
  Qed.
End Listing.

(** ** Without others *)
Fixpoint at_once {B} (q : look B) (e : entries) : res B := match q with Got r => r | Look f => at_once (f e) e end.
Lemma watch_alone : forall {A B} turns e (ps : list (prog A)) (q : look B), (forall t, In t turns -> t = None) ->
  at_once (snd (watch turns e ps q)) e = at_once q e.
Proof.
  induction turns as [|t turns IH]; intros e ps q H; [reflexivity|]. rewrite (H t (or_introl eq_refl)). cbn [watch]. rewrite IH by (intros t' J; apply H; right; exact J).
  destruct q; reflexivity.
Qed.
Lemma list_items_alone : forall rj cpath l e acc, (forall n t, In (n, t) l -> dget n e = Some t) -> at_once (list_items rj cpath acc (map fst l)) e = cache_sets rj cpath acc l.
Proof.
  intros rj cpath. induction l as [|[item t] l IH]; intros e acc H; [reflexivity|]. cbn [map fst list_items at_once cache_sets].
  assert (H' : forall n t', In (n, t') l -> dget n e = Some t') by (intros n t' J; apply H; right; exact J).
  pose proof (H item t (or_introl eq_refl)) as G.
  assert (D : tget [item] e = Some t) by (rewrite tget_cons, G; destruct t; reflexivity). rewrite D. destruct t as [c|sub]; [apply IH, H'|].
  assert (X : tget [item; INFO_FILE_NAME] e = dget INFO_FILE_NAME sub) by (rewrite tget_cons, G; cbn [tsub]; rewrite tget_cons; destruct (dget INFO_FILE_NAME sub); reflexivity).
  cbn [at_once]. rewrite X. unfold read_info. destruct (dget INFO_FILE_NAME sub) as [[text|sub2]|]; cbn [is_some at_once rbind].
  - rewrite X. cbn [is_some at_once]. rewrite X. destruct (rj text) as [i|x]; cbn [rbind at_once]; [apply IH, H' | reflexivity].
  - rewrite X. cbn [is_some at_once]. rewrite X. reflexivity.
  - apply IH, H'.
Qed.
Lemma list_sets_alone : forall rj cpath e, NoDup (map fst e) -> at_once (list_sets rj cpath) e = cache_sets rj cpath [] e.
Proof.
  intros rj cpath e N. unfold list_sets. cbn [at_once]. apply list_items_alone. intros n t J. apply In_aget_NoDup; [apply str_eqb_eq | exact N | exact J].
Qed.
