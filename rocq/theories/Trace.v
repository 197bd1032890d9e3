(** * Traces: what running validator code does to the recorded findings

    Proof infrastructure.  Every computation of the validator after cataloguing
    changes items and findings only by recording findings and creating items;
    a [trace] lists these events. *)

From Coq Require Import List NArith ZArith Bool String Lia.
From Verif Require Import PyBase PyFacts Regex Utf8 H5 Findings Nxdl Core.
Import ListNotations.

Inductive event := ENew (it : vitem) | ERec (i : nat) (f : finding).

Definition add_val (f : finding) (it : vitem) : vitem := set_vals it (dset (f_test f) f (it_vals it)).

Definition apply_event (items : list vitem) (e : event) : list vitem :=
  match e with
  | ENew it => items ++ [it]
  | ERec i f => update_nth i (add_val f) items
  end.

Definition apply_log (items : list vitem) (log : list event) : list vitem := fold_left apply_event log items.

Definition rec_of (e : event) : list finding := match e with ENew _ => [] | ERec _ f => [f] end.
Definition recs (log : list event) : list finding := flat_map rec_of log.

Definition ev_ok (items : list vitem) (e : event) : Prop :=
  match e with
  | ENew it => it_vals it = []
  | ERec i f => exists it, nth_error items i = Some it /\ f_addr f = it_addr it
  end.

Fixpoint log_ok (items : list vitem) (log : list event) : Prop :=
  match log with
  | [] => True
  | e :: l => ev_ok items e /\ log_ok (apply_event items e) l
  end.

Record trace (s : vstate) (log : list event) (s' : vstate) : Prop := mkTrace {
  tr_items : st_items s' = apply_log (st_items s) log;
  tr_addr : st_addr s' = st_addr s;
  tr_cp : st_cp s' = st_cp s;
  tr_find : st_find s' = st_find s ++ recs log;
  tr_ok : log_ok (st_items s) log
}.

Lemma apply_log_app : forall l1 l2 items, apply_log items (l1 ++ l2) = apply_log (apply_log items l1) l2.
Proof. intros. unfold apply_log. apply fold_left_app. Qed.

Lemma recs_app : forall l1 l2, recs (l1 ++ l2) = recs l1 ++ recs l2.
Proof. intros. unfold recs. apply flat_map_app. Qed.

Lemma log_ok_app : forall l1 l2 items, log_ok items (l1 ++ l2) <-> log_ok items l1 /\ log_ok (apply_log items l1) l2.
Proof.
  induction l1; simpl; intros.
  - tauto.
  - rewrite IHl1. unfold apply_log. simpl. tauto.
Qed.

Lemma trace_nil : forall s, trace s [] s.
Proof. intros. constructor; simpl; auto. rewrite app_nil_r. reflexivity. Qed.

Lemma trace_app : forall s l1 s1 l2 s2, trace s l1 s1 -> trace s1 l2 s2 -> trace s (l1 ++ l2) s2.
Proof.
  intros s l1 s1 l2 s2 [] []. constructor.
  - rewrite apply_log_app. congruence.
  - congruence.
  - congruence.
  - rewrite recs_app, app_assoc. congruence.
  - apply log_ok_app. split; auto. rewrite <- tr_items0. auto.
Qed.

(** ** update_nth *)
Lemma update_nth_length : forall {A} (f : A -> A) l n, List.length (update_nth n f l) = List.length l.
Proof. induction l; destruct n; simpl; auto. Qed.

Lemma update_nth_same : forall {A} (f : A -> A) l n x, nth_error l n = Some x -> nth_error (update_nth n f l) n = Some (f x).
Proof.
  induction l; destruct n; simpl; intros; try discriminate.
  - congruence.
  - auto.
Qed.

Lemma update_nth_other : forall {A} (f : A -> A) l n m, n <> m -> nth_error (update_nth n f l) m = nth_error l m.
Proof.
  induction l; destruct n; destruct m; simpl; intros; auto; try congruence.
Qed.

(** ** The unchanging part of an item *)
Definition skel (it : vitem) : vitem := set_vals it [].

Lemma skel_add_val : forall f it, skel (add_val f it) = skel it.
Proof. reflexivity. Qed.

Lemma skel_eq : forall a b, skel a = skel b ->
  it_parent a = it_parent b /\ it_obj a = it_obj b /\ it_name a = it_name b /\ it_addr a = it_addr b
  /\ it_cp a = it_cp b /\ it_nxclass a = it_nxclass b.
Proof. intros [] [] H. unfold skel, set_vals in H. simpl in *. inversion H. subst. auto 10. Qed.

Lemma apply_event_skel : forall items e i it, nth_error items i = Some it ->
  exists it', nth_error (apply_event items e) i = Some it' /\ skel it' = skel it.
Proof.
  intros items [n|j f] i it H; simpl.
  - exists it. split; auto. rewrite nth_error_app1; auto. apply nth_error_Some. congruence.
  - destruct (Nat.eq_dec j i).
    + subst. rewrite (update_nth_same _ _ _ _ H). eauto.
    + rewrite update_nth_other by auto. eauto.
Qed.

Lemma apply_log_skel : forall log items i it, nth_error items i = Some it ->
  exists it', nth_error (apply_log items log) i = Some it' /\ skel it' = skel it.
Proof.
  induction log as [|e log IH]; simpl; intros.
  - eauto.
  - destruct (apply_event_skel items e i it H) as [it1 [H1 E1]].
    destruct (IH _ _ _ H1) as [it2 [H2 E2]]. exists it2. split; auto. congruence.
Qed.

Lemma trace_item : forall s log s' i it, trace s log s' -> nth_error (st_items s) i = Some it ->
  exists it', nth_error (st_items s') i = Some it' /\ skel it' = skel it.
Proof. intros. rewrite (tr_items _ _ _ H). apply apply_log_skel. auto. Qed.

(** ** Inversion of successful runs *)
Lemma bind_ok : forall A B (m : M A) (f : A -> M B) s s' b,
  bind m f s = (s', Ok b) -> exists a s1, m s = (s1, Ok a) /\ f a s1 = (s', Ok b).
Proof.
  intros A B m f s s' b H. unfold bind in H. destruct (m s) as [s1 [a|e]]; [eauto | discriminate].
Qed.

Lemma ret_ok : forall A (a b : A) s s', ret a s = (s', Ok b) -> s' = s /\ a = b.
Proof. intros. inversion H. auto. Qed.
Lemma raise_ok : forall A e s s' (b : A), raise e s = (s', Ok b) -> False.
Proof. intros. inversion H. Qed.
Lemma lift_ok : forall A (r : res A) s s' b, lift r s = (s', Ok b) -> s' = s /\ r = Ok b.
Proof. intros. inversion H. auto. Qed.
Lemma get_ok : forall s s' b, get s = (s', Ok b) -> s' = s /\ b = s.
Proof. intros. inversion H. auto. Qed.
Lemma item_ok : forall i s s' it, item i s = (s', Ok it) -> s' = s /\ nth_error (st_items s) i = Some it.
Proof. intros. unfold item in H. destruct (nth_error (st_items s) i) eqn:E; inversion H. subst. auto. Qed.

Lemma record_ok : forall i k st c s s' u, record_finding i k st c s = (s', Ok u) ->
  exists it, nth_error (st_items s) i = Some it
    /\ trace s [ERec i (mkF (it_addr it) k st c)] s'
    /\ st_cache s' = st_cache s /\ st_classes s' = st_classes s.
Proof.
  intros. unfold record_finding in H. apply bind_ok in H as [it [s1 [H1 H2]]].
  apply item_ok in H1 as [-> H1]. inversion H2; subst. exists it. split; auto. split; [|split; reflexivity].
  constructor; simpl; auto. split; auto. exists it. auto.
Qed.

Ltac inv_ok :=
  repeat match goal with
  | H : bind _ _ _ = (_, Ok _) |- _ => apply bind_ok in H as [? [? [? H]]]
  | H : ret _ _ = (_, Ok _) |- _ => apply ret_ok in H as [-> <-]
  | H : raise _ _ = (_, Ok _) |- _ => destruct (raise_ok _ _ _ _ _ H)
  | H : lift _ _ = (_, Ok _) |- _ => apply lift_ok in H as [-> H]
  | H : get _ = (_, Ok _) |- _ => apply get_ok in H as [-> ->]
  | H : item _ _ = (_, Ok _) |- _ => apply item_ok in H as [-> H]
  end.

(** a loop that completes: the events of each round, in order *)
Lemma for_each_ok : forall A (f : A -> M unit) (I : vstate -> Prop) (Q : A -> list event -> Prop) l s s' u,
  (forall x s1 s2 u, In x l -> I s1 -> f x s1 = (s2, Ok u) -> I s2 /\ exists log, trace s1 log s2 /\ Q x log) ->
  I s -> for_each f l s = (s', Ok u) ->
  I s' /\ exists lgs, trace s (List.concat lgs) s' /\ Forall2 Q l lgs.
Proof.
  induction l as [|x l IH]; simpl; intros s s' u Hf HI H.
  - inv_ok. split; auto. exists []. split; [apply trace_nil | constructor].
  - inv_ok. destruct (Hf x _ _ _ (or_introl eq_refl) HI H0) as [HI1 [l1 [T1 Q1]]].
    destruct (IH _ _ _ (fun y s1 s2 u Hy => Hf y s1 s2 u (or_intror Hy)) HI1 H) as [HI2 [l2 [T2 Q2]]].
    split; auto. exists (l1 :: l2). split.
    + simpl. eapply trace_app; eauto.
    + constructor; auto.
Qed.
