(** * Installations and listings end, whatever other processes do *)

From Coq Require Import List NArith ZArith Bool String Lia PeanoNat.
From Verif Require Import PyBase PyFacts Cache Install Cli Conc Listing Spec_Install Spec_Conc Spec_Live ConcFacts Properties_Install Properties_Conc.
Import ListNotations.
Open Scope string_scope.
Open Scope list_scope.

(** ** Lemmas *)
Lemma first_turns_S : forall {A} (turns : nat -> A) k, first_turns turns (S k) = first_turns turns k ++ [turns k].
Proof. intros A turns k. unfold first_turns. rewrite seq_S, map_app. reflexivity. Qed.
Lemma first_turns_shift : forall {A} (turns : nat -> A) m k, first_turns turns (m + k) = first_turns turns m ++ first_turns (fun n => turns (m + n)) k.
Proof.
  intros A turns m k. unfold first_turns. rewrite seq_app, map_app. f_equal. cbn [plus]. rewrite <- (Nat.add_0_r m) at 1. generalize 0 as a.
  induction k as [|k IH]; intros a; [reflexivity|]. cbn [seq map]. rewrite <- (IH (S a)). rewrite Nat.add_succ_r. reflexivity.
Qed.
Lemma again_shift : forall {A} (turns : nat -> A) x m, again_and_again turns x -> again_and_again (fun n => turns (m + n)) x.
Proof. intros A turns x m H j. destruct (H (m + j)) as (k & L & E). exists (k - m). split; [lia|]. rewrite <- E. f_equal. lia. Qed.

(** the first turn of a process; before it the process is as it was *)
Lemma first_occurrence : forall turns (i : nat), again_and_again turns i -> exists k, turns k = i /\ forall j, j < k -> turns j <> i.
Proof.
  intros turns i H. destruct (H 0) as (k & _ & E). revert turns E H. induction k as [|k IH]; intros turns E H.
  - exists 0. split; [exact E | lia].
  - destruct (Nat.eq_dec (turns 0) i) as [E0 | N0]; [exists 0; split; [exact E0 | lia]|].
    destruct (IH (fun n => turns (1 + n)) E (again_shift turns i 1 H)) as (j & Ej & Lj). exists (S j). split; [exact Ej|].
    intros [|l] L; [exact N0 | apply (Lj l); lia].
Qed.
Lemma schedule_not : forall {A} t e (ps : list (prog A)) i, ~ In i t -> nth_error (snd (schedule t e ps)) i = nth_error ps i.
Proof.
  intros A. induction t as [|a t IH]; intros e ps i N; [reflexivity|]. cbn [schedule]. destruct (nth_error ps a) as [p|] eqn:E.
  - destruct (step p e) as [e' p']. rewrite IH by (intros I; apply N; right; exact I). apply nth_replace_other. intros ->. apply N. left. reflexivity.
  - apply IH. intros I. apply N. right. exact I.
Qed.
Lemma schedule_stays : forall {A} t e (ps : list (prog A)) i r, nth_error ps i = Some (Done r) -> nth_error (snd (schedule t e ps)) i = Some (Done r).
Proof.
  intros A. induction t as [|a t IH]; intros e ps i r H; [exact H|]. cbn [schedule]. destruct (nth_error ps a) as [p|] eqn:E; [|apply IH; exact H].
  destruct (Nat.eq_dec a i) as [-> | N].
  - rewrite H in E. injection E as <-. cbn [step]. apply IH. eapply nth_replace_same. exact H.
  - destruct (step p e) as [e' p']. apply IH. rewrite nth_replace_other by exact N. exact H.
Qed.
Lemma process_ends : forall {A} (p : prog A) turns e ps i, nth_error ps i = Some p -> again_and_again turns i ->
  exists k r, nth_error (snd (schedule (first_turns turns k) e ps)) i = Some (Done r).
Proof.
  intros A p. induction p as [r | f IH] using prog_ind2; intros turns e ps i E H; [exists 0, r; exact E|].
  destruct (first_occurrence turns i H) as (k & Ek & Lk). remember (schedule (first_turns turns k) e ps) as s eqn:Es.
  assert (X : nth_error (snd s) i = Some (Step f)).
  { subst s. rewrite schedule_not; [exact E|]. unfold first_turns. intros I. apply in_map_iff in I as (j & Ej & Ij). apply in_seq in Ij. apply (Lk j); [lia | exact Ej]. }
  remember (schedule (first_turns turns (S k)) e ps) as s' eqn:Es'.
  assert (Y : nth_error (snd s') i = Some (snd (f (fst s)))).
  { subst s'. rewrite first_turns_S, schedule_app, <- Es. cbn [schedule]. rewrite Ek, X. cbn [step]. destruct (f (fst s)) as [e' p']. eapply nth_replace_same. exact X. }
  destruct (IH (fst s) (fun n => turns (S k + n)) (fst s') (snd s') i Y (again_shift turns i (S k) H)) as (m & r & D).
  exists (S k + m), r. rewrite first_turns_shift, schedule_app, <- Es'. exact D.
Qed.

(** ** C124 *)
(** a process that gets turns again and again ends, and stays so; the others may have no turn any more, and need not be independent *)
Theorem C124_ends : forall jobs e turns i, i < List.length jobs -> again_and_again turns i ->
  exists k r, forall m, k <= m -> nth_error (snd (schedule (first_turns turns m) e (map process jobs))) i = Some (Done r).
Proof.
  intros jobs e turns i L H. destruct (nth_error (map process jobs) i) as [p|] eqn:E; [|apply nth_error_None in E; rewrite map_length in E; lia].
  destruct (process_ends p turns e _ i E H) as (k & r & D). exists k, r. intros m Lm. replace m with (k + (m - k)) by lia.
  rewrite first_turns_shift, schedule_app. apply schedule_stays, D.
Qed.
Print Assumptions C124_ends.

(** if all do, there is a time when all have ended, and from then on the directory is not changed any more *)
Theorem C124_all : forall jobs e turns, (forall i, i < List.length jobs -> again_and_again turns i) ->
  exists k, (forall i, i < List.length jobs -> exists r, nth_error (snd (schedule (first_turns turns k) e (map process jobs))) i = Some (Done r))
    /\ forall m, k <= m -> fst (schedule (first_turns turns m) e (map process jobs)) = fst (schedule (first_turns turns k) e (map process jobs)).
Proof.
  intros jobs e turns H. assert (X : forall n, n <= List.length jobs -> exists k, forall i, i < n -> exists r, forall m, k <= m -> nth_error (snd (schedule (first_turns turns m) e (map process jobs))) i = Some (Done r)).
  { induction n as [|n IH]; intros L; [exists 0; lia|]. destruct IH as (k & K); [lia|]. destruct (C124_ends jobs e turns n) as (k' & r' & K'); [lia | apply H; lia|].
    exists (max k k'). intros i Li. destruct (Nat.eq_dec i n) as [-> | Ni]; [exists r'; intros m Lm; apply K'; lia|]. destruct (K i) as (r & R); [lia|]. exists r. intros m Lm. apply R. lia. }
  destruct (X _ (Nat.le_refl _)) as (k & K). exists k. split; [intros i L; destruct (K i L) as (r & R); exists r; apply R; lia|].
  intros m Lm. replace m with (k + (m - k)) by lia. rewrite first_turns_shift, schedule_app. set (s := schedule (first_turns turns k) e (map process jobs)) in *.
  assert (D : forall i p, nth_error (snd s) i = Some p -> exists r, p = Done r).
  { intros i p E. destruct (Nat.lt_ge_cases i (List.length jobs)) as [L | L].
    - destruct (K i L) as (r & R). specialize (R k (Nat.le_refl _)). fold s in R. rewrite E in R. injection R as ->. eauto.
    - assert (Z : forall t e0 (ps : list (prog unit)), List.length (snd (schedule t e0 ps)) = List.length ps).
      { assert (RL : forall i (x : prog unit) l, List.length (replace_at i x l) = List.length l) by (induction i0 as [|a IHa]; intros x [|y l]; cbn [replace_at List.length]; auto).
        induction t as [|a t IHt]; intros e0 ps; [reflexivity|]. cbn [schedule]. destruct (nth_error ps a); [|apply IHt]. destruct (step p0 e0). rewrite IHt. apply RL. }
      assert (N : nth_error (snd s) i = None) by (apply nth_error_None; unfold s; rewrite Z, map_length; exact L). congruence. }
  clear -D. generalize (first_turns (fun n => turns (k + n)) (m - k)) as t. destruct s as [e0 ps]. cbn [fst snd] in *. intros t. revert e0 ps D.
  induction t as [|a t IH]; intros e0 ps D; [reflexivity|]. cbn [schedule]. destruct (nth_error ps a) as [p|] eqn:E; [|apply IH; exact D]. destruct (D a p E) as (r & ->). cbn [step].
  apply IH. intros i q Q. destruct (Nat.eq_dec a i) as [-> | N]; [rewrite (nth_replace_same i _ _ _ E) in Q; injection Q as <-; eauto | rewrite nth_replace_other in Q by exact N; eauto].
Qed.
Print Assumptions C124_all.

(** the processes of independent jobs need no more turns than when they are alone *)
Theorem C124_turns : forall jobs e turns i j, once_each (TDir e) -> (forall j, In j jobs -> ordinary_job j) -> independent jobs -> nth_error jobs i = Some j ->
  List.length (fst (fst (alone (process j) e))) <= count_occ Nat.eq_dec turns i ->
  nth_error (snd (schedule turns e (map process jobs))) i = Some (Done (snd (install_all (j_update j) (j_net j) 0 (j_names j) e))).
Proof.
  intros jobs e turns i j T O I E L. destruct (jobs_steps jobs e O I turns i j E) as [X _]. fold (turns_of i turns) in L.
  assert (Y : forall {A} (p : prog A) e n, List.length (fst (fst (alone p e))) <= n -> exists r, snd (steps n p e) = Done r).
  { intros A p. induction p as [r | f IH] using prog_ind2; intros e0 n Ln.
    - exists r. clear Ln. induction n; auto.
    - cbn [alone] in Ln. specialize (IH e0). destruct (f e0) as [e1 p1] eqn:F. cbn [snd] in IH. specialize (IH e1 (pred n)).
      destruct (alone p1 e1) as [[l e2] r]. cbn [fst List.length] in *. destruct n as [|n]; [lia|]. cbn [steps step pred] in *. rewrite F. apply IH. lia. }
  destruct (Y unit (process j) e _ L) as (r & R). rewrite R in X. rewrite X. destruct (C118_end jobs e turns i j r T O I E X) as [-> _]. reflexivity.
Qed.
Print Assumptions C124_turns.

(** a listing that gets turns again and again ends *)
Theorem C124_list : forall jobs e turns rj cpath, again_and_again turns None ->
  exists k r, snd (watch (first_turns turns k) e (map process jobs) (list_sets rj cpath)) = Got r.
Proof.
  assert (W : forall {A B} t1 t2 e (ps : list (prog A)) (q : look B), watch (t1 ++ t2) e ps q = let '(e', ps', q') := watch t1 e ps q in watch t2 e' ps' q').
  { intros A B. induction t1 as [|[i|] t1 IH]; intros t2 e ps q; cbn [app watch]; [reflexivity | destruct (schedule [i] e ps); apply IH | apply IH]. }
  assert (X : forall {A B} (q : look B) (ps : list (prog A)) e turns, again_and_again turns None -> exists k r, snd (watch (first_turns turns k) e ps q) = Got r).
  { intros A B. fix IH 1. intros [r | f] ps e turns H; [exists 0, r; reflexivity|]. destruct (H 0) as (k & _ & Ek). revert e ps turns H Ek. induction k as [|k IHk]; intros e ps turns H Ek.
    - destruct (IH (f e) ps e (fun n => turns (1 + n)) (again_shift turns None 1 H)) as (m & r & R). exists (1 + m), r. rewrite first_turns_shift. unfold first_turns at 1. cbn [seq map app]. rewrite Ek. exact R.
    - destruct (turns 0) as [i|] eqn:E0.
      + destruct (schedule [i] e ps) as [e' ps'] eqn:E. destruct (IHk e' ps' (fun n => turns (1 + n)) (again_shift turns None 1 H) Ek) as (m & r & R).
        exists (1 + m), r. rewrite first_turns_shift. unfold first_turns at 1. cbn [seq map app]. rewrite E0. cbn [watch]. rewrite E. exact R.
      + destruct (IH (f e) ps e (fun n => turns (1 + n)) (again_shift turns None 1 H)) as (m & r & R). exists (1 + m), r. rewrite first_turns_shift. unfold first_turns at 1. cbn [seq map app]. rewrite E0. exact R. }
  intros jobs e turns rj cpath H. apply X, H.
Qed.
Print Assumptions C124_list.

(** two installations of the same file set in turn; both end (one of them here with an error) *)
Example C124_case : (forall i, i < 2 -> again_and_again (fun n => n mod 2) i)
  /\ exists k, Forall (fun p => exists r, p = Done r) (snd (schedule (first_turns (fun n => n mod 2) k) [] (map process [job3; job3])))
  /\ snd (schedule (first_turns (fun n => n mod 2) 10) [] (map process [job3; job9])) <> [Done (Ok tt); Done (Ok tt)]
  /\ List.length (fst (fst (alone (process job9) []))) <= 30.
Proof.
  split.
  - intros i L m. exists (2 * m + i). split; [lia|]. rewrite Nat.mul_comm, Nat.add_comm, Nat.mod_add by lia. apply Nat.mod_small, L.
  - exists 80. split; [|split].
    + vm_compute. repeat constructor; eexists; reflexivity.
    + vm_compute. discriminate.
    + apply Nat.leb_le. vm_compute. reflexivity.
Qed.
