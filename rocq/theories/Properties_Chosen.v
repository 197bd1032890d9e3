(** * Theorems about summaries of chosen statuses (C120) *)

From Coq Require Import List NArith ZArith Bool String Lia.
From Verif Require Import PyBase PyFacts Findings Core Report Samples Spec_Report ReportFacts SampleFacts.
Import ListNotations.
Local Open Scope nat_scope.

(** a finding that has another status is not left out: the call fails *)
Theorem C120_refuted : finding_summary [OK] [ok0; warn0] = Exn KeyError /\ f_status ok0 = OK /\ f_status warn0 = WARN.
Proof. vm_compute. auto. Qed.
Print Assumptions C120_refuted.

Lemma status_eqb_iff : forall a b, status_eqb a b = true <-> a = b.
Proof. intros a b. split; [destruct a, b; intros X; try reflexivity; discriminate X | intros ->; destruct b; reflexivity]. Qed.
Lemma status_eqb_neq : forall a b, a <> b -> status_eqb a b = false.
Proof. intros a b N. destruct (status_eqb a b) eqn:E; [apply status_eqb_iff in E; contradiction | reflexivity]. Qed.

Lemma start_fresh : forall sts d, NoDup (map fst d ++ sts) -> fold_left (fun d st => aset status_eqb st O d) sts d = d ++ map (fun s => (s, O)) sts.
Proof.
  induction sts as [|s sts IH]; intros d ND; [cbn; rewrite app_nil_r; reflexivity|]. cbn [fold_left map].
  assert (X : aset status_eqb s O d = d ++ [(s, O)]).
  { assert (N : ~ In s (map fst d)) by (intros I; apply NoDup_remove_2 in ND; apply ND, in_or_app; left; exact I). clear -N.
    induction d as [|[k v] d IH]; [reflexivity|]. cbn [aset app map fst In] in *. rewrite status_eqb_neq by intuition. rewrite IH; auto. }
  rewrite X, IH; [rewrite <- app_assoc; reflexivity|]. rewrite map_app. cbn [map fst]. rewrite <- app_assoc. exact ND.
Qed.

Lemma bump_one : forall st base l, NoDup l -> In st l ->
  bump st (map (fun s => (s, base s)) l) = Ok (map (fun s => (s, base s + (if status_eqb st s then 1 else 0))) l).
Proof.
  intros st base. induction l as [|s l IH]; intros ND I; [destruct I|]. inversion ND as [|x y N ND']; subst. cbn [map bump]. destruct (status_eqb st s) eqn:E.
  - apply status_eqb_iff in E. subst s. rewrite PeanoNat.Nat.add_1_r. do 2 f_equal. apply map_ext_in. intros a Ia. rewrite status_eqb_neq by (intros ->; contradiction). rewrite PeanoNat.Nat.add_0_r. reflexivity.
  - destruct I as [<- | I]; [rewrite (proj2 (status_eqb_iff s s) eq_refl) in E; discriminate|]. rewrite (IH ND' I). cbn [rbind]. rewrite PeanoNat.Nat.add_0_r. reflexivity.
Qed.
Lemma bump_none : forall st base l, ~ In st l -> bump st (map (fun s : status => (s, base s)) l) = Exn KeyError.
Proof.
  intros st base. induction l as [|s l IH]; intros N; [reflexivity|]. cbn [map bump]. rewrite status_eqb_neq by (intros ->; apply N; left; reflexivity).
  rewrite IH by (intros I; apply N; right; exact I). reflexivity.
Qed.
Lemma bump_chosen : forall l sts base, NoDup sts -> (forall f, In f l -> In (f_status f) sts) ->
  bump_all l (map (fun s => (s, base s)) sts) = Ok (map (fun s => (s, base s + number_with s l)) sts).
Proof.
  induction l as [|f l IH]; intros sts base ND H.
  - cbn [bump_all]. f_equal. apply map_ext. intros s. rewrite PeanoNat.Nat.add_0_r. reflexivity.
  - cbn [bump_all]. rewrite bump_one by (auto; apply H; left; reflexivity). cbn [rbind]. rewrite IH by (auto; intros g Ig; apply H; right; exact Ig).
    f_equal. apply map_ext. intros s. rewrite number_with_cons. f_equal. lia.
Qed.
Lemma bump_fails : forall l sts base, NoDup sts -> (exists f, In f l /\ ~ In (f_status f) sts) -> bump_all l (map (fun s => (s, base s)) sts) = Exn KeyError.
Proof.
  induction l as [|f l IH]; intros sts base ND (g & I & N); [destruct I|]. cbn [bump_all].
  destruct (in_dec (fun a b : status => ltac:(decide equality)) (f_status f) sts) as [J | J]; [|rewrite bump_none by exact J; reflexivity].
  rewrite bump_one by auto. cbn [rbind]. apply IH; [exact ND|]. destruct I as [<- | I]; [contradiction | exists g; auto].
Qed.

(** if all findings have a chosen status, each status is counted, in the order of the choice *)
Theorem C120_partial : forall chosen l, chosen <> [] -> NoDup chosen -> (forall f, In f l -> In (f_status f) chosen) ->
  finding_summary chosen l = Ok (map (fun s => (s, number_with s l)) chosen).
Proof.
  intros chosen l NE ND H. unfold finding_summary. destruct chosen as [|c cs]; [congruence|]. rewrite start_fresh by exact ND. cbn [app]. apply (bump_chosen l (c :: cs) (fun _ => 0)); auto.
Qed.
Print Assumptions C120_partial.

(** otherwise it fails *)
Theorem C120_fails : forall chosen l, chosen <> [] -> NoDup chosen -> (exists f, In f l /\ ~ In (f_status f) chosen) -> finding_summary chosen l = Exn KeyError.
Proof.
  intros chosen l NE ND H. unfold finding_summary. destruct chosen as [|c cs]; [congruence|]. rewrite start_fresh by exact ND. cbn [app]. apply (bump_fails l (c :: cs) (fun _ => 0)); auto.
Qed.
Print Assumptions C120_fails.

Example C120_case : finding_summary [WARN; ERROR; OK] [ok0; warn0; ok0] = Ok [(WARN, 1); (ERROR, 0); (OK, 2)]
  /\ (forall f, In f [ok0; warn0; ok0] -> In (f_status f) [WARN; ERROR; OK]) /\ NoDup [WARN; ERROR; OK].
Proof.
  split; [vm_compute; reflexivity|]. split; [intros f [<- | [<- | [<- | []]]]; vm_compute; auto|].
  repeat constructor; cbn; intuition discriminate.
Qed.
