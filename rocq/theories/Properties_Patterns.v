(** * C136: a pattern of the schema means what its text says *)

From Coq Require Import List NArith Bool String Lia.
From Verif Require Import PyBase Regex Spec_Regex RegexRead.
Import ListNotations.
Local Open Scope N_scope.

(** A text compiles if and only if it is the text of a pattern (Spec_Regex.v), and the
    compiled pattern matches a name if and only if the text accepts it. *)
Theorem C136_compiles : forall uw p, (exists c, re_compile p = Ok c) <-> (exists Ls, alternatives uw p Ls).
Proof.
  intros uw p. split.
  - intros (c & C). destruct (compile_reads uw p c C) as (Ls & A & _). eauto.
  - intros (Ls & A). destruct (reads_compile uw p Ls A) as (c & C & _). eauto.
Qed.
Print Assumptions C136_compiles.

Theorem C136_matches : forall uw p c s, re_compile p = Ok c -> (re_matches uw c s = true <-> pattern_accepts uw p s).
Proof. intros uw p c s C. symmetry. apply compile_accepts. auto. Qed.
Print Assumptions C136_matches.

(** All readings of one text accept the same names. *)
Theorem C136_one_meaning : forall uw p Ls Ls', alternatives uw p Ls -> alternatives uw p Ls' ->
  Forall2 (fun L L' => forall s, L s <-> L' s) Ls Ls'.
Proof.
  intros uw p Ls Ls' A A'. destruct (reads_compile uw p Ls A) as (c & C & F). destruct (reads_compile uw p Ls' A') as (c' & C' & F').
  assert (c' = c) by congruence. subst c'. clear A A' C C'. revert Ls' F'. induction F as [|r L c Ls R F IH]; intros Ls' F'; inversion F'; subst; constructor; auto.
  intros s. rewrite <- (R s). auto.
Qed.
Print Assumptions C136_one_meaning.

(** Other texts are not compiled: nothing is matched against half a pattern. *)
Theorem C136_rejects : forall uw p, (~ exists Ls, alternatives uw p Ls) <-> re_compile p = Exn Unsupported.
Proof.
  intros uw p. rewrite <- C136_compiles. unfold re_compile. destruct (p_alt (3 * S (List.length p)) p) as [[bs [|x r]]|].
  - split; [intros H; exfalso; eauto|discriminate].
  - split; auto. intros _ (c & C). discriminate.
  - split; auto. intros _ (c & C). discriminate.
Qed.
Print Assumptions C136_rejects.

(** ** Samples *)
(** the pattern for names with a dot, an alternative, a set with a dash at its end *)
Definition sample : pystr := py "[a-zA-Z_]([\w_\-.]*[a-z0-9-])?|NX.+".
Example C136_sample : exists c, re_compile sample = Ok c /\ re_matches (fun _ => false) c (py "NXentry") = true.
Proof. eexists. split; vm_compute; reflexivity. Qed.
Example C136_sample_text : exists Ls, alternatives (fun _ => false) sample Ls /\ accepts Ls (py "NXentry").
Proof.
  destruct C136_sample as (c & C & M). destruct (compile_reads (fun _ => false) _ _ C) as (Ls & A & F). exists Ls. split; auto.
  apply (branches_accept (fun _ => false) _ _ _ F). auto.
Qed.
(** a range that goes down, an open group, an open set, a mark without anything before it, a
    range from \w on, a stray parenthesis, a letter after a backslash *)
Example C136_bad : Forall (fun p => re_compile p = Exn Unsupported)
  [py "[z-a]"; py "(ab"; py "[ab"; py "*a"; py "[\w-z]"; py "a)"; py "\d"; py "a|+"; py "[]"].
Proof. repeat (constructor; [vm_compute; reflexivity|]). constructor. Qed.
Example C136_bad_text : ~ exists Ls, alternatives (fun _ => false) (py "[z-a]") Ls.
Proof. apply C136_rejects. vm_compute. reflexivity. Qed.
