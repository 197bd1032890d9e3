(** * Nothing leads out of the cache directory *)

From Coq Require Import List NArith ZArith Bool String.
From Verif Require Import PyBase PyFacts Cache Install Spec_Install InstallFacts.
Import ListNotations.
Open Scope list_scope.

Definition safe_entry (nt : pystr * tree) : Prop := safe_name (fst nt) /\ safe_tree (snd nt).
Definition safe_entries (e : entries) : Prop := Forall safe_entry e.

Lemma safe_dir : forall es, safe_tree (TDir es) <-> safe_entries es.
Proof. intros es. split; [intros H; inversion H; assumption | intros H; constructor; exact H]. Qed.

Lemma safe_dget : forall n t e, safe_entries e -> dget n e = Some t -> safe_tree t.
Proof. intros n t e S G. apply dget_In in G. apply (proj1 (Forall_forall _ _) S) in G. apply G. Qed.

Lemma safe_dset : forall n t e, safe_name n -> safe_tree t -> safe_entries e -> safe_entries (dset n t e).
Proof.
  intros n t e N T. unfold dset. induction e as [|[k u] e IH]; intros S; cbn [aset].
  - constructor; [split; assumption | constructor].
  - inversion S as [|? ? S1 S2]; subst. destruct (str_eqb n k).
    + constructor; [split; [exact (proj1 S1) || exact N | exact T] | exact S2].
    + constructor; [exact S1 | exact (IH S2)].
Qed.

Lemma safe_dremove : forall n e, safe_entries e -> safe_entries (dremove n e).
Proof.
  intros n e S. apply Forall_forall. intros x I. unfold dremove in I. apply filter_In in I as [I _].
  revert x I. apply Forall_forall. exact S.
Qed.

Lemma safe_tput : forall p t e e', Forall safe_name p -> safe_tree t -> safe_entries e -> tput p t e = Some e' -> safe_entries e'.
Proof.
  induction p as [|n p IH]; intros t e e' P T S H; [discriminate|]. inversion P as [|? ? P1 P2]; subst.
  destruct p as [|n' p].
  - cbn [tput] in H. injection H as <-. apply safe_dset; assumption.
  - change (match dget n e with
            | Some (TDir e1) => match tput (n' :: p) t e1 with Some e2 => Some (dset n (TDir e2) e) | None => None end
            | _ => None end = Some e') in H.
    destruct (dget n e) as [[c|e1]|] eqn:G; try discriminate. destruct (tput (n' :: p) t e1) as [e2|] eqn:X; [|discriminate].
    injection H as <-. apply safe_dset; auto. apply safe_dir. apply (IH t e1 e2 P2 T); [|exact X]. apply safe_dir. eapply safe_dget; eauto.
Qed.

Lemma safe_parts_safe : forall s, Forall safe_name (safe_parts s).
Proof.
  intros s. apply Forall_forall. intros c I. unfold safe_parts in I. apply filter_In in I as [I B]. split.
  - intros [-> | [-> | ->]]; discriminate.
  - eapply split_parts_no_sep; exact I.
Qed.

Scheme remains_ind2 := Induction for remains Sort Prop
  with left_of_ind2 := Induction for left_of Sort Prop.

Lemma safe_remains : forall t' t, remains t' t -> safe_tree t -> safe_tree t'.
Proof.
  apply (remains_ind2 (fun t' t _ => safe_tree t -> safe_tree t') (fun es' es _ => safe_entries es -> safe_entries es')).
  - auto.
  - intros es' es _ IH S. apply safe_dir. apply IH. apply safe_dir. exact S.
  - auto.
  - intros n t es' es _ IH S. inversion S as [|? ? S1 S2]; subst. exact (IH S2).
  - intros n t' t es' es _ IH1 _ IH2 S. inversion S as [|? ? S1 S2]; subst. destruct S1 as [S1 S3].
    constructor; [split; [exact S1 | exact (IH1 S3)] | exact (IH2 S2)].
Qed.

(** a computation that keeps the directory safe *)
Definition safe_step (e s : entries) : Prop := safe_entries e -> safe_entries s.
Lemma safe_refl : forall e, safe_step e e.
Proof. intros e S. exact S. Qed.
Lemma safe_trans : forall a b c, safe_step a b -> safe_step b c -> safe_step a c.
Proof. unfold safe_step. auto. Qed.

Lemma safe_steps : forall p data, Forall safe_name p -> steps safe_step p data.
Proof.
  intros p data P. split.
  - intros q x e e' -> _ T _ S. apply Forall_app in P as [P _]. eapply safe_tput; eauto. apply safe_dir. constructor.
  - intros c e e' _ T _ S. eapply safe_tput; eauto. constructor.
Qed.

Lemma safe_rmtree : forall name, safe_name name -> keeps safe_step (wrmtree name).
Proof.
  intros name N e. unfold wrmtree. destruct (dget name e) as [[c|es]|] eqn:G; try (split; [constructor | apply safe_refl]).
  set (ctx := fun o => match o with Some t => dset name t e | None => dremove name e end).
  assert (forall s, In s (rm_tree (TDir es) ctx) -> safe_step e s) as K.
  { intros s H S. apply rm_tree_states in H as [-> | (t' & R & ->)]; cbn [ctx]; [apply safe_dremove; exact S|].
    apply safe_dset; auto. eapply safe_remains; [exact R|]. eapply safe_dget; eauto. }
  split; [apply Forall_forall; exact K|]. rewrite rm_tree_dir, rm_go_last. cbn [ctx]. intros S. apply safe_dremove. exact S.
Qed.

Lemma safe_unpack : forall name z, safe_name name -> (forall top, top_of z = Ok top -> safe_name top) -> keeps safe_step (unpack name z).
Proof.
  intros name z N T e. unfold unpack. destruct (top_of z) as [top|x] eqn:E.
  2:{ simpl. split; [constructor | apply safe_refl]. }
  specialize (T top eq_refl).
  set (rest := fun top => _ : W unit).
  assert (keeps safe_step (rest top)) as K.
  { unfold rest. apply keeps_bind; [apply safe_trans| |intros count].
    - apply keeps_extract_all; [apply safe_refl | apply safe_trans|]. intros m _ _. apply safe_steps. apply safe_parts_safe.
    - destruct (Nat.ltb count 2); [apply keeps_raise; apply safe_refl|].
      apply keeps_bind; [apply safe_trans | apply keeps_lift; apply safe_refl | intros text].
      apply keeps_bind; [apply safe_trans | apply keeps_write; [apply safe_refl|] | intros _].
      + apply (safe_steps [top; INFO_FILE_NAME] text). constructor; [exact T | constructor; [|constructor]].
        split; [intros [X | [X | X]]; discriminate | vm_compute; intuition discriminate].
      + apply keeps_bind; [apply safe_trans | apply safe_rmtree; exact N | intros _].
        intros e1. unfold wmove. destruct (dget top e1) as [t|] eqn:G; [destruct (dget name e1)|]; try (split; [constructor | apply safe_refl]).
        assert (safe_step e1 (dset name t (dremove top e1))) as M.
        { intros S. apply safe_dset; auto; [eapply safe_dget; eauto | apply safe_dremove; exact S]. }
        split; auto. }
  specialize (K e). unfold wbind, wlift. destruct (rest top e) as [[l e2] r]. exact K.
Qed.

Lemma visited_safe : forall z top name replace net e s, net 0 = AnArchive z -> top_of z = Ok top -> safe_name top -> safe_name name ->
  safe_tree (TDir e) -> visited e (snd (download_file_set name replace net e)) s -> safe_tree (TDir s).
Proof.
  intros z top name replace net e s Z T St Sn Se V. apply safe_dir. apply safe_dir in Se. unfold download_file_set in V.
  destruct (dmem name e && negb replace); [destruct V as [-> | [[] | ->]]; exact Se|].
  unfold download_archive, GITHUB_RETRY_COUNT in V. cbn [try_rounds] in V. rewrite Z in V. cbn [try_round snd] in V.
  assert (forall top', top_of z = Ok top' -> safe_name top') as Q by (intros top' E; rewrite T in E; injection E as <-; exact St).
  pose proof (safe_unpack name z Sn Q e) as K.
  destruct (unpack name z e) as [[l e2] r]. destruct K as [K1 K2]. cbn [fst snd] in V. destruct V as [-> | [I | ->]]; auto.
  exact (proj1 (Forall_forall _ _) K1 s I Se).
Qed.
