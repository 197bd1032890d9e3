(** * Facts about installations at the same time *)

From Coq Require Import List NArith ZArith Bool String Lia.
From Verif Require Import PyBase PyFacts Cache Install Cli Conc Spec_Install Spec_Conc InstallFacts InstallEnd.
From Verif Require CliFacts.
Import ListNotations.
Open Scope string_scope.
Open Scope list_scope.

Lemma prog_ind2 : forall {A} (P : prog A -> Prop), (forall r, P (Done r)) -> (forall f, (forall e, P (snd (f e))) -> P (Step f)) -> forall p, P p.
Proof.
  intros A P HD HS. fix IH 1. intros [r | f]; [apply HD|]. apply HS. intros e. destruct (f e) as [e' p']. apply IH.
Qed.

(** ** Processes that have to do with some entries only *)
Definition agree (K : pystr -> Prop) (e1 e2 : entries) : Prop := forall n, K n -> dget n e1 = dget n e2.

Inductive local {A} (K : pystr -> Prop) : prog A -> Prop :=
| loc_done : forall r, local K (Done r)
| loc_step : forall f, (forall e, local K (snd (f e))) -> (forall e n, ~ K n -> dget n (fst (f e)) = dget n e) ->
    (forall e1 e2, agree K e1 e2 -> agree K (fst (f e1)) (fst (f e2)) /\ snd (f e1) = snd (f e2)) -> local K (Step f).

Lemma local_bind : forall {A B} K (m : prog A) (k : A -> prog B), local K m -> (forall a, local K (k a)) -> local K (pbind m k).
Proof.
  intros A B K m k H Hk. induction H as [r | f H IH F S].
  - destruct r; cbn [pbind]; [apply Hk | constructor].
  - cbn [pbind]. constructor.
    + intros e. specialize (IH e). destruct (f e) as [e' m']. exact IH.
    + intros e n Kn. specialize (F e n Kn). destruct (f e). exact F.
    + intros e1 e2 Ag. destruct (S e1 e2 Ag) as [S1 S2]. destruct (f e1), (f e2). cbn [fst snd] in *. subst. auto.
Qed.

Lemma local_look : forall {A} K (k : entries -> prog A), (forall e, local K (k e)) -> (forall e1 e2, agree K e1 e2 -> k e1 = k e2) -> local K (plook k).
Proof. intros A K k H S. constructor; cbn [fst snd]; auto. Qed.

Lemma local_mono : forall {A} (K K' : pystr -> Prop) (p : prog A), (forall n, {K n} + {~ K n}) -> local K p -> (forall n, K n -> K' n) -> local K' p.
Proof.
  intros A K K' p D H I. induction H as [r | f H IH F S]; constructor; auto.
  intros e1 e2 Ag. assert (Ag' : agree K e1 e2) by (intros n Kn; apply Ag, I, Kn). destruct (S e1 e2 Ag') as [S1 S2]. split; [|exact S2].
  intros n Kn. destruct (D n) as [Y | N]; [apply S1, Y|]. rewrite !F by exact N. apply Ag, Kn.
Qed.

(** ** The steps *)
Definition only (a b n : pystr) : Prop := n = a \/ n = b.
Lemma only_dec : forall a b n, {only a b n} + {~ only a b n}.
Proof.
  intros a b n. destruct (list_eq_dec N.eq_dec n a) as [E | E]; [left; left; exact E|].
  destruct (list_eq_dec N.eq_dec n b) as [E' | E']; [left; right; exact E' | right; intros [X | X]; contradiction].
Qed.

Section Steps.
  Variable K : pystr -> Prop.

  Lemma agree_tget : forall e1 e2 n p, agree K e1 e2 -> K n -> tget (n :: p) e1 = tget (n :: p) e2.
  Proof. intros e1 e2 n p Ag Kn. rewrite !tget_cons, (Ag n Kn). reflexivity. Qed.

  Lemma agree_dset : forall e1 e2 n t, agree K e1 e2 -> agree K (dset n t e1) (dset n t e2).
  Proof. intros e1 e2 n t Ag m Km. rewrite !dget_dset. destruct (str_eqb m n); auto. Qed.
  Lemma agree_dremove : forall e1 e2 n, agree K e1 e2 -> agree K (dremove n e1) (dremove n e2).
  Proof. intros e1 e2 n Ag m Km. rewrite !dget_dremove. destruct (str_eqb m n); auto. Qed.

  (** writing at a path below an entry of [K] *)
  Lemma agree_tput : forall e1 e2 n p t, agree K e1 e2 -> K n ->
    match tput (n :: p) t e1, tput (n :: p) t e2 with Some a, Some b => agree K a b | None, None => True | _, _ => False end.
  Proof.
    intros e1 e2 n p t Ag Kn. destruct p as [|m p]; [cbn [tput]; apply agree_dset, Ag|]. rewrite !tput_cons by discriminate. rewrite (Ag n Kn).
    destruct (dget n e2) as [[c|e']|]; auto. destruct (tput (m :: p) t e'); auto. apply agree_dset, Ag.
  Qed.

  Lemma frame_tput : forall e n p t e', tput (n :: p) t e = Some e' -> K n -> forall m, ~ K m -> dget m e' = dget m e.
  Proof. intros e n p t e' H Kn m Km. eapply tput_head; eauto. intros ->. contradiction. Qed.

  Lemma local_makedirs : forall todo done, (forall n r, done ++ todo = n :: r -> K n) -> local K (pmakedirs done todo).
  Proof.
    induction todo as [|n todo IH]; intros done H; [constructor|].
    assert (H' : forall m r, (done ++ [n]) ++ todo = m :: r -> K m) by (intros m r E; apply (H m r); rewrite <- app_assoc in E; exact E).
    specialize (IH (done ++ [n]) H').
    assert (P : exists m q, done ++ [n] = m :: q /\ K m).
    { destruct done as [|m q]; [exists n, []; split; [reflexivity | eapply H; reflexivity]|]. exists m, (q ++ [n]). split; [reflexivity | eapply H; reflexivity]. }
    destruct P as (m & q & E & Km). cbn [pmakedirs]. rewrite E in *. apply local_look.
    - intros e. destruct (tget (m :: q) e) as [[c|es]|]; [constructor | exact IH |]. constructor.
      + intros e'. destruct (tget (m :: q) e'); [destruct todo; [constructor | exact IH]|]. destruct (tput (m :: q) (TDir []) e'); [exact IH | constructor].
      + intros e' k Kk. destruct (tget (m :: q) e'); [reflexivity|]. destruct (tput (m :: q) (TDir []) e') eqn:T; [|reflexivity]. eapply frame_tput; eauto.
      + intros e1 e2 Ag. rewrite (agree_tget e1 e2 m q Ag Km). destruct (tget (m :: q) e2); [split; [exact Ag | reflexivity]|].
        pose proof (agree_tput e1 e2 m q (TDir []) Ag Km) as T. destruct (tput (m :: q) (TDir []) e1), (tput (m :: q) (TDir []) e2); try contradiction; cbn [fst snd]; auto.
    - intros e1 e2 Ag. rewrite (agree_tget e1 e2 m q Ag Km). reflexivity.
  Qed.

  Lemma local_fill : forall n p todo done, K n -> local K (pfill (n :: p) done todo).
  Proof.
    intros n p. induction todo as [|c todo IH]; intros done Kn; [constructor|]. cbn [pfill]. constructor; cbn [fst snd]; auto.
    - intros e m Km. destruct (tput (n :: p) (TFile (done ++ [c])) e) eqn:T; [|reflexivity]. eapply frame_tput; eauto.
    - intros e1 e2 Ag. split; [|reflexivity]. pose proof (agree_tput e1 e2 n p (TFile (done ++ [c])) Ag Kn) as T.
      destruct (tput (n :: p) (TFile (done ++ [c])) e1), (tput (n :: p) (TFile (done ++ [c])) e2); try contradiction; auto.
  Qed.

  Lemma local_write : forall n p data, K n -> local K (pwrite (n :: p) data).
  Proof.
    intros n p data Kn. unfold pwrite. pose proof (local_fill n p data [] Kn) as F. constructor.
    - intros e. destruct (tget (n :: p) e) as [[c|es]|]; [|constructor|]; (destruct (tput (n :: p) (TFile []) e); [exact F | constructor]).
    - intros e m Km. destruct (tget (n :: p) e) as [[c|es]|]; [|reflexivity|]; (destruct (tput (n :: p) (TFile []) e) eqn:T; [eapply frame_tput; eauto | reflexivity]).
    - intros e1 e2 Ag. rewrite (agree_tget e1 e2 n p Ag Kn). pose proof (agree_tput e1 e2 n p (TFile []) Ag Kn) as T.
      destruct (tget (n :: p) e2) as [[c|es]|]; [|split; [exact Ag | reflexivity]|];
        (destruct (tput (n :: p) (TFile []) e1), (tput (n :: p) (TFile []) e2); try contradiction; cbn [fst snd]; auto).
  Qed.

  Lemma local_extract : forall name data n p, safe_parts name = n :: p -> K n -> local K (pextract name data).
  Proof.
    intros name data n p E Kn. unfold pextract. rewrite E. apply local_bind.
    - apply local_makedirs. intros m r X. cbn [app] in X. destruct p; [discriminate|]. injection X as <- _. exact Kn.
    - intros _. destruct (endswith name [ch_slash]); [|apply local_write, Kn]. apply local_look.
      + intros e. destruct (tget (n :: p) e) as [[c|es]|]; [constructor | constructor |]. constructor.
        * intros e'. destruct (tget (n :: p) e'); [constructor|]. destruct (tput (n :: p) (TDir []) e'); constructor.
        * intros e' m Km. destruct (tget (n :: p) e'); [reflexivity|]. destruct (tput (n :: p) (TDir []) e') eqn:T; [eapply frame_tput; eauto | reflexivity].
        * intros e1 e2 Ag. rewrite (agree_tget e1 e2 n p Ag Kn). destruct (tget (n :: p) e2); [split; [exact Ag | reflexivity]|].
          pose proof (agree_tput e1 e2 n p (TDir []) Ag Kn) as T. destruct (tput (n :: p) (TDir []) e1), (tput (n :: p) (TDir []) e2); try contradiction; cbn [fst snd]; auto.
      + intros e1 e2 Ag. rewrite (agree_tget e1 e2 n p Ag Kn). reflexivity.
  Qed.

  Lemma local_extract_all : forall z top ms count, K top ->
    (forall m, In m ms -> is_extractable (m_name m) NXDL_file_endings (allowed_parents top) = true -> exists p, safe_parts (m_name m) = top :: p) ->
    local K (pextract_all z top count ms).
  Proof.
    intros z top. induction ms as [|m ms IH]; intros count Kt H; [constructor|]. cbn [pextract_all].
    destruct (is_extractable (m_name m) NXDL_file_endings (allowed_parents top)) eqn:X.
    - destruct (H m (or_introl eq_refl) X) as (p & E). apply local_bind; [eapply local_extract; eauto|]. intros _. apply IH; auto. intros m' I. apply H. right. exact I.
    - apply IH; auto. intros m' I. apply H. right. exact I.
  Qed.

  Lemma tdel_frame : forall n p e m, m <> n -> dget m (tdel (n :: p) e) = dget m e.
  Proof.
    intros n p e m N. destruct p as [|q p]; cbn [tdel].
    - rewrite dget_dremove. destruct (str_eqb_spec m n); congruence.
    - destruct (dget n e) as [[c|e']|]; try reflexivity. rewrite dget_dset. destruct (str_eqb_spec m n); congruence.
  Qed.
  Lemma tdel_agree : forall n p e1 e2, agree K e1 e2 -> K n -> agree K (tdel (n :: p) e1) (tdel (n :: p) e2).
  Proof.
    intros n p e1 e2 Ag Kn. destruct p as [|q p]; cbn [tdel]; [apply agree_dremove, Ag|].
    rewrite (Ag n Kn). destruct (dget n e2) as [[c|e']|]; auto. apply agree_dset, Ag.
  Qed.

  Lemma local_deletes : forall ps, (forall p, In p ps -> exists n q, p = n :: q /\ K n) -> local K (pdeletes ps).
  Proof.
    induction ps as [|p ps IH]; intros H; [constructor|]. destruct (H p (or_introl eq_refl)) as (n & q & -> & Kn). cbn [pdeletes].
    assert (I : local K (pdeletes ps)) by (apply IH; intros r Ir; apply H; right; exact Ir). constructor; cbn [fst snd]; auto.
    - intros e m Km. unfold pdelete. assert (m <> n) by (intros ->; contradiction). destruct (tget (n :: q) e) as [[c|[|]]|]; auto using tdel_frame.
    - intros e1 e2 Ag. split; [|reflexivity]. unfold pdelete. rewrite (agree_tget e1 e2 n q Ag Kn). destruct (tget (n :: q) e2) as [[c|[|]]|]; auto using tdel_agree.
  Qed.

  Lemma rm_paths_below : forall t p q, In q (rm_paths p t) -> exists r, q = p ++ r.
  Proof.
    induction t as [c | es IH] using tree_ind2; intros p q I.
    - destruct I as [<- | []]. exists []. rewrite app_nil_r. reflexivity.
    - cbn [rm_paths] in I. revert IH I. induction es as [|[n t] es IHe]; intros IH I.
      + destruct I as [<- | []]. exists []. rewrite app_nil_r. reflexivity.
      + apply in_app_or in I as [I | I].
        * destruct (IH n t (or_introl eq_refl) _ _ I) as (r & ->). exists (n :: r). rewrite <- app_assoc. reflexivity.
        * apply IHe; auto. intros n' t' I'. apply (IH n' t'). right. exact I'.
  Qed.

  Lemma local_rmtree : forall name, K name -> local K (prmtree name).
  Proof.
    intros name Kn. apply local_look.
    - intros e. destruct (dget name e) as [[c|es]|]; try constructor. apply local_deletes. intros p I. apply rm_paths_below in I as (r & ->). exists name, r. auto.
    - intros e1 e2 Ag. rewrite (Ag name Kn). reflexivity.
  Qed.

  Lemma local_move : forall src dst, K src -> K dst -> local K (pmove src dst).
  Proof.
    intros src dst Ks Kd. unfold pmove. constructor.
    - intros e. destruct (dget src e); [|constructor]. destruct (dget dst e) as [[c|es]|]; try constructor. destruct (dmem src es); constructor.
    - intros e n Kn. assert (n <> src) by (intros ->; contradiction). assert (n <> dst) by (intros ->; contradiction).
      assert (X : forall t, dget n (dset dst t (dremove src e)) = dget n e).
      { intros t. rewrite dget_dset. destruct (str_eqb_spec n dst); [contradiction|]. rewrite dget_dremove. destruct (str_eqb_spec n src); [contradiction | reflexivity]. }
      destruct (dget src e) as [t|]; [|reflexivity]. destruct (dget dst e) as [[c|es]|]; [reflexivity | destruct (dmem src es); [reflexivity | apply X] | apply X].
    - intros e1 e2 Ag. rewrite (Ag src Ks), (Ag dst Kd).
      assert (X : forall t, agree K (dset dst t (dremove src e1)) (dset dst t (dremove src e2))) by (intros t; apply agree_dset, agree_dremove, Ag).
      destruct (dget src e2) as [t|]; [|split; [exact Ag | reflexivity]].
      destruct (dget dst e2) as [[c|es]|]; [split; [exact Ag | reflexivity] | destruct (dmem src es); cbn [fst snd]; split; auto | cbn [fst snd]; split; auto].
  Qed.

  Lemma local_unpack : forall name z top, plain_archive z top name -> K name -> K top -> local K (punpack name z).
  Proof.
    intros name z top PA Kn Kt. unfold punpack.
    destruct (pa_top _ _ _ PA) as (m & rest & Ez & Et). assert (T : top_of z = Ok top) by (unfold top_of; rewrite Ez, Et; reflexivity). rewrite T. cbn [pbind].
    apply local_bind.
    - apply local_extract_all; auto. intros m' I X. apply extractable_spec in X; [|apply PA]. destruct (pa_inside _ _ _ PA m' I X) as (r & D & _). apply destination_spec in D. eauto.
    - intros count. destruct (Nat.ltb count 2); [constructor|]. destruct (z_info z name) as [text|x]; cbn [pbind]; [|constructor].
      apply local_bind; [apply local_write, Kt|]. intros _. apply local_bind; [apply local_rmtree, Kn|]. intros _. apply local_move; auto.
  Qed.

  Lemma local_download : forall name update net, K name ->
    (forall z, net 0 <> AnArchive z) \/ (exists z top, net 0 = AnArchive z /\ plain_archive z top name /\ K top) -> local K (pdownload name update net).
  Proof.
    intros name update net Kn H. apply local_look.
    - intros e. destruct (dmem name e && negb update); [constructor|]. unfold download_archive, GITHUB_RETRY_COUNT. cbn [try_rounds].
      destruct H as [H | (z & top & Z & PA & Kt)].
      + destruct (net 0) as [z| |x]; [destruct (H z eq_refl)| |]; constructor.
      + rewrite Z. cbn [try_round snd]. eapply local_unpack; eauto.
    - intros e1 e2 Ag. assert (D : dmem name e1 = dmem name e2) by (rewrite !CliFacts.dmem_dget, (Ag name Kn); reflexivity). rewrite D. reflexivity.
  Qed.

  Lemma local_install : forall update net names i, (forall j name, nth_error names j = Some name -> K name
      /\ ((forall z, net (i + j) 0 <> AnArchive z) \/ exists z top, net (i + j) 0 = AnArchive z /\ plain_archive z top name /\ K top)) ->
    local K (pinstall_all update net i names).
  Proof.
    intros update net. induction names as [|name names IH]; intros i H; [constructor|]. cbn [pinstall_all]. apply local_bind.
    - destruct (H 0 name eq_refl) as [Kn X]. rewrite PeanoNat.Nat.add_0_r in X. apply local_download; auto.
    - intros _. apply IH. intros j nm Hj. specialize (H (S j) nm Hj). rewrite PeanoNat.Nat.add_succ_r in H. exact H.
  Qed.
End Steps.

Lemma local_process : forall j, ordinary_job j -> local (touches j) (process j).
Proof.
  intros j O. apply local_install. intros i name H. split; [left; eapply nth_error_In; eauto|]. cbn [plus].
  destruct (O i name H) as [N | (z & top & Z & PA)]; [left; exact N | right]. exists z, top. split; [exact Z|]. split; [exact PA|]. right. exists i, name, z. auto.
Qed.

(** ** Schedules *)
Fixpoint steps {A} (n : nat) (p : prog A) (e : entries) : entries * prog A :=
  match n with
  | O => (e, p)
  | S n' => let '(e', p') := step p e in steps n' p' e'
  end.

Lemma step_local : forall {A} K (p : prog A) e, local K p -> local K (snd (step p e)).
Proof. intros A K p e [r | f H _ _]; [constructor | apply H]. Qed.
Lemma step_frame : forall {A} K (p : prog A) e, local K p -> forall n, ~ K n -> dget n (fst (step p e)) = dget n e.
Proof. intros A K p e [r | f _ F _]; [reflexivity | apply F]. Qed.
Lemma step_agree : forall {A} K (p : prog A) e1 e2, local K p -> agree K e1 e2 -> agree K (fst (step p e1)) (fst (step p e2)) /\ snd (step p e1) = snd (step p e2).
Proof. intros A K p e1 e2 [r | f _ _ S] Ag; [auto | apply S, Ag]. Qed.

Lemma steps_agree : forall {A} K n (p : prog A) e1 e2, local K p -> agree K e1 e2 -> agree K (fst (steps n p e1)) (fst (steps n p e2)) /\ snd (steps n p e1) = snd (steps n p e2).
Proof.
  intros A K. induction n as [|n IH]; intros p e1 e2 L Ag; [auto|]. cbn [steps]. destruct (step_agree K p e1 e2 L Ag) as [X Y].
  pose proof (step_local K p e1 L) as L'. destruct (step p e1) as [a1 p1], (step p e2) as [a2 p2]. cbn [fst snd] in *. subst p2. apply IH; auto.
Qed.

Lemma nth_replace_same : forall {A} i (x y : A) l, nth_error l i = Some y -> nth_error (replace_at i x l) i = Some x.
Proof. intros A. induction i as [|i IH]; intros x y [|z l] H; try discriminate; [reflexivity|]. cbn [replace_at nth_error] in *. eauto. Qed.
Lemma nth_replace_other : forall {A} i k (x : A) l, i <> k -> nth_error (replace_at i x l) k = nth_error l k.
Proof.
  intros A. induction i as [|i IH]; intros [|k] x [|z l] N; try reflexivity; [congruence|]. cbn [replace_at nth_error]. apply IH. congruence.
Qed.

Definition turns_of (i : nat) (turns : list nat) : nat := count_occ PeanoNat.Nat.eq_dec turns i.

Lemma schedule_local : forall {A} (Ks : nat -> pystr -> Prop) turns e (ps : list (prog A)),
  (forall i p, nth_error ps i = Some p -> local (Ks i) p) -> (forall i k n, i <> k -> Ks i n -> ~ Ks k n) ->
  forall i p, nth_error ps i = Some p ->
    nth_error (snd (schedule turns e ps)) i = Some (snd (steps (turns_of i turns) p e)) /\ agree (Ks i) (fst (schedule turns e ps)) (fst (steps (turns_of i turns) p e)).
Proof.
  intros A Ks. induction turns as [|k turns IH]; intros e ps L D i p E; [cbn; split; [exact E | intros n _; reflexivity]|].
  cbn [schedule]. unfold turns_of in *. cbn [count_occ]. destruct (nth_error ps k) as [q|] eqn:Ek.
  2:{ destruct (PeanoNat.Nat.eq_dec k i) as [-> | N]; [congruence|]. apply IH; auto. }
  pose proof (step_local (Ks k) q e (L k q Ek)) as Lq. pose proof (step_frame (Ks k) q e (L k q Ek)) as Fq. destruct (step q e) as [e' q'] eqn:Sq. cbn [fst snd] in *.
  assert (L' : forall j r, nth_error (replace_at k q' ps) j = Some r -> local (Ks j) r).
  { intros j r H. destruct (PeanoNat.Nat.eq_dec k j) as [<- | N]; [erewrite nth_replace_same in H by eauto; injection H as <-; exact Lq|].
    rewrite nth_replace_other in H by exact N. apply L, H. }
  destruct (PeanoNat.Nat.eq_dec k i) as [-> | N].
  - assert (p = q) by congruence. subst q. cbn [steps]. rewrite Sq. apply (IH e' _ L' D i q'). eapply nth_replace_same; eauto.
  - destruct (IH e' _ L' D i p) as [X Y]; [rewrite nth_replace_other by exact N; exact E|].
    assert (Ag : agree (Ks i) e' e) by (intros n Kn; apply Fq; intros Kk; exact (D i k n (not_eq_sym N) Kn Kk)).
    destruct (steps_agree (Ks i) (count_occ PeanoNat.Nat.eq_dec turns i) p e' e (L i p E) Ag) as [U V]. rewrite <- V. split; [exact X|].
    intros n Kn. rewrite (Y n Kn). apply U, Kn.
Qed.

Lemma schedule_frame : forall {A} (K : pystr -> Prop) turns e (ps : list (prog A)), (forall p, In p ps -> local K p) ->
  forall n, ~ K n -> dget n (fst (schedule turns e ps)) = dget n e.
Proof.
  intros A K. induction turns as [|k turns IH]; intros e ps L n Kn; [reflexivity|]. cbn [schedule]. destruct (nth_error ps k) as [q|] eqn:Ek; [|auto].
  pose proof (step_local K q e (L q (nth_error_In _ _ Ek))) as Lq. pose proof (step_frame K q e (L q (nth_error_In _ _ Ek)) n Kn) as Fq.
  destruct (step q e) as [e' q']. cbn [fst snd] in *. rewrite IH; [exact Fq | | exact Kn]. clear -L Lq. revert k. induction ps as [|p ps IHp]; intros k r I; [destruct k, I|].
  destruct k; cbn [replace_at] in I; (destruct I as [<- | I]; auto); [apply L; right; exact I | apply L; left; reflexivity |].
  eapply IHp; [|exact I]. intros s Is. apply L. right. exact Is.
Qed.

(** the states that a process passes through when it is alone *)
Lemma alone_steps : forall {A} (p : prog A) e n, visited e (alone p e) (fst (steps n p e)).
Proof.
  intros A. induction p as [r | f IH] using prog_ind2; intros e n.
  - assert (X : steps n (Done r) e = (e, Done r)) by (induction n; auto). rewrite X. left. reflexivity.
  - destruct n as [|n]; [left; reflexivity|]. cbn [steps step alone]. specialize (IH e). destruct (f e) as [e1 p1]. cbn [snd] in IH. specialize (IH e1 n).
    destruct (alone p1 e1) as [[l e2] r2]. unfold visited in *. cbn [fst snd] in *. destruct IH as [-> | [I | ->]]; cbn; auto.
Qed.
