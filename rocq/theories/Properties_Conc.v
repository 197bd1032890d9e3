(** * Properties of installations at the same time *)

From Coq Require Import List NArith ZArith Bool String Lia.
From Verif Require Import PyBase PyFacts Cache Install Cli Conc Spec_Install Spec_Conc InstallFacts InstallEnd ConcFacts ConcAlone Properties_Install.
From Verif Require CliFacts.
Import ListNotations.
Open Scope string_scope.
Open Scope list_scope.

(** one installation of Cli.v, with no other at the same time *)
Notation install_alone j e := (install_all (j_update j) (j_net j) 0 (j_names j) e).

(** ** Lemmas *)
Lemma alone_done : forall {A} n (p : prog A) e r, snd (steps n p e) = Done r -> snd (alone p e) = r /\ snd (fst (alone p e)) = fst (steps n p e).
Proof.
  intros A n p. revert n. induction p as [r0 | f IH] using prog_ind2; intros n e r H.
  - assert (X : steps n (Done r0) e = (e, Done r0)) by (clear H; induction n; auto). rewrite X in *. cbn [snd] in H. injection H as ->. auto.
  - destruct n as [|n]; [discriminate|]. cbn [steps step alone] in *. specialize (IH e). destruct (f e) as [e1 p1]. cbn [snd] in IH. specialize (IH n e1 r H).
    destruct (alone p1 e1) as [[l e2] r2]. exact IH.
Qed.

Lemma alone_agree : forall {A} K (p : prog A), local K p -> forall e1 e2, agree K e1 e2 ->
  agree K (snd (fst (alone p e1))) (snd (fst (alone p e2))) /\ snd (alone p e1) = snd (alone p e2).
Proof.
  intros A K p H. induction H as [r | f H IH F S]; intros e1 e2 Ag; [auto|]. cbn [alone]. destruct (S e1 e2 Ag) as [X Y]. specialize (IH e1).
  destruct (f e1) as [a1 p1], (f e2) as [a2 p2]. cbn [fst snd] in *. subst p2. specialize (IH a1 a2 X).
  destruct (alone p1 a1) as [[l1 b1] r1], (alone p1 a2) as [[l2 b2] r2]. exact IH.
Qed.
Lemma alone_frame : forall {A} K (p : prog A), local K p -> forall e n, ~ K n -> dget n (snd (fst (alone p e))) = dget n e.
Proof.
  intros A K p H. induction H as [r | f H IH F S]; intros e n Kn; [reflexivity|]. cbn [alone]. specialize (F e n Kn). specialize (IH e).
  destruct (f e) as [e1 p1]. cbn [fst snd] in *. specialize (IH e1 n Kn). destruct (alone p1 e1) as [[l e2] r2]. cbn [fst snd] in *. congruence.
Qed.

Section Independent.
  Variables (jobs : list job) (e : entries).
  Hypothesis T : once_each (TDir e).
  Hypothesis O : forall j, In j jobs -> ordinary_job j.
  Hypothesis I : independent jobs.

  Definition Ks (i : nat) (n : pystr) : Prop := match nth_error jobs i with Some j => touches j n | None => False end.

  Lemma jobs_local : forall i p, nth_error (map process jobs) i = Some p -> local (Ks i) p.
  Proof.
    intros i p H. rewrite nth_error_map in H. unfold Ks. destruct (nth_error jobs i) as [j|] eqn:E; [|discriminate]. injection H as <-. apply local_process, O. eapply nth_error_In; eauto.
  Qed.
  Lemma jobs_apart : forall i k n, i <> k -> Ks i n -> ~ Ks k n.
  Proof.
    intros i k n N. unfold Ks. destruct (nth_error jobs i) as [a|] eqn:Ea; [|intros []]. destruct (nth_error jobs k) as [b|] eqn:Eb; [|intros _ []]. exact (I i k a b n N Ea Eb).
  Qed.
  Lemma jobs_steps : forall turns i j, nth_error jobs i = Some j ->
    nth_error (snd (schedule turns e (map process jobs))) i = Some (snd (steps (turns_of i turns) (process j) e))
    /\ agree (touches j) (fst (schedule turns e (map process jobs))) (fst (steps (turns_of i turns) (process j) e)).
  Proof.
    intros turns i j E. destruct (schedule_local Ks turns e (map process jobs) jobs_local jobs_apart i (process j)) as [X Y]; [rewrite nth_error_map, E; reflexivity|].
    split; [exact X|]. intros n Kn. apply Y. unfold Ks. rewrite E. exact Kn.
  Qed.
  Lemma process_alone : forall j, same e (alone (process j) e) (install_alone j e).
  Proof. intros j. apply same_install, T. Qed.
End Independent.

(** ** C118 *)
(** a process that has ended has the result, and leaves the directories, that it has when it is alone *)
Theorem C118_end : forall jobs e turns i j r, once_each (TDir e) -> (forall j, In j jobs -> ordinary_job j) -> independent jobs ->
  nth_error jobs i = Some j -> nth_error (snd (schedule turns e (map process jobs))) i = Some (Done r) ->
  r = snd (install_alone j e)
  /\ forall n, touches j n -> dget n (fst (schedule turns e (map process jobs))) = dget n (snd (fst (install_alone j e))).
Proof.
  intros jobs e turns i j r T O I E D. destruct (jobs_steps jobs e O I turns i j E) as [X Y]. rewrite D in X. injection X as X. symmetry in X.
  destruct (alone_done _ _ _ _ X) as [A B]. destruct (process_alone e T j) as (U & V & _). split; [congruence|]. intros n Kn. rewrite <- U, B. apply Y, Kn.
Qed.
Print Assumptions C118_end.

(** at every moment, whether the processes go on or are stopped, its directories are as at some moment when it is alone *)
Theorem C118_states : forall jobs e turns i j, once_each (TDir e) -> (forall j, In j jobs -> ordinary_job j) -> independent jobs ->
  nth_error jobs i = Some j ->
  exists s, visited e (install_alone j e) s /\ forall n, touches j n -> dget n (fst (schedule turns e (map process jobs))) = dget n s.
Proof.
  intros jobs e turns i j T O I E. destruct (jobs_steps jobs e O I turns i j E) as [_ Y]. exists (fst (steps (turns_of i turns) (process j) e)). split; [|exact Y].
  apply (same_visited e _ _ (process_alone e T j)). apply alone_steps.
Qed.
Print Assumptions C118_states.

(** all others stay as they are *)
Theorem C118_others : forall jobs e turns n, (forall j, In j jobs -> ordinary_job j) -> (forall j, In j jobs -> ~ touches j n) ->
  dget n (fst (schedule turns e (map process jobs))) = dget n e.
Proof.
  intros jobs e turns n O N. apply (schedule_frame (fun m => m <> n)); [|intros X; apply X; reflexivity].
  intros p Ip. apply in_map_iff in Ip as (j & <- & Ij). specialize (O j Ij). specialize (N j Ij).
  apply local_install. intros i name H. cbn [plus]. split; [intros ->; apply N; left; eapply nth_error_In; eauto|].
  destruct (O i name H) as [X | (z & top & Z & PA)]; [left; exact X | right]. exists z, top. split; [exact Z|]. split; [exact PA|]. intros ->. apply N. right. exists i, name, z. auto.
Qed.
Print Assumptions C118_others.

(** when all have ended, every directory is as if they had been run one after the other *)
Fixpoint one_by_one (jobs : list job) (e : entries) : entries :=
  match jobs with [] => e | j :: rest => one_by_one rest (snd (fst (install_alone j e))) end.

Lemma one_by_one_frame : forall jobs e n, once_each (TDir e) -> (forall j, In j jobs -> ordinary_job j) -> (forall j, In j jobs -> ~ touches j n) ->
  dget n (one_by_one jobs e) = dget n e.
Proof.
  induction jobs as [|j jobs IH]; intros e n T O N; [reflexivity|]. cbn [one_by_one]. destruct (process_alone e T j) as (U & _).
  rewrite <- U. rewrite IH; [apply (alone_frame (touches j)); [apply local_process, O; left; reflexivity | apply N; left; reflexivity] | apply keeping_alone; [apply keeping_install | exact T] |
    intros k Ik; apply O; right; exact Ik | intros k Ik; apply N; right; exact Ik].
Qed.
Lemma one_by_one_job : forall jobs e i j n, once_each (TDir e) -> (forall j, In j jobs -> ordinary_job j) -> independent jobs -> nth_error jobs i = Some j -> touches j n ->
  dget n (one_by_one jobs e) = dget n (snd (fst (install_alone j e))).
Proof.
  induction jobs as [|a jobs IH]; intros e i j n T O I E Kn; [destruct i; discriminate|]. cbn [one_by_one].
  pose proof (keeping_alone _ (keeping_install (j_update a) (j_net a) (j_names a) 0) e T) as T1. fold (process a) in T1. destruct (process_alone e T a) as (U & _). rewrite U in T1.
  assert (O' : forall k, In k jobs -> ordinary_job k) by (intros k Ik; apply O; right; exact Ik).
  assert (I' : independent jobs) by (intros x y b c m Nxy Eb Ec; exact (I (S x) (S y) b c m ltac:(congruence) Eb Ec)).
  destruct i as [|i]; cbn [nth_error] in E.
  - injection E as ->. rewrite one_by_one_frame; auto. intros k Ik Kk. apply In_nth_error in Ik as (x & Ek). exact (I 0 (S x) j k n ltac:(discriminate) eq_refl Ek Kn Kk).
  - rewrite (IH _ i j n T1 O' I' E Kn). destruct (process_alone e T j) as (V & _). destruct (process_alone _ T1 j) as (W & _). rewrite <- V, <- W.
    apply (alone_agree (touches j)); [apply local_process, O'; eapply nth_error_In; eauto | | exact Kn].
    intros m Km. rewrite <- U. apply (alone_frame (touches a)); [apply local_process, O; left; reflexivity|]. intros Ka. exact (I 0 (S i) a j m ltac:(discriminate) eq_refl E Ka Km).
Qed.

Lemma archive_top : forall z a b n m, plain_archive z a n -> plain_archive z b m -> a = b.
Proof. intros z a b n m [(x & l & E & ->) _ _ _] [(y & l' & E' & ->) _ _ _]. congruence. Qed.
(** whether a name is one of an ordinary job *)
Lemma touches_dec : forall j n, ordinary_job j -> touches j n \/ ~ touches j n.
Proof.
  intros j n O. destruct (in_dec (list_eq_dec N.eq_dec) n (j_names j)) as [In0 | Nin]; [left; left; exact In0|].
  assert (X : forall l k, (forall i name, nth_error l i = Some name -> nth_error (j_names j) (k + i) = Some name) ->
    (exists i name z, nth_error l i = Some name /\ j_net j (k + i) 0 = AnArchive z /\ plain_archive z n name)
    \/ ~ exists i name z, nth_error l i = Some name /\ j_net j (k + i) 0 = AnArchive z /\ plain_archive z n name).
  { induction l as [|a l IH]; intros k Sub; [right; intros (i & name & z & E & _); destruct i; discriminate|].
    destruct (IH (S k)) as [(i & name & z & E & Z & PA) | R].
    - intros i name E. rewrite <- (Sub (S i) name E). f_equal. lia.
    - left. exists (S i), name, z. rewrite PeanoNat.Nat.add_succ_r. auto.
    - assert (Rest : forall i name z, nth_error (a :: l) i = Some name -> j_net j (k + i) 0 = AnArchive z -> plain_archive z n name -> i = 0).
      { intros [|i] name z E Z PA; [reflexivity|]. destruct R. exists i, name, z. rewrite PeanoNat.Nat.add_succ_r in Z. auto. }
      destruct (O (k + 0) a (Sub 0 a eq_refl)) as [N | (z & top & Z & PA)].
      + right. intros (i & name & z & E & Z & PA). rewrite (Rest i name z E Z PA) in Z. exact (N z Z).
      + destruct (list_eq_dec N.eq_dec top n) as [-> | Nt].
        * left. exists 0, a, z. auto.
        * right. intros (i & name & z' & E & Z' & PA'). rewrite (Rest i name z' E Z' PA') in Z'. assert (z' = z) by congruence. subst z'. apply Nt. eapply archive_top; eauto. }
  destruct (X (j_names j) 0 (fun i name H => H)) as [Y | Y]; [left; right; exact Y | right; intros [Z | Z]; auto].
Qed.
Lemma some_touches : forall jobs n, (forall j, In j jobs -> ordinary_job j) -> (exists j, In j jobs /\ touches j n) \/ (forall j, In j jobs -> ~ touches j n).
Proof.
  induction jobs as [|a jobs IH]; intros n O; [right; intros j []|]. destruct (touches_dec a n (O a (or_introl eq_refl))) as [Ka | Na]; [left; exists a; split; [left; reflexivity | exact Ka]|].
  destruct (IH n) as [(j & Ij & Kj) | N]; [intros j Ij; apply O; right; exact Ij | left; exists j; split; [right; exact Ij | exact Kj] | right].
  intros j [<- | Ij]; auto.
Qed.

Theorem C118_order : forall jobs e turns, once_each (TDir e) -> (forall j, In j jobs -> ordinary_job j) -> independent jobs ->
  (forall i p, nth_error (snd (schedule turns e (map process jobs))) i = Some p -> exists r, p = Done r) ->
  forall n, dget n (fst (schedule turns e (map process jobs))) = dget n (one_by_one jobs e).
Proof.
  intros jobs e turns T O I D n. destruct (some_touches jobs n O) as [(j & Ij & Kn) | N].
  - apply In_nth_error in Ij as (i & E). rewrite (one_by_one_job jobs e i j n T O I E Kn). destruct (jobs_steps jobs e O I turns i j E) as [X _].
    destruct (D i _ X) as (r & R). rewrite R in X. apply (C118_end jobs e turns i j r T O I E X), Kn.
  - rewrite one_by_one_frame by auto. apply C118_others; auto.
Qed.
Print Assumptions C118_order.

(** an installation of one name that has ended without error has left a complete file set *)
Theorem C118_complete : forall jobs e turns i update net name z top, once_each (TDir e) -> (forall j, In j jobs -> ordinary_job j) -> independent jobs ->
  nth_error jobs i = Some (mkJob update net [name]) -> net 0 0 = AnArchive z -> plain_archive z top name -> update = true \/ dget name e = None ->
  nth_error (snd (schedule turns e (map process jobs))) i = Some (Done (Ok tt)) ->
  exists text t, z_info z name = Ok text /\ dget name (fst (schedule turns e (map process jobs))) = Some t /\ complete z top text t.
Proof.
  intros jobs e turns i update net name z top T O I E Z PA U D. destruct (C118_end jobs e turns i _ _ T O I E D) as [R F]. cbn [j_update j_net j_names] in *.
  rewrite (F name) by (left; left; reflexivity). cbn [install_all] in *. unfold wbind in *. pose proof (end_installed z top name e PA update (net 0) Z) as X.
  destruct (download_file_set name update (net 0) e) as [k [[l e1] [u|x]]]; cbn [snd fst] in *; [|discriminate]. destruct u. specialize (X eq_refl).
  destruct X as [[M N] | X]; [destruct U as [U | U]; [congruence|]; rewrite CliFacts.dmem_dget, U in M; discriminate|].
  destruct (installed_complete z top name e PA _ X) as (text & t & A & B & C & _). exists text, t. auto.
Qed.
Print Assumptions C118_complete.

(** ** Samples *)
Definition zip3 : archive := mkZ
  [mkM (py "definitions-9/") []; mkM (py "definitions-9/nxdl.xsd") (py "xy"); mkM (py "definitions-9/applications/NXarpes.nxdl.xml") (py "uv")] (fun _ => Ok (py "{}")).
Definition job3 : job := mkJob false (fun _ => net0) [py "v3"].
Definition job9 : job := mkJob true (fun _ _ => AnArchive zip3) [py "v9"].
Lemma zip3_plain : plain_archive zip3 (py "definitions-9") (py "v9").
Proof.
  constructor.
  - exists (mkM (py "definitions-9/") []). eexists. split; [reflexivity | vm_compute; reflexivity].
  - repeat split; discriminate.
  - discriminate.
  - intros m J D. apply extractable_spec in D; [|discriminate]. simpl in J. destruct J as [<- | [<- | [<- | []]]]; vm_compute in D; try discriminate D;
      (eexists; split; [apply destination_spec; vm_compute; reflexivity | vm_compute; intuition discriminate]).
Qed.
Lemma job3_ordinary : ordinary_job job3.
Proof. intros [|[|i]] name H; try discriminate. injection H as <-. right. exists zip0, top0. split; [reflexivity | apply zip0_plain]. Qed.
Lemma job9_ordinary : ordinary_job job9.
Proof. intros [|[|i]] name H; try discriminate. injection H as <-. right. exists zip3, (py "definitions-9"). split; [reflexivity | apply zip3_plain]. Qed.
Lemma job3_touches : forall n, touches job3 n -> n = py "v3" \/ n = top0.
Proof. intros n [[<- | []] | (i & name & z & E & Z & PA)]; [left; reflexivity|]. right. cbn in Z. injection Z as <-. eapply archive_top; [exact PA | apply zip0_plain]. Qed.
Lemma job9_touches : forall n, touches job9 n -> n = py "v9" \/ n = py "definitions-9".
Proof. intros n [[<- | []] | (i & name & z & E & Z & PA)]; [left; reflexivity|]. right. cbn in Z. injection Z as <-. eapply archive_top; [exact PA | apply zip3_plain]. Qed.

Lemma info_once : forall s, once_each (info_of s).
Proof.
  intros s. constructor; [constructor; [intros [X | []]; discriminate | constructor; [intros [] | constructor]]|].
  intros n t [X | [X | []]]; injection X as <- <-; constructor.
Qed.
(** one step each in turn: both end, and both file sets are there *)
Definition turns2 : list nat := flat_map (fun _ => [0; 1]) (seq 0 40).
Example C118_case : once_each (TDir [(py "v1", info_of "{}")]) /\ (forall j, In j [job3; job9] -> ordinary_job j) /\ independent [job3; job9]
  /\ snd (schedule turns2 [(py "v1", info_of "{}")] (map process [job3; job9])) = [Done (Ok tt); Done (Ok tt)]
  /\ map fst (fst (schedule turns2 [(py "v1", info_of "{}")] (map process [job3; job9]))) = [py "v1"; py "v3"; py "v9"]
  /\ map fst (fst (schedule (firstn 14 turns2) [(py "v1", info_of "{}")] (map process [job3; job9]))) = [py "v1"; top0; py "definitions-9"].
Proof.
  split; [|split; [|split; [|split; [|split]]]].
  - constructor; [constructor; [intros [] | constructor]|]. intros n t [X | []]. injection X as <- <-. apply info_once.
  - intros j [<- | [<- | []]]; [apply job3_ordinary | apply job9_ordinary].
  - intros [|[|[|i]]] [|[|[|k]]] a b n N Ea Eb Ka Kb; try discriminate; try congruence; injection Ea as <-; injection Eb as <-;
      try apply job3_touches in Ka; try apply job3_touches in Kb; try apply job9_touches in Ka; try apply job9_touches in Kb;
      destruct Ka as [-> | ->]; destruct Kb as [X | X]; discriminate X.
  - vm_compute. reflexivity.
  - vm_compute. reflexivity.
  - vm_compute. reflexivity.
Qed.

(** ** C119 *)
(** the second process has extracted one file when the first does everything; then the second goes on.  Both end without
    error, and the file is not in the file set. *)
Theorem C119_refuted : exists turns e, e = fst (schedule turns [] (map process [job3; job3]))
  /\ snd (schedule turns [] (map process [job3; job3])) = [Done (Ok tt); Done (Ok tt)]
  /\ provides zip0 top0 [top0; py "nxdl.xsd"] (py "ab") /\ tget [py "v3"; py "nxdl.xsd"] e = None
  /\ file_at [py "v3"; py "base_classes"; py "NXentry.nxdl.xml"] e = Some (py "cd").
Proof.
  exists (repeat 1 6 ++ repeat 0 60 ++ repeat 1 60). eexists. split; [reflexivity|]. split; [vm_compute; reflexivity|]. split; [|split; vm_compute; reflexivity].
  exists [mkM (py "definitions-3.3/") []], (mkM (py "definitions-3.3/nxdl.xsd") (py "ab")). eexists. split; [reflexivity|].
  split; [apply extractable_spec; [discriminate | vm_compute; reflexivity]|]. split; [apply destination_spec; vm_compute; reflexivity|].
  split; [intros (d & E); change (py "/") with [47%N] in E; apply (f_equal (fun s => last s 0%N)) in E; rewrite last_last in E; vm_compute in E; discriminate|]. split; [reflexivity|].
  intros m' J D. apply extractable_spec in D; [|discriminate]. intros X. apply destination_spec in X. cbn [m_name In] in J.
  destruct J as [<- | [<- | [<- | []]]]; vm_compute in D; try discriminate D; vm_compute in X; discriminate X.
Qed.
Print Assumptions C119_refuted.

(** the first ends without error, the second removes what it installed and fails: nothing is left *)
Theorem C119_gone : exists turns, schedule turns [] (map process [job3; job3]) = ([], [Done (Ok tt); Done (Exn OSError)]).
Proof. exists (repeat 1 15 ++ repeat 0 60 ++ repeat 1 60). vm_compute. reflexivity. Qed.
Print Assumptions C119_gone.

(** if the second begins when the first has ended, the file set is complete *)
Lemma schedule_app : forall {A} t1 t2 e (ps : list (prog A)), schedule (t1 ++ t2) e ps = schedule t2 (fst (schedule t1 e ps)) (snd (schedule t1 e ps)).
Proof.
  intros A. induction t1 as [|i t1 IH]; intros t2 e ps; [reflexivity|]. cbn [app schedule]. destruct (nth_error ps i); [|apply IH]. destruct (step p e). apply IH.
Qed.
Lemma schedule_first : forall {A} t (p q : prog A) e, (forall i, In i t -> i = 0) -> schedule t e [p; q] = (fst (steps (List.length t) p e), [snd (steps (List.length t) p e); q]).
Proof.
  intros A. induction t as [|i t IH]; intros p q e H; [reflexivity|]. rewrite (H i (or_introl eq_refl)). cbn [schedule nth_error List.length steps]. destruct (step p e) as [e' p'].
  cbn [replace_at]. apply IH. intros k Ik. apply H. right. exact Ik.
Qed.
Lemma schedule_second : forall {A} t (p q : prog A) e, (forall i, In i t -> i = 1) -> schedule t e [p; q] = (fst (steps (List.length t) q e), [p; snd (steps (List.length t) q e)]).
Proof.
  intros A. induction t as [|i t IH]; intros p q e H; [reflexivity|]. rewrite (H i (or_introl eq_refl)). cbn [schedule nth_error List.length steps]. destruct (step q e) as [e' q'].
  cbn [replace_at]. apply IH. intros k Ik. apply H. right. exact Ik.
Qed.

Lemma one_name_complete : forall update net name z top e, net 0 0 = AnArchive z -> plain_archive z top name ->
  snd (install_all update net 0 [name] e) = Ok tt ->
  (update = true \/ dget name e = None \/ exists text t, z_info z name = Ok text /\ dget name e = Some t /\ complete z top text t) ->
  exists text t, z_info z name = Ok text /\ dget name (snd (fst (install_all update net 0 [name] e))) = Some t /\ complete z top text t.
Proof.
  intros update net name z top e Z PA R U. cbn [install_all] in *. unfold wbind in *. pose proof (end_installed z top name e PA update (net 0) Z) as X.
  assert (Y : dmem name e = true -> update = false -> snd (download_file_set name update (net 0) e) = ([], e, Ok tt)) by (intros M ->; unfold download_file_set; rewrite M; reflexivity).
  destruct (download_file_set name update (net 0) e) as [k [[l e1] [u|x]]]; cbn [snd fst] in *; [|discriminate]. destruct u. specialize (X eq_refl).
  destruct X as [[M N] | X].
  - specialize (Y M N). injection Y as -> ->. destruct U as [U | [U | U]]; [congruence | rewrite CliFacts.dmem_dget, U in M; discriminate | exact U].
  - destruct (installed_complete z top name e PA _ X) as (text & t & A & B & C & _). exists text, t. auto.
Qed.

Theorem C119_partial : forall z top name update1 update2 net1 net2 e t1 t2, once_each (TDir e) -> plain_archive z top name ->
  net1 0 0 = AnArchive z -> net2 0 0 = AnArchive z -> (forall i, In i t1 -> i = 0) -> (forall i, In i t2 -> i = 1) ->
  update1 = true \/ update2 = true \/ dget name e = None ->
  let jobs := [mkJob update1 net1 [name]; mkJob update2 net2 [name]] in
  nth_error (snd (schedule t1 e (map process jobs))) 0 = Some (Done (Ok tt)) ->
  nth_error (snd (schedule (t1 ++ t2) e (map process jobs))) 1 = Some (Done (Ok tt)) ->
  exists text t, z_info z name = Ok text /\ dget name (fst (schedule (t1 ++ t2) e (map process jobs))) = Some t /\ complete z top text t.
Proof.
  intros z top name update1 update2 net1 net2 e t1 t2 T PA Z1 Z2 H1 H2 U jobs D1 D2. rewrite schedule_app in *. unfold jobs in *. cbn [map] in *. rewrite schedule_first in * by exact H1.
  cbn [fst snd] in *. rewrite schedule_second in * by exact H2. cbn [fst snd nth_error] in *. injection D1 as D1. injection D2 as D2.
  set (p1 := process (mkJob update1 net1 [name])) in *. set (p2 := process (mkJob update2 net2 [name])) in *.
  destruct (alone_done _ _ _ _ D1) as [R1 E1]. destruct (alone_done _ _ _ _ D2) as [R2 E2]. rewrite <- E2, <- E1 in *.
  assert (T1 : once_each (TDir (snd (fst (alone p1 e))))) by (apply keeping_alone; [apply keeping_install | exact T]).
  destruct (process_alone e T (mkJob update1 net1 [name])) as (A1 & B1 & _). destruct (process_alone _ T1 (mkJob update2 net2 [name])) as (A2 & B2 & _).
  cbn [j_update j_net j_names] in *. fold p1 in A1, B1. fold p2 in A2, B2. rewrite A2. apply one_name_complete; auto; [congruence|].
  destruct U as [U | [U | U]]; [| left; exact U |]; right; right; rewrite A1; apply one_name_complete; auto; try congruence.
Qed.
Print Assumptions C119_partial.

Example C119_case : schedule (repeat 0 60 ++ repeat 1 60) [] (map process [job3; mkJob true (fun _ => net0) [py "v3"]])
  = ([(py "v3", TDir [(py "nxdl.xsd", TFile (py "ab")); (py "base_classes", TDir [(py "NXentry.nxdl.xml", TFile (py "cd"))]); (py "__github_info__.json", TFile (py "{}"))])],
     [Done (Ok tt); Done (Ok tt)])
  /\ nth_error (snd (schedule (repeat 0 60) [] (map process [job3; mkJob true (fun _ => net0) [py "v3"]]))) 0 = Some (Done (Ok tt)).
Proof. vm_compute. auto. Qed.

(** whatever two processes with the same file set do, the others stay as they are *)
Theorem C119_others : forall jobs e turns name top n, (forall j, In j jobs -> j_names j = [name] /\ exists z, j_net j 0 0 = AnArchive z /\ plain_archive z top name) ->
  n <> name -> n <> top -> dget n (fst (schedule turns e (map process jobs))) = dget n e.
Proof.
  intros jobs e turns name top n H Nn Nt. apply C118_others.
  - intros j Ij i nm E. destruct (H j Ij) as (L & z & Z & PA). rewrite L in E. destruct i as [|[|i]]; try discriminate. injection E as <-. right. exists z, top. auto.
  - intros j Ij [I | (i & nm & z' & E & Z' & PA')]; destruct (H j Ij) as (L & z & Z & PA); rewrite L in *; [destruct I as [X | []]; congruence|].
    destruct i as [|[|i]]; try discriminate. assert (z' = z) by congruence. subst z'. apply Nt. eapply archive_top; eauto.
Qed.
Print Assumptions C119_others.
