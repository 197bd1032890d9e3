(** * Interrupted installations leave no trace (C151) *)

From Coq Require Import List NArith ZArith Bool String Lia.
From Verif Require Import PyBase PyFacts Utf8 Cache Install Spec_Install InstallFacts InstallEnd InfoFile Spec_Info InfoFacts Spec_Success SuccessFacts
  Properties_Install Properties_Info Properties_Success Properties_Again Properties_Both.
Import ListNotations.
Local Open Scope string_scope.
Local Open Scope list_scope.

(** in the top directory of the archive there are only files that the archive writes *)
Definition only_targets (z : archive) (top : pystr) (s : entries) : Prop := forall p c, file_at (top :: p) s = Some c -> target z top (top :: p).

Lemma interrupted_phase : forall z top name e s, plain_archive z top name -> interrupted z name e s ->
  (only_targets z top e -> only_targets z top s) /\ forall n, n <> top -> n <> name -> dget n s = dget n e.
Proof.
  intros z top name e s PA H. induction H as [e | replace net e s s' _ IH HN V]; [auto|]. destruct (net 0) as [z'| |] eqn:N0.
  2-3: assert (X : s' = s) by (unfold download_file_set, visited in V; destruct (dmem name s && negb replace); [simpl in V; intuition|];
    unfold download_archive, GITHUB_RETRY_COUNT in V; cbn [try_rounds] in V; rewrite N0 in V; simpl in V; intuition); rewrite X; exact IH.
  specialize (HN z' eq_refl). assert (PA' : plain_archive z' top name) by (eapply plain_members; eauto).
  pose proof (visited_phase z' top name s PA' replace net s' N0 V) as P. destruct IH as [IH1 IH2]. split.
  - intros O p c F. assert (Nt : top <> name) by (intros E; exact (top_differs z top name PA E)).
    destruct (phase_files z' top name s PA' s' P (top :: p) c Nt F) as [X | [(text & _ & X & _) | (m & m' & I & D & X & _)]].
    + exact (IH1 O p c X).
    + left. exact X.
    + apply (target_members z z' top (top :: p) HN). right. exists m. auto.
  - intros n A B. rewrite (phase_frame z' top name s PA' s' P n A B). apply IH2; assumption.
Qed.

(** the installed file set has exactly the files of the archive although the directory had leftovers of it *)
Lemma targets_exact : forall z top name e s, plain_archive z top name -> installable z top -> only_targets z top e -> installed z top name e s ->
  exists text, z_info z name = Ok text /\ forall p c, file_at (name :: p) s = Some c <-> p = [py "__github_info__.json"] /\ c = text \/ provides z top (top :: p) c.
Proof.
  intros z top name e s PA IN O I. destruct (installed_complete z top name e PA s I) as (text & t & Z & G & (es & -> & C1 & C2) & _). exists text. split; [exact Z|].
  assert (ND : forall m, In m (z_members z) -> definition_file top (m_name m) -> ~ exists d, m_name m = d ++ py "/") by (intros m J Dm [d X]; destruct IN as [_ IN2 _]; exact (IN2 m d J Dm X)).
  assert (FA : forall p, p <> [] -> file_at (name :: p) s = file_at p es) by (intros p; apply file_cons; exact G).
  assert (TG : forall p c, file_at (name :: p) s = Some c -> target z top (top :: p) -> p = [py "__github_info__.json"] /\ c = text \/ provides z top (top :: p) c).
  { intros p c F [X | (m & J & D & X)].
    - apply (f_equal (@tl pystr)) in X. cbn [tl] in X. subst p. left. split; [reflexivity|]. rewrite FA in F by discriminate. rewrite C1 in F. injection F as <-. reflexivity.
    - right. destruct (last_member z top name PA (top :: p) m J D X ND) as (d & P). assert (p <> []) by (intros ->; unfold file_at in F; rewrite tget_cons, G in F; discriminate).
      rewrite FA in F by assumption. rewrite (C2 p d P) in F. injection F as <-. exact P. }
  intros p c. split.
  - intros F. destruct (installed_files z top name e PA s I p c F) as [X | [[-> X] | (m & m' & J & D & X & _)]].
    + apply (TG p c F). exact (O p c X).
    + left. split; [reflexivity|congruence].
    + apply (TG p c F). right. exists m. auto.
  - intros [[-> ->] | P].
    + rewrite FA by discriminate. exact C1.
    + assert (NE : p <> []). { intros ->. destruct P as (a & m & b & E & D & X & _). assert (T : target z top [top]) by (right; exists m; split; [rewrite E; apply in_or_app; right; left; reflexivity|auto]).
        apply (target_top z top name PA IN) in T as (n & r & Y). discriminate Y. }
      rewrite FA by exact NE. exact (C2 p c P).
Qed.

(** after any interrupted installations, an installation that does its work leaves the files that an uninterrupted one would have left *)
Theorem C151_same : forall z top name replace net net' e s, ready z top name net e -> interrupted z name e s -> net' 0 = AnArchive z ->
  ~ In name (map fst s) \/ replace = true ->
  succeeds name replace net' s /\ forall p, file_at p (cache_after name replace net' s) = file_at p (cache_after name true net e).
Proof.
  intros z top name replace net net' e s R V N' D. pose proof R as (N & PA & IN & U & G & text & Zi).
  assert (Us : unobstructed z top name s) by (exact (interrupted_ready z top name e s PA IN V U)).
  assert (Oe : only_targets z top e) by (intros p c F; unfold file_at in F; rewrite tget_cons, G in F; discriminate F).
  destruct (interrupted_phase z top name e s PA V) as [O Fr]. specialize (O Oe).
  destruct (C121_succeeds z top name replace net' s text N' PA IN Us Zi) as [S T]. split; [exact S|]. destruct (T D) as (_ & _ & _ & Ts).
  fold (cache_after name replace net' s) in Ts. pose proof (after_top z top name true net e R) as Te. pose proof (ready_succeeds z top name true net e R) as Se.
  assert (Ie : installed z top name e (cache_after name true net e)). { destruct (end_installed z top name e PA _ _ N Se) as [[_ B] | I]; [discriminate B|exact I]. }
  assert (Is : installed z top name s (cache_after name replace net' s)).
  { destruct (end_installed z top name s PA _ _ N' S) as [[A B] | I]; [exfalso; destruct D as [D|D]; [apply D; apply dmem_In; exact A|congruence]|exact I]. }
  destruct (targets_exact z top name e _ PA IN Oe Ie) as (t1 & Z1 & X1). destruct (targets_exact z top name s _ PA IN O Is) as (t2 & Z2 & X2).
  assert (t2 = t1) by congruence. subst t2. intros [|n p]; [reflexivity|].
  destruct (str_eqb n name) eqn:E1; [apply str_eqb_eq in E1; subst n|apply str_eqb_neq in E1].
  { destruct (file_at (name :: p) (cache_after name replace net' s)) as [c|] eqn:F.
    - symmetry. apply X1. apply X2. exact F.
    - destruct (file_at (name :: p) (cache_after name true net e)) as [c|] eqn:F'; [|reflexivity]. apply X1 in F'. apply X2 in F'. congruence. }
  unfold file_at. rewrite !tget_cons. destruct (str_eqb n top) eqn:E2; [apply str_eqb_eq in E2; subst n; rewrite Ts, Te; reflexivity|apply str_eqb_neq in E2].
  rewrite (after_frame z top name true net e n R E2 E1).
  assert (X : dget n (cache_after name replace net' s) = dget n s) by (eapply (C52_frame z top name replace net' s); auto; right; right; reflexivity).
  rewrite X, Fr by assumption. reflexivity.
Qed.
Print Assumptions C151_same.

(** twice interrupted: while the old version was being deleted, and then while the archive was being read *)
Example C151_case : exists s, ready zip1 top1 (py "v3.3") net1 [(py "v3.3", info_of "{}")] /\ interrupted zip1 (py "v3.3") [(py "v3.3", info_of "{}")] s
  /\ net1 0 = AnArchive zip1 /\ file_at [py "v3.3"; py "__github_info__.json"] s = None /\ tget [py "v3.3"; py "nxdl.xsd"] s <> None.
Proof.
  destruct C122_case as (s1 & s2 & V & _ & _ & A & B & _). exists s2. split; [|split; [exact V|split; [reflexivity|split; [unfold file_at; rewrite A; reflexivity|exact B]]]].
  split; [reflexivity|]. split; [exact zip1_plain|]. split; [apply zip_in; reflexivity|].
  split; [apply free_unobstructed; [exact zip1_plain|apply zip_in; reflexivity|vm_compute; reflexivity|intros c; vm_compute; discriminate]|].
  split; [vm_compute; reflexivity|]. destruct (z_info zip1 (py "v3.3")) as [t|x] eqn:Z; [eauto|exfalso; vm_compute in Z; discriminate Z].
Qed.
