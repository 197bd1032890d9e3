(** * The order of installing file sets does not matter (C150) *)

From Coq Require Import List NArith ZArith Bool String Lia Permutation.
From Verif Require Import PyBase PyFacts Utf8 Cache Install Spec_Install InstallFacts InstallEnd InfoFile Spec_Info InfoFacts Spec_Success SuccessFacts
  Properties_Install Properties_Info Properties_Success Properties_Again Cli.
Import ListNotations.
Local Open Scope string_scope.
Local Open Scope list_scope.

(** a file set can be installed from what the network gives *)
Definition ready (z : archive) (top name : pystr) (net : nat -> answer) (e : entries) : Prop :=
  net 0 = AnArchive z /\ plain_archive z top name /\ installable z top /\ unobstructed z top name e /\ dget top e = None /\ exists text, z_info z name = Ok text.

Lemma ready_succeeds : forall z top name replace net e, ready z top name net e -> succeeds name replace net e.
Proof. intros z top name replace net e (N & PA & IN & U & _ & text & Zi). exact (proj1 (C121_succeeds z top name replace net e text N PA IN U Zi)). Qed.
Lemma after_frame : forall z top name replace net e n, ready z top name net e -> n <> top -> n <> name -> dget n (cache_after name replace net e) = dget n e.
Proof. intros z top name replace net e n (N & PA & _) A B. eapply (C52_frame z top name replace net e); auto. right. right. reflexivity. Qed.
Lemma after_top : forall z top name replace net e, ready z top name net e -> dget top (cache_after name replace net e) = None.
Proof.
  intros z top name replace net e R. pose proof (ready_succeeds z top name replace net e R) as H. destruct R as (N & PA & IN & U & G & text & Zi).
  destruct (dmem name e && negb replace) eqn:M.
  - unfold cache_after, download_file_set. rewrite M. exact G.
  - destruct (C121_succeeds z top name replace net e text N PA IN U Zi) as [_ X]. destruct X as (t & _ & _ & T); [|exact T].
    apply andb_false_iff in M as [M|M]; [left; intros I; apply dmem_In in I; congruence|right; destruct replace; [reflexivity|discriminate M]].
Qed.
(** being ready is only about the two directories *)
Lemma ready_other : forall z top name net e e', ready z top name net e -> dget top e' = dget top e -> dget name e' = dget name e -> ready z top name net e'.
Proof.
  intros z top name net e e' (N & PA & IN & U & G & T) A B. split; [exact N|]. split; [exact PA|]. split; [exact IN|]. split; [|split; [rewrite A; exact G|exact T]].
  assert (X : forall p, target z top p -> exists r, p = top :: r) by (intros p Tp; apply (target_top z top name PA IN) in Tp as (n & r & ->); eauto).
  destruct U as [U1 U2 U3]. constructor.
  - intros p q r c Tp E NE. pose proof (U1 p q r c Tp E NE) as Y. apply X in Tp as (x & ->). destruct q as [|y q]; [discriminate|]. injection E as <- _. rewrite tget_cons in *. rewrite A. exact Y.
  - intros p es Tp. pose proof (U2 p es Tp) as Y. apply X in Tp as (x & ->). rewrite tget_cons in *. rewrite A. exact Y.
  - intros c. rewrite B. apply U3.
Qed.
Lemma after_skipped : forall name replace net e, dmem name e && negb replace = true -> cache_after name replace net e = e.
Proof. intros name replace net e M. unfold cache_after, download_file_set. rewrite M. reflexivity. Qed.

(** what is in the directory of the file set afterwards does not depend on the other directories *)
Lemma after_own : forall z top name replace net e e', ready z top name net e -> ready z top name net e' -> dget name e' = dget name e ->
  forall p, file_at (name :: p) (cache_after name replace net e) = file_at (name :: p) (cache_after name replace net e').
Proof.
  intros z top name replace net e e' R R' D p. assert (M : dmem name e' = dmem name e) by (unfold dmem, amem; unfold dget in D; rewrite D; reflexivity).
  destruct (dmem name e && negb replace) eqn:K.
  - rewrite (after_skipped name replace net e K), (after_skipped name replace net e') by (rewrite M; exact K). unfold file_at. rewrite !tget_cons, D. reflexivity.
  - assert (C : forall x : entries, dmem name x = dmem name e -> ~ In name (map fst x) \/ replace = true).
    { intros x X. apply andb_false_iff in K as [K|K]; [left; intros I; apply dmem_In in I; congruence|right; destruct replace; [reflexivity|discriminate K]]. }
    pose proof (ready_succeeds _ _ _ replace _ _ R) as S1. pose proof (ready_succeeds _ _ _ replace _ _ R') as S2.
    destruct R as (N & PA & IN & _ & G & _), R' as (N' & _ & _ & _ & G' & _).
    eapply (C149_replaced z top name replace replace net net e e'); auto.
Qed.

(** two file sets from different archives: both orders succeed and give the same files *)
Theorem C150_order : forall z z' top top' name name' replace replace' net net' e, ready z top name net e -> ready z' top' name' net' e ->
  NoDup [top; top'; name; name'] ->
  let first := cache_after name replace net e in let second := cache_after name' replace' net' e in
  succeeds name replace net e /\ succeeds name' replace' net' first /\ succeeds name' replace' net' e /\ succeeds name replace net second
  /\ forall p, file_at p (cache_after name' replace' net' first) = file_at p (cache_after name replace net second).
Proof.
  intros z z' top top' name name' replace replace' net net' e R R' ND first second.
  assert (X : top <> top' /\ top <> name /\ top <> name' /\ top' <> name /\ top' <> name' /\ name <> name').
  { inversion ND as [|? ? A ND1]; inversion ND1 as [|? ? B ND2]; inversion ND2 as [|? ? C ND3]; subst. cbn [In] in *. repeat split; intros E; subst; tauto. }
  destruct X as (D1 & D2 & D3 & D4 & D5 & D6).
  assert (F : forall n, n <> top -> n <> name -> dget n first = dget n e) by (intros n A B; apply (after_frame z top name replace net e n R A B)).
  assert (F' : forall n, n <> top' -> n <> name' -> dget n second = dget n e) by (intros n A B; apply (after_frame z' top' name' replace' net' e n R' A B)).
  assert (R1 : ready z' top' name' net' first) by (apply (ready_other z' top' name' net' e first R'); apply F; congruence).
  assert (R2 : ready z top name net second) by (apply (ready_other z top name net e second R); apply F'; congruence).
  split; [apply (ready_succeeds z top name replace net e R)|]. split; [apply (ready_succeeds z' top' name' replace' net' first R1)|].
  split; [apply (ready_succeeds z' top' name' replace' net' e R')|]. split; [apply (ready_succeeds z top name replace net second R2)|].
  intros [|n p]; [reflexivity|].
  destruct (str_eqb n name) eqn:E1; [apply str_eqb_eq in E1; subst n|apply str_eqb_neq in E1].
  { transitivity (file_at (name :: p) first).
    - unfold file_at. rewrite !tget_cons. rewrite (after_frame z' top' name' replace' net' first name R1) by congruence. reflexivity.
    - apply (after_own z top name replace net e second R R2). apply F'; congruence. }
  destruct (str_eqb n name') eqn:E2; [apply str_eqb_eq in E2; subst n|apply str_eqb_neq in E2].
  { transitivity (file_at (name' :: p) second).
    - symmetry. apply (after_own z' top' name' replace' net' e first R' R1). apply F; congruence.
    - unfold file_at. rewrite !tget_cons. rewrite (after_frame z top name replace net second name' R2) by congruence. reflexivity. }
  unfold file_at. rewrite !tget_cons.
  destruct (str_eqb n top) eqn:E3; [apply str_eqb_eq in E3; subst n|apply str_eqb_neq in E3].
  { rewrite (after_top z top name replace net second R2), (after_frame z' top' name' replace' net' first top R1) by congruence. unfold first. rewrite (after_top z top name replace net e R). reflexivity. }
  destruct (str_eqb n top') eqn:E4; [apply str_eqb_eq in E4; subst n|apply str_eqb_neq in E4].
  { rewrite (after_top z' top' name' replace' net' first R1), (after_frame z top name replace net second top' R2) by congruence. unfold second. rewrite (after_top z' top' name' replace' net' e R'). reflexivity. }
  rewrite (after_frame z' top' name' replace' net' first n R1), (after_frame z top name replace net second n R2) by congruence.
  rewrite F, F' by congruence. reflexivity.
Qed.
Print Assumptions C150_order.

(** any number of file sets: an installation is an archive with its top directory, the name, --update and the network *)
Record job := mkJob { j_zip : archive; j_top : pystr; j_name : pystr; j_replace : bool; j_net : nat -> answer }.
Definition after_job (j : job) (e : entries) : entries := cache_after (j_name j) (j_replace j) (j_net j) e.
Definition job_ready (e : entries) (j : job) : Prop := ready (j_zip j) (j_top j) (j_name j) (j_net j) e.
Fixpoint after_jobs (js : list job) (e : entries) : entries := match js with [] => e | j :: r => after_jobs r (after_job j e) end.
Fixpoint all_succeed (js : list job) (e : entries) : Prop :=
  match js with [] => True | j :: r => succeeds (j_name j) (j_replace j) (j_net j) e /\ all_succeed r (after_job j e) end.
(** the directories that the installations use *)
Definition places (js : list job) : list pystr := flat_map (fun j => [j_top j; j_name j]) js.

Lemma places_in : forall js j, In j js -> In (j_top j) (places js) /\ In (j_name j) (places js).
Proof. intros js j I. unfold places. split; apply in_flat_map; exists j; (split; [exact I|]); cbn [In]; tauto. Qed.
Lemma step_ready : forall js j e, job_ready e j -> (forall k, In k js -> job_ready e k) -> NoDup (places (j :: js)) ->
  (forall k, In k js -> job_ready (after_job j e) k) /\ forall k, In k js -> dget (j_name k) (after_job j e) = dget (j_name k) e.
Proof.
  intros js j e R Rs ND. change (NoDup (j_top j :: j_name j :: places js)) in ND. inversion ND as [|? ? A ND1]; subst. inversion ND1 as [|? ? B ND2]; subst. cbn [In] in A.
  assert (F : forall k, In k js -> dget (j_top k) (after_job j e) = dget (j_top k) e /\ dget (j_name k) (after_job j e) = dget (j_name k) e).
  { intros k I. destruct (places_in js k I) as [P Q]. split; apply (after_frame _ _ _ (j_replace j) _ e _ R); intros E; rewrite E in *; tauto. }
  split; intros k I; [|apply F; exact I]. apply (ready_other _ _ _ _ e); [apply Rs; exact I|apply F; exact I|apply F; exact I].
Qed.
Lemma jobs_succeed : forall js e, (forall k, In k js -> job_ready e k) -> NoDup (places js) -> all_succeed js e.
Proof.
  induction js as [|j js IH]; intros e R ND; [exact I|]. cbn [all_succeed]. split; [apply (ready_succeeds _ _ _ _ _ _ (R j (or_introl eq_refl)))|].
  apply IH; [|change (NoDup (j_top j :: j_name j :: places js)) in ND; inversion ND as [|? ? _ ND1]; inversion ND1; assumption].
  apply step_ready; [apply R; left; reflexivity|intros k K; apply R; right; exact K|exact ND].
Qed.
Lemma jobs_content : forall js e, (forall k, In k js -> job_ready e k) -> NoDup (places js) -> forall n,
  (forall k, In k js -> n = j_name k -> forall p, file_at (n :: p) (after_jobs js e) = file_at (n :: p) (after_job k e))
  /\ (forall k, In k js -> n = j_top k -> dget n (after_jobs js e) = None)
  /\ (~ In n (places js) -> dget n (after_jobs js e) = dget n e).
Proof.
  induction js as [|j js IH]; intros e R ND n; [split; [|split]; [intros k []|intros k []|reflexivity]|].
  pose proof (R j (or_introl eq_refl)) as Rj. destruct (step_ready js j e Rj (fun k K => R k (or_intror K)) ND) as [R1 D1].
  change (NoDup (j_top j :: j_name j :: places js)) in ND. inversion ND as [|? ? A ND1]; subst. inversion ND1 as [|? ? B ND2]; subst. cbn [In] in A.
  destruct (IH (after_job j e) R1 ND2 n) as (X & Y & Z). cbn [after_jobs]. split; [|split].
  - intros k [<- | K] En p.
    + unfold file_at. rewrite !tget_cons, Z; [reflexivity|rewrite En; exact B].
    + rewrite (X k K En p). rewrite En. symmetry. apply (after_own (j_zip k) (j_top k)); [apply R; right; exact K|apply R1; exact K|apply D1; exact K].
  - intros k [<- | K] En; [|apply (Y k K En)]. rewrite Z by (rewrite En; tauto). rewrite En. apply (after_top _ _ _ _ _ _ Rj).
  - intros NI. change (~ In n (j_top j :: j_name j :: places js)) in NI. cbn [In] in NI. rewrite Z by tauto. apply (after_frame _ _ _ _ _ _ _ Rj); intros E; apply NI; [left|right; left]; congruence.
Qed.

(** any number of file sets, in any two orders *)
Theorem C150_any_order : forall js js' e, Permutation js js' -> (forall j, In j js -> job_ready e j) -> NoDup (places js) ->
  all_succeed js e /\ all_succeed js' e /\ forall p, file_at p (after_jobs js e) = file_at p (after_jobs js' e).
Proof.
  intros js js' e P R ND.
  assert (R' : forall j, In j js' -> job_ready e j) by (intros j I; apply R; eapply Permutation_in; [apply Permutation_sym; exact P|exact I]).
  assert (PP : Permutation (places js) (places js')) by (apply Permutation_flat_map; exact P).
  assert (ND' : NoDup (places js')) by (eapply Permutation_NoDup; [exact PP|exact ND]).
  split; [apply jobs_succeed; assumption|]. split; [apply jobs_succeed; assumption|]. intros [|n p]; [reflexivity|].
  destruct (jobs_content js e R ND n) as (X & Y & Z). destruct (jobs_content js' e R' ND' n) as (X' & Y' & Z').
  destruct (in_dec (list_eq_dec N.eq_dec) n (places js)) as [I|I].
  - unfold places in I. apply in_flat_map in I as (j & J & I). pose proof (Permutation_in _ P J) as J'. destruct I as [I | [I | []]]; symmetry in I.
    + unfold file_at. rewrite !tget_cons, (Y j J I), (Y' j J' I). reflexivity.
    + rewrite (X j J I), (X' j J' I). reflexivity.
  - unfold file_at. rewrite !tget_cons, Z, Z'; [reflexivity| |exact I]. intros K. apply I. eapply Permutation_in; [apply Permutation_sym; exact PP|exact K].
Qed.
Print Assumptions C150_any_order.

(** ** The command punx install *)
(** every name gets its own archive from the network, wherever it is in the list *)
Definition served (server : pystr -> nat -> answer) (names : list pystr) (net : nat -> nat -> answer) : Prop :=
  forall i n, nth_error names i = Some n -> net i = server n.
Lemma install_jobs : forall update zip top server names net i e, (forall j n, nth_error names j = Some n -> net (i + j) = server n) ->
  let js := map (fun n => mkJob (zip n) (top n) n update (server n)) names in all_succeed js e ->
  snd (fst (install_all update net i names e)) = after_jobs js e.
Proof.
  intros update zip top server. induction names as [|n names IH]; intros net i e V js S; [reflexivity|].
  destruct S as [S1 S2]. cbn [install_all]. unfold wbind. cbn [js map after_jobs] in *. unfold after_job, cache_after, succeeds in *. cbn [j_name j_replace j_net] in *.
  assert (N0 : net i = server n) by (rewrite <- (V 0 n eq_refl); f_equal; lia). rewrite N0.
  destruct (download_file_set n update (server n) e) as [q [[l e1] r]]. cbn [snd fst] in *. subst r.
  assert (V1 : forall j m, nth_error names j = Some m -> net (S i + j) = server m) by (intros j m H; rewrite <- (V (S j) m H); f_equal; lia).
  rewrite <- (IH net (S i) e1 V1 S2). destruct (install_all update net (S i) names e1) as [[l2 e2] r2]. reflexivity.
Qed.

Theorem C150_command : forall rj k p update names names' zip top server net net', Permutation names names' -> served server names net -> served server names' net' ->
  (forall n, In n names -> ready (zip n) (top n) n (server n) (usr_dir k)) -> NoDup (flat_map (fun n => [top n; n]) names) ->
  forall path, file_at path (snd (fst (func_install rj k p update net names))) = file_at path (snd (fst (func_install rj k p update net' names'))).
Proof.
  intros rj k p update names names' zip top server net net' P V V' R ND path. set (J := fun n => mkJob (zip n) (top n) n update (server n)).
  assert (PL : forall l, places (map J l) = flat_map (fun n => [top n; n]) l) by (induction l as [|x l IH]; [reflexivity|cbn; f_equal; f_equal; exact IH]).
  destruct (C150_any_order (map J names) (map J names') (usr_dir k)) as (S & S' & F).
  { apply Permutation_map. exact P. }
  { intros j I. apply in_map_iff in I as (n & <- & I). apply R. exact I. }
  { rewrite PL. exact ND. }
  pose proof (install_jobs update zip top server names net 0 (usr_dir k) V S) as A. pose proof (install_jobs update zip top server names' net' 0 (usr_dir k) V' S') as A'.
  specialize (F path). unfold J in F. rewrite <- A, <- A' in F. unfold func_install. destruct (cache_manager rj k p) as [p' [c|x]]; [|reflexivity].
  destruct (install_all update net 0 names (usr_dir k)) as [[l e] [u|x]], (install_all update net' 0 names' (usr_dir k)) as [[l' e'] [u'|x']]; exact F.
Qed.
Print Assumptions C150_command.

(** two archives as GitHub gives them; an older version of the first set and another set are there already *)
Definition zip2 : archive := github_archive
  [mkM (py "definitions-3.4/") []; mkM (py "definitions-3.4/nxdl.xsd") (py "xsd"); mkM (py "definitions-3.4/base_classes/NXnote.nxdl.xml") (py "note")] dates1 sha1 now1.
Definition top2 : pystr := py "definitions-3.4".
Definition net2 : nat -> answer := fun _ => AnArchive zip2.
Lemma zip2_plain : plain_archive zip2 top2 (py "v3.4").
Proof.
  constructor.
  - exists (mkM (py "definitions-3.4/") []). eexists. split; [reflexivity | vm_compute; reflexivity].
  - repeat split; discriminate.
  - discriminate.
  - intros m I D. apply extractable_spec in D; [|discriminate]. simpl in I. destruct I as [<- | [<- | [<- | []]]]; vm_compute in D; try discriminate D;
      (eexists; split; [apply destination_spec; vm_compute; reflexivity | vm_compute; intuition discriminate]).
Qed.
Lemma zip2_in : installable zip2 top2.
Proof.
  constructor.
  - exists [mkM (py "definitions-3.4/") []], (mkM (py "definitions-3.4/nxdl.xsd") (py "xsd")), [], (mkM (py "definitions-3.4/base_classes/NXnote.nxdl.xml") (py "note")), [].
    split; [reflexivity|]. split; (apply extractable_spec; [discriminate | vm_compute; reflexivity]).
  - intros m d J D H. apply extractable_spec in D; [|discriminate]. assert (X : endswith (m_name m) (py "/") = true) by (apply endswith_spec; eauto).
    simpl in J. destruct J as [<- | [<- | [<- | []]]]; vm_compute in D, X; congruence.
  - assert (K : forall p, target zip2 top2 p -> p = [top2; py "__github_info__.json"] \/ p = [top2; py "nxdl.xsd"] \/ p = [top2; py "base_classes"; py "NXnote.nxdl.xml"]).
    { intros p [H | (m & J & D & H)]; [left; exact H|]. apply destination_spec in H. subst p. apply extractable_spec in D; [|discriminate].
      simpl in J. destruct J as [<- | [<- | [<- | []]]]; vm_compute in D; try discriminate D; vm_compute; auto. }
    intros p r H1 H2. apply K in H1. apply K in H2.
    destruct H1 as [-> | [-> | ->]]; destruct H2 as [H2 | [H2 | H2]]; cbn [app] in H2; try (injection H2 as H2; exact H2); try discriminate H2.
Qed.
Lemma free_unobstructed : forall z top name e, plain_archive z top name -> installable z top -> dget top e = None -> (forall c, dget name e <> Some (TFile c)) -> unobstructed z top name e.
Proof.
  intros z top name e PA IN G H. assert (X : forall p, target z top p -> exists r, p = top :: r) by (intros p Tp; apply (target_top z top name PA IN) in Tp as (n & r & ->); eauto).
  constructor.
  - intros p q r c Tp E _. apply X in Tp as (x & ->). destruct q as [|y q]; [discriminate|]. injection E as <- _. rewrite tget_cons, G. discriminate.
  - intros p es Tp. apply X in Tp as (x & ->). rewrite tget_cons, G. discriminate.
  - exact H.
Qed.
Example C150_case : ready zip1 top1 (py "v3.3") net1 old_cache /\ ready zip2 top2 (py "v3.4") net2 old_cache /\ NoDup [top1; top2; py "v3.3"; py "v3.4"]
  /\ let both := cache_after (py "v3.4") false net2 (cache_after (py "v3.3") true net1 old_cache) in
     file_at [py "v3.3"; py "nxdl.xsd"] both = Some (py "ab") /\ file_at [py "v3.4"; py "nxdl.xsd"] both = Some (py "xsd") /\ file_at [py "v3.3"; py "old.nxdl.xml"] both = None.
Proof.
  split; [|split; [|split]].
  - split; [reflexivity|]. split; [exact zip1_plain|]. split; [apply zip_in; reflexivity|].
    split; [apply free_unobstructed; [exact zip1_plain|apply zip_in; reflexivity|vm_compute; reflexivity|intros c; vm_compute; discriminate]|].
    split; [vm_compute; reflexivity|]. destruct (z_info zip1 (py "v3.3")) as [t|x] eqn:Z; [eauto|exfalso; vm_compute in Z; discriminate Z].
  - split; [reflexivity|]. split; [exact zip2_plain|]. split; [exact zip2_in|].
    split; [apply free_unobstructed; [exact zip2_plain|exact zip2_in|vm_compute; reflexivity|intros c; vm_compute; discriminate]|].
    split; [vm_compute; reflexivity|]. destruct (z_info zip2 (py "v3.4")) as [t|x] eqn:Z; [eauto|exfalso; vm_compute in Z; discriminate Z].
  - repeat constructor; cbn [In]; intros H; repeat (destruct H as [H|H]; [vm_compute in H; discriminate H|]); exact H.
  - split; [|split]; vm_compute; reflexivity.
Qed.
Definition jobs12 : list job := [mkJob zip1 top1 (py "v3.3") true net1; mkJob zip2 top2 (py "v3.4") false net2].
Example C150_jobs : (forall j, In j jobs12 -> job_ready old_cache j) /\ NoDup (places jobs12) /\ Permutation jobs12 (rev jobs12)
  /\ file_at [py "v3.4"; py "nxdl.xsd"] (after_jobs (rev jobs12) old_cache) = Some (py "xsd").
Proof.
  destruct C150_case as (A & B & _). split; [intros j [<- | [<- | []]]; [exact A|exact B]|].
  split; [repeat constructor; cbn; intros H; repeat (destruct H as [H|H]; [vm_compute in H; discriminate H|]); exact H|].
  split; [apply Permutation_rev|vm_compute; reflexivity].
Qed.

Definition server12 (n : pystr) : nat -> answer := if str_eqb n (py "v3.3") then net1 else net2.
Definition disk12 : disk := mkDisk (py "/s") [] (py "/u") old_cache.
Example C150_names : let names := [py "v3.3"; py "v3.4"] in served server12 names (fun i => match i with 0 => net1 | _ => net2 end)
  /\ served server12 (rev names) (fun i => match i with 0 => net2 | _ => net1 end)
  /\ (forall n, In n names -> ready (if str_eqb n (py "v3.3") then zip1 else zip2) (if str_eqb n (py "v3.3") then top1 else top2) n (server12 n) (usr_dir disk12)).
Proof.
  cbv zeta. split; [|split].
  - intros [|[|i]] n H; [injection H as <-; reflexivity|injection H as <-; reflexivity|destruct i; discriminate H].
  - intros [|[|i]] n H; [injection H as <-; reflexivity|injection H as <-; reflexivity|destruct i; discriminate H].
  - destruct C150_case as (A & B & _). intros n [<- | [<- | []]]; [exact A|exact B].
Qed.
