(** * Interrupted installations of several file sets (C152) *)

From Coq Require Import List NArith ZArith Bool String Lia Permutation.
From Verif Require Import PyBase PyFacts Utf8 Cache Install Spec_Install InstallFacts InstallEnd InfoFile Spec_Info InfoFacts Spec_Success SuccessFacts
  Properties_Install Properties_Info Properties_Success Properties_Again Properties_Both Properties_Recovery Cli Spec_Cli.
Import ListNotations.
Local Open Scope string_scope.
Local Open Scope list_scope.

(** [s] is what interrupted installations of these file sets, any number and in any order, left of [e] *)
Inductive disturbed (js : list job) (e : entries) : entries -> Prop :=
| di_none : disturbed js e e
| di_more : forall j s s', disturbed js e s -> In j js -> interrupted (j_zip j) (j_name j) s s' -> disturbed js e s'.

Definition fit (e : entries) (j : job) : Prop :=
  j_net j 0 = AnArchive (j_zip j) /\ plain_archive (j_zip j) (j_top j) (j_name j) /\ installable (j_zip j) (j_top j)
  /\ unobstructed (j_zip j) (j_top j) (j_name j) e /\ only_targets (j_zip j) (j_top j) e /\ exists text, z_info (j_zip j) (j_name j) = Ok text.

Lemma ready_fit : forall e j, job_ready e j -> fit e j.
Proof.
  intros e j (N & PA & IN & U & G & T). split; [exact N|]. split; [exact PA|]. split; [exact IN|]. split; [exact U|]. split; [|exact T].
  intros p c F. unfold file_at in F. rewrite tget_cons, G in F. discriminate F.
Qed.
Lemma fit_other : forall e e' j, fit e j -> dget (j_top j) e' = dget (j_top j) e -> dget (j_name j) e' = dget (j_name j) e -> fit e' j.
Proof.
  intros e e' j (N & PA & IN & U & O & T) A B. split; [exact N|]. split; [exact PA|]. split; [exact IN|]. split; [|split; [|exact T]].
  - assert (X : forall p, target (j_zip j) (j_top j) p -> exists r, p = j_top j :: r) by (intros p Tp; apply (target_top _ _ _ PA IN) in Tp as (n & r & ->); eauto).
    destruct U as [U1 U2 U3]. constructor.
    + intros p q r c Tp E NE. pose proof (U1 p q r c Tp E NE) as Y. apply X in Tp as (x & ->). destruct q as [|y q]; [discriminate|]. injection E as <- _. rewrite tget_cons in *. rewrite A. exact Y.
    + intros p es Tp. pose proof (U2 p es Tp) as Y. apply X in Tp as (x & ->). rewrite tget_cons in *. rewrite A. exact Y.
    + intros c. rewrite B. apply U3.
  - intros p c F. apply (O p c). unfold file_at in *. rewrite tget_cons in *. rewrite <- A. exact F.
Qed.
Lemma fit_interrupted : forall e s j, fit e j -> interrupted (j_zip j) (j_name j) e s -> fit s j.
Proof.
  intros e s j (N & PA & IN & U & O & T) V. split; [exact N|]. split; [exact PA|]. split; [exact IN|]. split; [exact (interrupted_ready _ _ _ e s PA IN V U)|].
  split; [exact (proj1 (interrupted_phase _ _ _ e s PA V) O)|exact T].
Qed.
Lemma fit_succeeds : forall e j, fit e j -> succeeds (j_name j) (j_replace j) (j_net j) e.
Proof. intros e j (N & PA & IN & U & O & text & Zi). exact (proj1 (C121_succeeds _ _ _ (j_replace j) _ e text N PA IN U Zi)). Qed.
Lemma fit_frame : forall e j n, fit e j -> n <> j_top j -> n <> j_name j -> dget n (after_job j e) = dget n e.
Proof. intros e j n (N & PA & _) A B. eapply (C52_frame (j_zip j) (j_top j)); eauto. right. right. reflexivity. Qed.
Lemma fit_done : forall e j, fit e j -> j_replace j = true -> dget (j_top j) (after_job j e) = None
  /\ exists text, z_info (j_zip j) (j_name j) = Ok text
     /\ forall p c, file_at (j_name j :: p) (after_job j e) = Some c <-> p = [py "__github_info__.json"] /\ c = text \/ provides (j_zip j) (j_top j) (j_top j :: p) c.
Proof.
  intros e j F Rp. pose proof (fit_succeeds e j F) as S. destruct F as (N & PA & IN & U & O & text & Zi). split.
  - destruct (proj2 (C121_succeeds _ _ _ (j_replace j) _ e text N PA IN U Zi) (or_intror Rp)) as (t & _ & _ & T). exact T.
  - apply (targets_exact (j_zip j) (j_top j) (j_name j) e _ PA IN O). destruct (end_installed _ _ _ e PA _ _ N S) as [[_ B] | I]; [congruence|exact I].
Qed.

Lemma apart : forall js j k, NoDup (places js) -> In j js -> In k js -> j = k \/ (j_top k <> j_top j /\ j_top k <> j_name j /\ j_name k <> j_top j /\ j_name k <> j_name j).
Proof.
  induction js as [|x js IH]; intros j k ND J K; [destruct J|]. change (NoDup (j_top x :: j_name x :: places js)) in ND.
  inversion ND as [|? ? A ND1]; subst. inversion ND1 as [|? ? B ND2]; subst. cbn [In] in A. destruct J as [-> | J], K as [-> | K]; [left; reflexivity| | |apply IH; assumption]; right.
  - destruct (places_in js k K) as [P Q]. repeat split; intros E; rewrite E in *; tauto.
  - destruct (places_in js j J) as [P Q]. repeat split; intros E; rewrite <- E in *; tauto.
Qed.
Lemma disturbed_fit : forall js e s, (forall j, In j js -> fit e j) -> NoDup (places js) -> disturbed js e s ->
  (forall j, In j js -> fit s j) /\ forall n, ~ In n (places js) -> dget n s = dget n e.
Proof.
  intros js e s F ND D. induction D as [|k s s' _ IH K V]; [split; [exact F|reflexivity]|]. destruct IH as [IH1 IH2].
  pose proof (IH1 k K) as Fk. assert (Fr : forall n, n <> j_top k -> n <> j_name k -> dget n s' = dget n s) by (exact (proj2 (interrupted_phase (j_zip k) (j_top k) (j_name k) s s' (proj1 (proj2 Fk)) V))).
  split.
  - intros j J. destruct (apart js k j ND K J) as [<- | (A & B & C & E)]; [exact (fit_interrupted s s' k Fk V)|].
    apply (fit_other s s' j (IH1 j J)); apply Fr; assumption.
  - intros n NI. destruct (places_in js k K) as [P Q]. rewrite <- IH2 by exact NI. apply Fr; intros E; rewrite E in NI; contradiction.
Qed.

Lemma fit_step : forall js j e, fit e j -> (forall k, In k js -> fit e k) -> NoDup (places (j :: js)) -> forall k, In k js -> fit (after_job j e) k.
Proof.
  intros js j e R Rs ND k K. change (NoDup (j_top j :: j_name j :: places js)) in ND. inversion ND as [|? ? A ND1]; subst. inversion ND1 as [|? ? B ND2]; subst. cbn [In] in A.
  destruct (places_in js k K) as [P Q]. apply (fit_other e _ k (Rs k K)); apply fit_frame; auto; intros E; rewrite E in *; tauto.
Qed.
Lemma fit_all : forall js e, (forall k, In k js -> fit e k) -> (forall k, In k js -> j_replace k = true) -> NoDup (places js) ->
  all_succeed js e /\ forall n,
  (forall k, In k js -> n = j_name k -> exists text, z_info (j_zip k) (j_name k) = Ok text
     /\ forall p c, file_at (n :: p) (after_jobs js e) = Some c <-> p = [py "__github_info__.json"] /\ c = text \/ provides (j_zip k) (j_top k) (j_top k :: p) c)
  /\ (forall k, In k js -> n = j_top k -> dget n (after_jobs js e) = None)
  /\ (~ In n (places js) -> dget n (after_jobs js e) = dget n e).
Proof.
  induction js as [|j js IH]; intros e F Rp ND; [split; [exact I|]; intros n; split; [|split]; [intros k []|intros k []|reflexivity]|].
  pose proof (F j (or_introl eq_refl)) as Fj. pose proof (fit_step js j e Fj (fun k K => F k (or_intror K)) ND) as F1.
  change (NoDup (j_top j :: j_name j :: places js)) in ND. inversion ND as [|? ? A ND1]; subst. inversion ND1 as [|? ? B ND2]; subst. cbn [In] in A.
  destruct (IH (after_job j e) F1 (fun k K => Rp k (or_intror K)) ND2) as [S C]. destruct (fit_done e j Fj (Rp j (or_introl eq_refl))) as [T X].
  cbn [all_succeed after_jobs]. split; [split; [apply fit_succeeds; exact Fj|exact S]|]. intros n. destruct (C n) as (C1 & C2 & C3). split; [|split].
  - intros k [<- | K] En; [|exact (C1 k K En)]. destruct X as (text & Z & X). exists text. split; [exact Z|]. intros p c. rewrite En in *.
    rewrite <- X. unfold file_at. rewrite !tget_cons, C3 by exact B. reflexivity.
  - intros k [<- | K] En; [|exact (C2 k K En)]. rewrite C3 by (rewrite En; tauto). rewrite En. exact T.
  - intros NI. change (~ In n (j_top j :: j_name j :: places js)) in NI. cbn [In] in NI. rewrite C3 by tauto. apply (fit_frame e j n Fj); intros E; apply NI; [left|right; left]; congruence.
Qed.

(** installing them all with --update then succeeds and gives the files that the same installations give without any interruption *)
Theorem C152_same : forall js e s, (forall j, In j js -> job_ready e j) -> (forall j, In j js -> j_replace j = true) -> NoDup (places js) -> disturbed js e s ->
  all_succeed js s /\ forall p, file_at p (after_jobs js s) = file_at p (after_jobs js e).
Proof.
  intros js e s R Rp ND D. assert (Fe : forall j, In j js -> fit e j) by (intros j J; apply ready_fit, R, J). destruct (disturbed_fit js e s Fe ND D) as [Fs Fr].
  destruct (fit_all js e Fe Rp ND) as [_ Ce]. destruct (fit_all js s Fs Rp ND) as [S Cs]. split; [exact S|]. intros [|n p]; [reflexivity|].
  destruct (Ce n) as (X & Y & Z). destruct (Cs n) as (X' & Y' & Z'). destruct (in_dec (list_eq_dec N.eq_dec) n (places js)) as [I|I].
  - unfold places in I. apply in_flat_map in I as (j & J & I). destruct I as [I | [I | []]]; symmetry in I.
    + unfold file_at. rewrite !tget_cons, (Y j J I), (Y' j J I). reflexivity.
    + destruct (X j J I) as (t & T & E), (X' j J I) as (t' & T' & E'). rewrite T in T'. injection T' as <-.
      destruct (file_at (n :: p) (after_jobs js s)) as [c|] eqn:F; [symmetry; apply E, E', F|].
      destruct (file_at (n :: p) (after_jobs js e)) as [c|] eqn:F'; [|reflexivity]. apply E in F'. apply E' in F'. congruence.
  - unfold file_at. rewrite !tget_cons, Z, Z', Fr by exact I. reflexivity.
Qed.
Print Assumptions C152_same.

(** ** The command punx install *)
(** wherever punx install is interrupted, the file sets that it installs are only disturbed *)
Lemma command_disturbed : forall js update server names net i e e0 s, (forall j n, nth_error names j = Some n -> net (i + j) = server n) ->
  (forall n, In n names -> exists j, In j js /\ j_name j = n /\ server n 0 = AnArchive (j_zip j)) ->
  disturbed js e e0 -> passes_through e0 (install_all update net i names e0) s -> disturbed js e s.
Proof.
  intros js update server. induction names as [|n names IH]; intros net i e e0 s V H D P.
  { unfold passes_through in P. cbn in P. destruct P as [-> | [[] | ->]]; exact D. }
  assert (N0 : net i = server n) by (rewrite <- (V 0 n eq_refl); f_equal; lia). destruct (H n (or_introl eq_refl)) as (j & J & En & Z).
  assert (K : forall x, visited e0 (snd (download_file_set n update (server n) e0)) x -> disturbed js e x).
  { intros x X. apply (di_more js e j e0 x D J). rewrite En. eapply it_more; [apply it_none| |exact X]. intros z' E. rewrite Z in E. injection E as <-. reflexivity. }
  cbn [install_all] in P. unfold wbind in P. rewrite N0 in P. unfold visited in K. destruct (download_file_set n update (server n) e0) as [q [[l e1] r]]. cbn [snd fst] in *.
  assert (V1 : forall j m, nth_error names j = Some m -> net (S i + j) = server m) by (intros a m E; rewrite <- (V (S a) m E); f_equal; lia).
  unfold passes_through in *. destruct r as [u|x]; cbn [fst snd] in P; [|apply K; exact P].
  specialize (IH net (S i) e e1 s V1 (fun m M => H m (or_intror M)) (K e1 (or_intror (or_intror eq_refl)))).
  destruct (install_all update net (S i) names e1) as [[l2 e2] r2]. cbn [fst snd] in *.
  destruct P as [-> | [P | ->]]; [exact D| |apply IH; auto]. apply in_app_or in P as [P|P]; [apply K; auto|apply IH; auto].
Qed.

(** punx install, interrupted anywhere, and then punx install --update with the same names: if the cache can be read
    then, the files are those of punx install --update without the interruption *)
Theorem C152_command : forall rj k k' p p' p'' update names zip top server net c c', served server names net ->
  (forall n, In n names -> ready (zip n) (top n) n (server n) (usr_dir k)) -> NoDup (flat_map (fun n => [top n; n]) names) ->
  passes_through (usr_dir k) (func_install rj k p update net names) (usr_dir k') ->
  snd (cache_manager rj k p') = Ok c -> snd (cache_manager rj k' p'') = Ok c' ->
  forall path, file_at path (snd (fst (func_install rj k' p'' true net names))) = file_at path (snd (fst (func_install rj k p' true net names))).
Proof.
  intros rj k k' p p' p'' update names zip top server net c c' V R ND P Ck Ck' path. set (J := fun n => mkJob (zip n) (top n) n true (server n)).
  assert (PL : forall l, places (map J l) = flat_map (fun n => [top n; n]) l) by (induction l as [|x l IH]; [reflexivity|cbn; f_equal; f_equal; exact IH]).
  assert (Rj : forall j, In j (map J names) -> job_ready (usr_dir k) j) by (intros j I; apply in_map_iff in I as (n & <- & I); apply R; exact I).
  assert (Rp : forall j, In j (map J names) -> j_replace j = true) by (intros j I; apply in_map_iff in I as (n & <- & I); reflexivity).
  assert (NDp : NoDup (places (map J names))) by (rewrite PL; exact ND).
  assert (D : disturbed (map J names) (usr_dir k) (usr_dir k')).
  { assert (Q : passes_through (usr_dir k) (install_all update net 0 names (usr_dir k)) (usr_dir k') \/ usr_dir k' = usr_dir k).
    { unfold func_install in P. destruct (cache_manager rj k p) as [p1 [c1|x]]; [left|right; unfold passes_through in P; cbn in P; intuition].
      unfold passes_through in *. destruct (install_all update net 0 names (usr_dir k)) as [[l e] [u|x]]; exact P. }
    destruct Q as [Q|Q]; [|rewrite Q; apply di_none]. apply (command_disturbed (map J names) update server names net 0 (usr_dir k) (usr_dir k)); [exact V| |apply di_none|exact Q].
    intros n I. exists (J n). split; [apply in_map; exact I|]. split; [reflexivity|]. apply (R n I). }
  destruct (C152_same (map J names) (usr_dir k) (usr_dir k') Rj Rp NDp D) as [S F]. pose proof (C152_same (map J names) (usr_dir k) (usr_dir k) Rj Rp NDp (di_none _ _)) as [S0 _].
  pose proof (install_jobs true zip top server names net 0 (usr_dir k') V S) as A. pose proof (install_jobs true zip top server names net 0 (usr_dir k) V S0) as A0.
  specialize (F path). unfold J in F. rewrite <- A, <- A0 in F. unfold func_install.
  destruct (cache_manager rj k p') as [q [c1|x]]; [|discriminate Ck]. destruct (cache_manager rj k' p'') as [q' [c2|x]]; [|discriminate Ck'].
  destruct (install_all true net 0 names (usr_dir k)) as [[l e] [u|x]], (install_all true net 0 names (usr_dir k')) as [[l' e'] [u'|x']]; exact F.
Qed.
Print Assumptions C152_command.

(** punx install --update v3.3 v3.4 is killed when half of the first file of v3.3 has been written *)
Definition names12 : list pystr := [py "v3.3"; py "v3.4"].
Definition net12 : nat -> nat -> answer := fun i => match i with 0 => net1 | _ => net2 end.
Definition disk_before : disk := mkDisk (py "/s") [(py "v3.2", info_of "{}")] (py "/u") old_cache.
Definition disk_killed : disk := mkDisk (py "/s") [(py "v3.2", info_of "{}")] (py "/u") (nth 2 (fst (fst (install_all true net12 0 names12 old_cache))) []).
Definition new_process : proc := None.
(** reads the text {} only *)
Definition rj12 : json_reader := fun s => if str_eqb s (py "{}") then Ok (mkI (Some (py "r")) (Some (py "s")) (Some (py "d")) (Some (py "z"))) else Exn ValueError.
Lemma install_states : forall rj k p update net names c, snd (cache_manager rj k p) = Ok c ->
  fst (fst (func_install rj k p update net names)) = fst (fst (install_all update net 0 names (usr_dir k))).
Proof.
  intros rj k p update net names c H. unfold func_install. destruct (cache_manager rj k p) as [q [c1|x]]; [|discriminate H].
  destruct (install_all update net 0 names (usr_dir k)) as [[l e] [u|x]]; reflexivity.
Qed.
Example C152_case : served server12 names12 net12
  /\ (forall n, In n names12 -> ready (if str_eqb n (py "v3.3") then zip1 else zip2) (if str_eqb n (py "v3.3") then top1 else top2) n (server12 n) (usr_dir disk_before))
  /\ NoDup (flat_map (fun n => [if str_eqb n (py "v3.3") then top1 else top2; n]) names12)
  /\ passes_through (usr_dir disk_before) (func_install rj12 disk_before new_process true net12 names12) (usr_dir disk_killed)
  /\ (exists c, snd (cache_manager rj12 disk_before new_process) = Ok c) /\ (exists c, snd (cache_manager rj12 disk_killed new_process) = Ok c)
  /\ file_at [top1; py "nxdl.xsd"] (usr_dir disk_killed) = Some (py "a").
Proof.
  destruct C150_names as (A & _ & B). split; [exact A|]. split; [exact B|].
  split; [repeat constructor; cbn; intros H; repeat (destruct H as [H|H]; [vm_compute in H; discriminate H|]); exact H|].
  split.
  { right. left. assert (C : exists c, snd (cache_manager rj12 disk_before new_process) = Ok c) by (eexists; vm_compute; reflexivity). destruct C as [c C].
    pose proof (install_states rj12 disk_before new_process true net12 names12 c C) as X.
    rewrite X. apply nth_In. apply PeanoNat.Nat.ltb_lt. vm_compute. reflexivity. }
  split; [eexists; vm_compute; reflexivity|]. split; [eexists; vm_compute; reflexivity|vm_compute; reflexivity].
Qed.
