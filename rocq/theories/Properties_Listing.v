(** * Properties of listing file sets while others are installed *)

From Coq Require Import List NArith ZArith Bool String Lia.
From Verif Require Import PyBase PyFacts Cache Install Cli Conc Spec_Install Spec_Conc Spec_FileSets InstallFacts Listing Spec_Listing ListingFacts
  Properties_Install Properties_Conc.
Import ListNotations.
Open Scope string_scope.
Open Scope list_scope.

(** ** C123 *)
(** one process lists the file sets while another installs one.  It is stopped by a half written info file; or by
    one that is deleted when it is about to read it.  Before and after the installation there is no error. *)
Definition job_v3 : job := mkJob true (fun _ => net0) [py "v3"].
Theorem C123_refuted : exists turns turns',
  snd (watch turns cache1 (map process [job_v3]) (list_sets rj1 (py "/c"))) = Got (Exn ValueError)
  /\ snd (watch turns' cache1 (map process [job_v3]) (list_sets rj1 (py "/c"))) = Got (Exn OSError)
  /\ is_ok (cache_sets rj1 (py "/c") [] cache1) = true
  /\ snd (schedule (repeat 0 60) cache1 (map process [job_v3])) = [Done (Ok tt)]
  /\ is_ok (cache_sets rj1 (py "/c") [] (fst (schedule (repeat 0 60) cache1 (map process [job_v3])))) = true.
Proof.
  exists (repeat (Some 0) 14 ++ repeat None 60), (repeat None 8 ++ repeat (Some 0) 18 ++ repeat None 60).
  split; [vm_compute; reflexivity|]. split; [vm_compute; reflexivity|]. split; [vm_compute; reflexivity|]. split; vm_compute; reflexivity.
Qed.
Print Assumptions C123_refuted.

(** what is listed was on offer at some moment, what was on offer all the time is listed; it fails only if
    an info file cannot be read or is removed.  So it is whatever the other processes do. *)
Theorem C123_partial : forall (ps : list (prog unit)) e turns rj cpath r,
  snd (watch turns e ps (list_sets rj cpath)) = Got r ->
  match r with
  | Ok sets => (forall n fs, dget n sets = Some fs -> exists s, moment turns e ps s /\ offered rj cpath s n fs)
      /\ (forall n fs, (forall s, moment turns e ps s -> offered rj cpath s n fs) -> dget n sets = Some fs)
  | Exn x => exists n, trouble rj (moment turns e ps) n x
  end.
Proof.
  intros ps e turns rj cpath r H.
  pose proof (watch_finds _ turns (moment turns e ps) e ps (list_sets rj cpath) (fun s Hs => Hs) (list_sets_finds rj cpath (moment turns e ps))) as F.
  rewrite H in F. inversion F as [r' Q|]; subst. exact Q.
Qed.
Print Assumptions C123_partial.

(** the file sets that are not being installed are listed as they were *)
Theorem C123_others : forall jobs e turns rj cpath sets n, (forall j, In j jobs -> ordinary_job j) -> (forall j, In j jobs -> ~ touches j n) ->
  snd (watch turns e (map process jobs) (list_sets rj cpath)) = Got (Ok sets) ->
  forall fs, dget n sets = Some fs <-> offered rj cpath e n fs.
Proof.
  intros jobs e turns rj cpath sets n O N H fs. destruct (C123_partial _ _ _ _ _ _ H) as [A B].
  assert (X : forall s f, moment turns e (map process jobs) s -> (offered rj cpath s n f <-> offered rj cpath e n f)).
  { intros s f (before & after & _ & ->). unfold offered. rewrite (C118_others jobs e (others before) n O N). reflexivity. }
  split.
  - intros G. destruct (A n fs G) as (s & M & Of). apply (X s fs M), Of.
  - intros Of. apply B. intros s M. apply (X s fs M), Of.
Qed.
Print Assumptions C123_others.

(** and never stop the listing, if their info files can be read *)
Theorem C123_blame : forall jobs e turns rj cpath x, (forall j, In j jobs -> ordinary_job j) -> NoDup (map fst e) -> readable rj e ->
  snd (watch turns e (map process jobs) (list_sets rj cpath)) = Got (Exn x) -> exists n j, In j jobs /\ touches j n /\ trouble rj (moment turns e (map process jobs)) n x.
Proof.
  intros jobs e turns rj cpath x O ND R H. destruct (C123_partial _ _ _ _ _ _ H) as (n & T). exists n.
  destruct (some_touches jobs n O) as [(j & J & K) | N]; [eauto|]. exfalso.
  assert (X : forall s, moment turns e (map process jobs) s -> info_file s n = info_file e n).
  { intros s (before & after & _ & ->). unfold info_file. rewrite !tget_cons. rewrite (C118_others jobs e (others before) n O N). reflexivity. }
  assert (Y : forall t, info_file e n = Some t -> exists text i, t = TFile text /\ rj text = Ok i).
  { intros t G. apply info_sub in G as (sub & D & F). eapply R; [|exact F]. apply dget_In. exact D. }
  inversion T as [n' s text x' M G E | n' s s' M M' G G']; subst.
  - rewrite (X s M) in G. destruct (Y _ G) as (text' & i & E1 & E2). injection E1 as <-. congruence.
  - rewrite (X s M) in G. destruct (info_file e n) as [t|] eqn:I; [|congruence]. destruct (Y t eq_refl) as (text & i & -> & _). apply (G' text). rewrite (X s' M'). reflexivity.
Qed.
Print Assumptions C123_blame.

(** with no other process at work this is the listing of Cache.v *)
Theorem C123_alone : forall (ps : list (prog unit)) e turns rj cpath r, NoDup (map fst e) -> (forall t, In t turns -> t = None) ->
  snd (watch turns e ps (list_sets rj cpath)) = Got r -> r = cache_sets rj cpath [] e.
Proof.
  intros ps e turns rj cpath r N T H. pose proof (watch_alone turns e ps (list_sets rj cpath) T) as X. rewrite H, list_sets_alone in X by exact N. exact X.
Qed.
Print Assumptions C123_alone.

Example C123_case : ordinary_job job_v3 /\ ~ touches job_v3 (py "v1") /\ touches job_v3 (py "v3") /\ NoDup (map fst cache1) /\ readable rj1 cache1
  /\ (exists sets fs, snd (watch (repeat None 8 ++ repeat (Some 0) 25 ++ repeat None 60) cache1 (map process [job_v3]) (list_sets rj1 (py "/c"))) = Got (Ok sets)
       /\ dget (py "v1") sets = Some fs)
  /\ exists sets, snd (watch (repeat None 20) cache1 (map process [job_v3]) (list_sets rj1 (py "/c"))) = Got (Ok sets) /\ List.length sets = 2.
Proof.
  assert (Or : ordinary_job job_v3).
  { intros i name H. right. exists zip0, top0. split; [reflexivity|]. destruct i as [|[|i]]; try discriminate H. injection H as <-. exact zip0_plain. }
  split; [exact Or|]. split.
  { intros [[H | []] | (i & name & z & _ & Z & PA)]; [discriminate H|]. injection Z as <-. pose proof (archive_top zip0 _ _ _ _ PA zip0_plain) as X. discriminate X. }
  split; [left; left; reflexivity|]. split; [repeat constructor; cbn; intuition discriminate|]. split; [apply C73_example|]. split.
  - eexists _, _. split; vm_compute; reflexivity.
  - eexists. split; vm_compute; reflexivity.
Qed.
