(** * Installing a file set again (C149) *)

From Coq Require Import List NArith ZArith Bool String Lia.
From Verif Require Import PyBase PyFacts Utf8 Cache Install Spec_Install InstallFacts InstallEnd InfoFile Spec_Info InfoFacts Spec_Success SuccessFacts
  Properties_Install Properties_Info Properties_Success.
Import ListNotations.
Local Open Scope string_scope.
Local Open Scope list_scope.

Definition cache_after (name : pystr) (replace : bool) (net : nat -> answer) (e : entries) : entries := snd (fst (snd (download_file_set name replace net e))).
Definition succeeds (name : pystr) (replace : bool) (net : nat -> answer) (e : entries) : Prop := snd (snd (download_file_set name replace net e)) = Ok tt.

Lemma file_cons : forall n p s es, dget n s = Some (TDir es) -> p <> [] -> file_at (n :: p) s = file_at p es.
Proof. intros n p s es G H. unfold file_at. rewrite tget_cons, G. destruct p; [congruence|reflexivity]. Qed.

(** with the same archive, the files of the file set are the same whatever it had before *)
Theorem C149_replaced : forall z top name replace replace' net net' e e', net 0 = AnArchive z -> net' 0 = AnArchive z -> plain_archive z top name -> installable z top ->
  dget top e = None -> dget top e' = None -> (~ In name (map fst e) \/ replace = true) -> (~ In name (map fst e') \/ replace' = true) ->
  succeeds name replace net e -> succeeds name replace' net' e' ->
  forall p, file_at (name :: p) (cache_after name replace net e) = file_at (name :: p) (cache_after name replace' net' e').
Proof.
  intros z top name replace replace' net net' e e' N N' PA IN G G' D D' H H' p.
  assert (ND : forall m, In m (z_members z) -> definition_file top (m_name m) -> ~ exists d, m_name m = d ++ py "/") by (intros m I Dm [d X]; destruct IN as [_ IN2 _]; exact (IN2 m d I Dm X)).
  assert (Q : forall b (x : entries), ~ In name (map fst x) \/ b = true -> dmem name x = false \/ b = true).
  { intros b x [X|X]; [left|right; exact X]. destruct (dmem name x) eqn:M; [|reflexivity]. apply dmem_In in M. contradiction. }
  destruct (C74_partial z top name replace net e N PA G ND H (Q _ _ D)) as (t & es & Z & A & B).
  destruct (C74_partial z top name replace' net' e' N' PA G' ND H' (Q _ _ D')) as (t' & es' & Z' & A' & B').
  unfold cache_after. rewrite Z in Z'. injection Z' as <-. destruct p as [|x p].
  - unfold file_at. rewrite !tget_cons, A, A'. reflexivity.
  - rewrite (file_cons name (x :: p) _ es A), (file_cons name (x :: p) _ es' A') by discriminate.
    destruct (file_at (x :: p) es) as [c|] eqn:F.
    + symmetry. apply B'. apply B. exact F.
    + destruct (file_at (x :: p) es') as [c|] eqn:F'; [|reflexivity]. apply B' in F'. apply B in F'. congruence.
Qed.
Print Assumptions C149_replaced.

(** installing once more, with the same archive, succeeds and changes no file of the cache directory *)
Theorem C149_again : forall z top name replace net net' e, net 0 = AnArchive z -> net' 0 = AnArchive z -> plain_archive z top name -> installable z top ->
  unobstructed z top name e -> dget top e = None -> (~ In name (map fst e) \/ replace = true) -> succeeds name replace net e ->
  let s := cache_after name replace net e in
  succeeds name true net' s /\ forall p, file_at p (cache_after name true net' s) = file_at p s.
Proof.
  intros z top name replace net net' e N N' PA IN U G D H s.
  destruct (end_installed z top name e PA _ _ N H) as [[A B] | I]; [exfalso; destruct D as [D|D]; [apply D; apply dmem_In; exact A|congruence]|].
  destruct (installed_complete z top name e PA _ I) as (text & t & Zi & _ & _ & Gs). fold (cache_after name replace net e) in Gs. fold s in Gs.
  assert (Us : unobstructed z top name s). { eapply (visited_ready z top name); [exact PA|exact IN|exact N|exact U|]. right. right. reflexivity. }
  destruct (C121_succeeds z top name true net' s text N' PA IN Us Zi) as [S2 T2]. split; [exact S2|].
  destruct (T2 (or_intror eq_refl)) as (t2 & _ & _ & Gs2). intros [|n p]; [reflexivity|].
  destruct (str_eqb n name) eqn:En; [apply str_eqb_eq in En; subst n|apply str_eqb_neq in En; destruct (str_eqb n top) eqn:Et; [apply str_eqb_eq in Et; subst n|apply str_eqb_neq in Et]].
  - unfold s at 2. eapply (C149_replaced z top name true replace net' net s e); auto.
  - unfold file_at. rewrite !tget_cons. fold (cache_after name true net' s) in Gs2. rewrite Gs, Gs2. reflexivity.
  - unfold file_at. rewrite !tget_cons. assert (X : dget n (cache_after name true net' s) = dget n s). { eapply (C52_frame z top name true net' s); auto. right. right. reflexivity. }
    rewrite X. reflexivity.
Qed.
Print Assumptions C149_again.

(** an older version with other files, and none; beside it another file set *)
Definition old_cache : entries := [(py "v1", info_of "{}"); (py "v3.3", TDir [(py "old.nxdl.xml", TFile (py "x")); (py "__github_info__.json", TFile (py "{}"))])].
Example C149_case : net1 0 = AnArchive zip1 /\ plain_archive zip1 top1 (py "v3.3") /\ installable zip1 top1
  /\ dget top1 old_cache = None /\ dget top1 ([] : entries) = None /\ succeeds (py "v3.3") true net1 old_cache /\ succeeds (py "v3.3") false net1 []
  /\ unobstructed zip1 top1 (py "v3.3") old_cache
  /\ file_at [py "v3.3"; py "old.nxdl.xml"] (cache_after (py "v3.3") true net1 old_cache) = None
  /\ file_at [py "v3.3"; py "nxdl.xsd"] (cache_after (py "v3.3") true net1 old_cache) = Some (py "ab").
Proof.
  split; [reflexivity|]. split; [exact zip1_plain|]. split; [apply zip_in; reflexivity|]. split; [vm_compute; reflexivity|]. split; [reflexivity|].
  split; [vm_compute; reflexivity|]. split; [vm_compute; reflexivity|]. split; [|split; vm_compute; reflexivity].
  assert (G : forall p, target zip1 top1 p -> exists r, p = top1 :: r) by (intros p Tp; apply (target_top zip1 top1 (py "v3.3") zip1_plain (zip_in zip1 eq_refl)) in Tp as (n & r & ->); eauto).
  constructor.
  - intros p q r c Tp E _. apply G in Tp as (x & ->). destruct q as [|y q]; [discriminate|]. injection E as <- _. rewrite tget_cons. vm_compute. discriminate.
  - intros p es Tp. apply G in Tp as (x & ->). rewrite tget_cons. vm_compute. discriminate.
  - intros c. vm_compute. discriminate.
Qed.
