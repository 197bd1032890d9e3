(** * Properties: when an installation succeeds *)

From Coq Require Import List NArith ZArith Bool String Lia.
From Verif Require Import PyBase PyFacts Utf8 Cache Install Spec_Install InstallFacts InstallEnd InfoFile Spec_Info InfoFacts Spec_Success SuccessFacts
  Properties_Install Properties_Info.
Import ListNotations.
Open Scope string_scope.
Open Scope list_scope.

(** ** C121 *)
(** an installation succeeds and gives a complete file set, if nothing is in its way *)
Theorem C121_succeeds : forall z top name replace net e text, net 0 = AnArchive z -> plain_archive z top name -> installable z top ->
  unobstructed z top name e -> z_info z name = Ok text ->
  let s := snd (fst (snd (download_file_set name replace net e))) in
  snd (snd (download_file_set name replace net e)) = Ok tt
  /\ (~ In name (map fst e) \/ replace = true -> exists t, dget name s = Some t /\ complete z top text t /\ dget top s = None).
Proof.
  intros z top name replace net e text HN PA IN R Zi s. pose proof (download_works z top name PA IN replace net e text HN R Zi) as H. split; [exact H|]. intros D.
  destruct (end_installed z top name e PA _ _ HN H) as [[A B] | J]; [exfalso; destruct D as [D | D]; [apply dmem_In in A; contradiction | congruence]|].
  destruct (installed_complete z top name e PA _ J) as (text' & t & Z & G & C & T). rewrite Zi in Z. injection Z as <-. eauto.
Qed.
Print Assumptions C121_succeeds.

(** so it is for an archive of GitHub with calendar dates and a comment in UTF-8 *)
Theorem C121_github : forall ms dates sha comment now top name replace net e, let z := github_archive ms dates comment now in
  net 0 = AnArchive z -> plain_archive z top name -> installable z top -> unobstructed z top name e ->
  (forall dt, latest_date ms dates top dt -> calendar dt) -> utf8_encode sha = Ok comment ->
  snd (snd (download_file_set name replace net e)) = Ok tt.
Proof.
  intros ms dates sha comment now top name replace net e z HN PA IN R C U.
  assert (Et : top_name ms = top) by (destruct (pa_top _ _ _ PA) as (m & rest & Em & ->); cbn [z github_archive z_members] in Em; subst ms; reflexivity).
  assert (X : exists text, z_info z name = Ok text).
  { eexists. apply info_text_spec. exists sha. split; [rewrite Et; apply C, latest_spec, PA|]. split; [exact U | reflexivity]. }
  destruct X as (text & X). eapply C121_succeeds; eauto.
Qed.
Print Assumptions C121_github.

(** it fails if the archive does not have two definition files *)
Theorem C121_few : forall z top name replace net e, net 0 = AnArchive z -> plain_archive z top name -> ~ In name (map fst e) \/ replace = true ->
  (forall before m between m' after, z_members z = before ++ m :: between ++ m' :: after -> definition_file top (m_name m) -> ~ definition_file top (m_name m')) ->
  snd (snd (download_file_set name replace net e)) <> Ok tt.
Proof.
  intros z top name replace net e HN PA D F. unfold download_file_set. replace (dmem name e && negb replace) with false
    by (destruct D as [D | ->]; [destruct (dmem name e) eqn:M; [apply dmem_In in M; contradiction | reflexivity] | rewrite andb_false_r; reflexivity]).
  unfold download_archive, GITHUB_RETRY_COUNT. cbn [try_rounds]. rewrite HN. cbn [try_round snd].
  unfold unpack. rewrite (top_is z top name PA). unfold wbind at 1, wlift at 1. unfold wbind at 1.
  destruct (extract_all z top 0 (z_members z) e) as [[l e1] [n|x]] eqn:X; [|discriminate]. apply extract_all_count in X. cbn [plus] in X.
  destruct (Nat.ltb_spec n 2) as [L | L]; [discriminate|]. exfalso. destruct (two_of top (z_members z)) as (before & m & between & m' & after & E & A & B); [lia|].
  apply (F before m between m' after E); apply extractable_spec; try assumption; apply PA.
Qed.
Print Assumptions C121_few.

Lemma zip_in : forall z, z_members z = z_members zip1 -> installable z top1.
Proof.
  intros z Ez. constructor.
  - exists [mkM (py "definitions-3.3/") []], (mkM (py "definitions-3.3/nxdl.xsd") (py "ab")), [], (mkM (py "definitions-3.3/base_classes/NXentry.nxdl.xml") (py "cd")), [mkM (py "definitions-3.3/README.md") (py "ef")].
    split; [exact Ez|]. split; (apply extractable_spec; [discriminate | vm_compute; reflexivity]).
  - intros m d J D H. rewrite Ez in J. apply extractable_spec in D; [|discriminate]. assert (X : endswith (m_name m) (py "/") = true) by (apply endswith_spec; eauto).
    simpl in J. destruct J as [<- | [<- | [<- | [<- | []]]]]; vm_compute in D, X; congruence.
  - assert (K : forall p, target z top1 p -> p = [top1; py "__github_info__.json"] \/ p = [top1; py "nxdl.xsd"] \/ p = [top1; py "base_classes"; py "NXentry.nxdl.xml"]).
    { intros p [H | (m & J & D & H)]; [left; exact H|]. rewrite Ez in J. apply destination_spec in H. subst p. apply extractable_spec in D; [|discriminate].
      simpl in J. destruct J as [<- | [<- | [<- | [<- | []]]]]; vm_compute in D; try discriminate D; vm_compute; auto. }
    intros p r H1 H2. apply K in H1. apply K in H2.
    destruct H1 as [-> | [-> | ->]]; destruct H2 as [H2 | [H2 | H2]]; cbn [app] in H2; try (injection H2 as H2; exact H2); try discriminate H2.
Qed.

Example C121_case : plain_archive zip1 top1 (py "v3.3") /\ installable zip1 top1 /\ unobstructed zip1 top1 (py "v3.3") [(py "v3.3", TDir [])]
  /\ (forall dt, latest_date ms1 dates1 top1 dt -> calendar dt) /\ utf8_encode sha1 = Ok sha1.
Proof.
  split; [exact zip1_plain|]. split; [apply zip_in; reflexivity|]. split.
  { assert (G : forall p, target zip1 top1 p -> exists r, p = top1 :: r) by (intros p Tp; apply (target_top zip1 top1 (py "v3.3") zip1_plain (zip_in zip1 eq_refl)) in Tp as (n & r & ->); eauto).
    constructor.
    - intros p q r c Tp E _. apply G in Tp as (x & ->). destruct q as [|y q]; [discriminate|]. injection E as <- _. rewrite tget_cons. vm_compute. discriminate.
    - intros p es Tp. apply G in Tp as (x & ->). rewrite tget_cons. vm_compute. discriminate.
    - intros c. vm_compute. discriminate. }
  split; [|vm_compute; reflexivity]. intros dt [[-> | (m & J & D & ->)] _]; apply real_spec; [vm_compute; reflexivity|].
  simpl in J. destruct J as [<- | [<- | [<- | [<- | []]]]]; vm_compute; reflexivity.
Qed.

(** ** C122 *)
(** whatever interrupted installations left, another installation of the file set succeeds, and then it is complete *)
Theorem C122_recovers : forall z top name replace net e s text, plain_archive z top name -> installable z top -> unobstructed z top name e ->
  interrupted z name e s -> net 0 = AnArchive z -> z_info z name = Ok text -> ~ In name (map fst s) \/ replace = true ->
  snd (snd (download_file_set name replace net s)) = Ok tt
  /\ exists t, dget name (snd (fst (snd (download_file_set name replace net s)))) = Some t /\ complete z top text t.
Proof.
  intros z top name replace net e s text PA IN R V HN Zi D. pose proof (interrupted_ready z top name e s PA IN V R) as Rs.
  destruct (C121_succeeds z top name replace net s text HN PA IN Rs Zi) as [A B]. split; [exact A|]. destruct (B D) as (t & G & C & _). eauto.
Qed.
Print Assumptions C122_recovers.

(** the first was interrupted when half of the old file set was deleted; the second while it read the archive *)
Example C122_case : exists s1 s2, let old := [(py "v3.3", info_of "{}")] in
  interrupted zip1 (py "v3.3") old s2 /\ visited old (snd (download_file_set (py "v3.3") true net1 old)) s1
  /\ visited s1 (snd (download_file_set (py "v3.3") true net1 s1)) s2
  /\ tget [py "v3.3"; py "__github_info__.json"] s2 = None /\ tget [py "v3.3"; py "nxdl.xsd"] s2 <> None
  /\ tget [top1; py "__github_info__.json"] s1 <> None
  /\ snd (snd (download_file_set (py "v3.3") true net1 s2)) = Ok tt
  /\ file_at [py "v3.3"; py "__github_info__.json"] (snd (fst (snd (download_file_set (py "v3.3") true net1 s2)))) = Some shipped.
Proof.
  set (half := fun e : entries => match tget [py "v3.3"; py "__github_info__.json"] e, tget [py "v3.3"; py "nxdl.xsd"] e with None, Some _ => true | _, _ => false end).
  set (old := [(py "v3.3", info_of "{}")]).
  set (s1 := match find half (fst (fst (snd (download_file_set (py "v3.3") true net1 old)))) with Some s => s | None => [] end).
  set (s2 := match fst (fst (snd (download_file_set (py "v3.3") true net1 s1))) with s :: _ => s | [] => [] end).
  assert (V1 : visited old (snd (download_file_set (py "v3.3") true net1 old)) s1).
  { right. left. unfold s1. destruct (find half _) as [s|] eqn:F; [apply find_some in F; apply F | vm_compute in F; discriminate F]. }
  assert (V2 : visited s1 (snd (download_file_set (py "v3.3") true net1 s1)) s2).
  { right. left. unfold s2. destruct (fst (fst (snd (download_file_set (py "v3.3") true net1 s1)))) as [|s l] eqn:F; [vm_compute in F; discriminate F | left; reflexivity]. }
  exists s1, s2. cbv zeta. split.
  - apply (it_more zip1 (py "v3.3") true net1 old s1 s2); [|intros z' Z; injection Z as <-; reflexivity | exact V2].
    apply (it_more zip1 (py "v3.3") true net1 old old s1); [apply it_none | intros z' Z; injection Z as <-; reflexivity | exact V1].
  - split; [exact V1|]. split; [exact V2|]. vm_compute. repeat split; discriminate.
Qed.

(** a file with the name of the archive's top directory, or of the file set, is in the way; and without
    replacing, what is left of a file set stays as it is *)
Example C121_obstructed : snd (snd (download_file_set (py "v3.3") true net1 [(top1, TFile [])])) = Exn OSError
  /\ snd (snd (download_file_set (py "v3.3") true net1 [(py "v3.3", TFile [])])) = Exn OSError
  /\ ~ unobstructed zip1 top1 (py "v3.3") [(top1, TFile [])]
  /\ download_file_set (py "v3.3") false net1 [(py "v3.3", TDir [])] = (0, ([], [(py "v3.3", TDir [])], Ok tt)).
Proof.
  split; [vm_compute; reflexivity|]. split; [vm_compute; reflexivity|]. split; [|vm_compute; reflexivity].
  intros [A _ _]. apply (A [top1; py "__github_info__.json"] [top1] [py "__github_info__.json"] []); [left; reflexivity | reflexivity | discriminate | vm_compute; reflexivity].
Qed.
