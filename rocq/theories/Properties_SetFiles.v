(** * Only the NXDL files of a file set's directories matter (C147) *)

From Coq Require Import List NArith ZArith Bool String.
From Verif Require Import PyBase PyFacts Nxdl NxdlLoad NxdlSchema Session Spec_Nxdl Spec_Proper Spec_SetFiles NxdlFacts ProperFacts SetFilesFacts NxdlSamples CatalogSamples SessionSamples.
Import ListNotations.
Local Open Scope string_scope.
Local Open Scope list_scope.

(** the order in which directories list their names and files that are no NXDL files of the file
    set change nothing of what is loaded, nor of how loading fails *)
Theorem C147_loaded : forall ls ls' valid content content' d dir, names_once ls -> names_once ls' -> same_nxdl_files ls ls' dir ->
  (forall file, file_of_set ls dir file -> content file = content' file) ->
  load_manager ls valid content d dir = load_manager ls' valid content' d dir.
Proof. exact loads_same. Qed.
Print Assumptions C147_loaded.

(** nor of what a validator made with the file set uses *)
Theorem C147_validator : forall E fuel limit reclimit valid D D' path g, names_once (sd_ls D) -> names_once (sd_ls D') -> same_nxdl_files (sd_ls D) (sd_ls D') path ->
  (forall file, file_of_set (sd_ls D) path file -> sd_content D file = sd_content D' file) -> sd_nxdl D = sd_nxdl D' -> sd_types D = sd_types D' ->
  open_file_set E fuel limit reclimit valid D path g = open_file_set E fuel limit reclimit valid D' path g.
Proof.
  intros E fuel limit reclimit valid D D' path g O O' S H N T.
  assert (L := lists_same _ _ _ O O' S).
  assert (M : nxdl_manager E limit valid D path = nxdl_manager E limit valid D' path).
  { unfold nxdl_manager. rewrite <- L, <- N. destruct S as [S0 S1]. destruct (sd_ls D path) eqn:A, (sd_ls D' path) eqn:A'; try reflexivity; [|discriminate (proj2 S0 eq_refl)|discriminate (proj1 S0 eq_refl)].
    destruct (sd_nxdl D); [|reflexivity]. destruct (nxdl_summary E limit l) as [su|e]; cbn [rbind]; [|reflexivity].
    rewrite (loads_same (sd_ls D) (sd_ls D') valid (sd_content D) (sd_content D')); [reflexivity|exact O|exact O'| |exact H]. split; [rewrite A, A'; exact S0|exact S1]. }
  assert (F : first_file_checked E limit D path = first_file_checked E limit D' path).
  { unfold first_file_checked. rewrite <- L, <- N. destruct (sd_nxdl D); [|reflexivity]. destruct (get_NXDL_file_list (sd_ls D) path) as [[|f fs]|e] eqn:G; [reflexivity| |reflexivity].
    rewrite <- (H f); [reflexivity|]. apply (listed_files _ _ _ G). left. reflexivity. }
  assert (X : xsd_of D = xsd_of D') by (unfold xsd_of; rewrite ?N, ?T; reflexivity).
  unfold open_file_set. rewrite <- F, <- M, <- X. reflexivity.
Qed.
Print Assumptions C147_validator.

(** the directories of the sample in another order, with other files *)
Definition ls_other (p : pystr) : option fsnode :=
  if str_eqb p (py "/d") then Some (FSDir [py "nxdl.xsd"])
  else if str_eqb p (py "/d/base_classes") then Some (FSDir [py "NXdata.nxdl.xml"; py "NXdata.nxdl.xml.orig"; py "NXentry.nxdl.xml"])
  else if str_eqb p (py "/d/applications") then Some (FSDir [py "NXapp.nxdl.xml"; py "Makefile"])
  else if str_eqb p (py "/d/contributed_definitions") then Some (FSDir [py "NXdata.nxdl.xml"])
  else if str_eqb p (py "/d/package") then Some FSFile
  else None.
Definition content_other (p : pystr) : option xnode := if str_eqb p (py "/d/base_classes/NXdata.nxdl.xml.orig") then Some app_bare else content0 app1 p.
Lemma files_by : forall ls ls' dir cat n n', ls (path_join dir cat) = Some (FSDir n) -> ls' (path_join dir cat) = Some (FSDir n') ->
  (forall x, In x (filter (fun f => endswith f (py ".nxdl.xml")) n) <-> In x (filter (fun f => endswith f (py ".nxdl.xml")) n')) ->
  (no_directory ls (path_join dir cat) <-> no_directory ls' (path_join dir cat)) /\ forall file, nxdl_file ls dir cat file <-> nxdl_file ls' dir cat file.
Proof.
  intros ls ls' dir cat n n' E E' H. split; [split; intros X; [destruct (X n E)|destruct (X n' E')]|].
  assert (Y : forall b, In (b ++ py ".nxdl.xml") n <-> In (b ++ py ".nxdl.xml") n').
  { intros b. specialize (H (b ++ py ".nxdl.xml")). rewrite !filter_In in H. assert (Z : endswith (b ++ py ".nxdl.xml") (py ".nxdl.xml") = true) by (apply endswith_spec; exists b; reflexivity).
    rewrite Z in H. tauto. }
  intros file. split; intros (m & b & M & I & F); [exists n', b|exists n, b]; (split; [assumption|]); (split; [|exact F]); apply Y; congruence.
Qed.
Lemma once0 : names_once ls0.
Proof. intros p names. unfold ls0. repeat match goal with |- context [if ?b then _ else _] => destruct b end; intros E; inversion E; apply nodupb_ok; vm_compute; reflexivity. Qed.
Lemma once_other : names_once ls_other.
Proof. intros p names. unfold ls_other. repeat match goal with |- context [if ?b then _ else _] => destruct b end; intros E; inversion E; apply nodupb_ok; vm_compute; reflexivity. Qed.

Example C147_case : names_once ls0 /\ names_once ls_other /\ same_nxdl_files ls0 ls_other (py "/d")
  /\ (forall file, file_of_set ls0 (py "/d") file -> content0 app1 file = content_other file)
  /\ ls0 (py "/d/base_classes") <> ls_other (py "/d/base_classes")
  /\ (exists cl, snd (load_manager ls_other (fun _ => true) content_other df0 (py "/d")) = Ok cl /\ map fst cl = [py "NXdata"; py "NXentry"; py "NXapp"]).
Proof.
  split; [exact once0|]. split; [exact once_other|]. split; [|split; [|split]].
  - split; [split; discriminate|]. intros cat [<-|[<-|[<-|[]]]].
    + eapply files_by; [vm_compute; reflexivity|vm_compute; reflexivity|]. intros x. vm_compute. tauto.
    + eapply files_by; [vm_compute; reflexivity|vm_compute; reflexivity|]. intros x. vm_compute. tauto.
    + eapply files_by; [vm_compute; reflexivity|vm_compute; reflexivity|]. intros x. vm_compute. tauto.
  - intros file (cat & _ & names & base & _ & _ & ->). unfold content_other. rewrite (proj2 (str_eqb_neq _ _)); [reflexivity|].
    intros X. apply (f_equal (fun s => last s 0%N)) in X. unfold path_join in X.
    assert (Z : forall l, last (l ++ py ".nxdl.xml") 0%N = 108%N) by (intros l; change (py ".nxdl.xml") with (py ".nxdl.xm" ++ [108%N]); rewrite app_assoc; apply last_last).
    repeat match type of X with context [if ?b then _ else _] => destruct b end; rewrite ?app_assoc in X; rewrite Z in X; vm_compute in X; discriminate X.
  - vm_compute. discriminate.
  - eexists. split; vm_compute; reflexivity.
Qed.
