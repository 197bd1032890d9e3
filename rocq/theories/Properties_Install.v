(** * Properties of installing a file set *)

From Coq Require Import List NArith ZArith Bool String Lia.
From Verif Require Import PyBase PyFacts Cache Spec_FileSets Install Spec_Install InstallFacts InstallEnd InstallSafe.
Import ListNotations.
Open Scope string_scope.
Open Scope list_scope.

(** ** Samples *)
Definition top0 : pystr := py "definitions-3.3".
Definition zip0 : archive := mkZ
  [mkM (py "definitions-3.3/") []; mkM (py "definitions-3.3/nxdl.xsd") (py "ab");
   mkM (py "definitions-3.3/base_classes/NXentry.nxdl.xml") (py "cd");
   mkM (py "definitions-3.3/README.md") (py "ef");
   mkM (py "definitions-3.3/manual/NXentry.nxdl.xml") (py "gh")] (fun _ => Ok (py "{}")).
(** reads the text {} only *)
Definition rj1 : json_reader := fun s => if str_eqb s (py "{}") then Ok (mkI None None None None) else Exn ValueError.
Definition info_of (s : string) : tree := TDir [(py "__github_info__.json", TFile (py s)); (py "nxdl.xsd", TFile (py "old"))].
Definition cache1 : entries := [(py "v1", info_of "{}"); (py "v3", info_of "{}")].
Definition net0 : nat -> answer := fun _ => AnArchive zip0.

Lemma zip0_plain : plain_archive zip0 top0 (py "v3").
Proof.
  constructor.
  - exists (mkM (py "definitions-3.3/") []). eexists. split; [reflexivity | vm_compute; reflexivity].
  - repeat split; discriminate.
  - discriminate.
  - intros m I D. apply extractable_spec in D; [|discriminate]. simpl in I. destruct I as [<- | [<- | [<- | [<- | [<- | []]]]]]; vm_compute in D; try discriminate D;
      (eexists; split; [apply destination_spec; vm_compute; reflexivity | vm_compute; intuition discriminate]).
Qed.

(** ** C50 *)
(** a crash after the old directory is deleted and before the new one is moved: the
    name is gone *)
Theorem C50_refuted : exists s sets, visited cache1 (snd (download_file_set (py "v3") true net0 cache1)) s
  /\ cache_sets rj1 (py "/c") [] cache1 = Ok sets /\ dget (py "v3") sets <> None /\ dget (py "v3") s = None.
Proof.
  exists (match nth_error (fst (fst (snd (download_file_set (py "v3") true net0 cache1)))) 13 with Some s => s | None => cache1 end).
  eexists. split; [right; left|split; [vm_compute; reflexivity | split; [vm_compute; discriminate | vm_compute; reflexivity]]].
  destruct (nth_error _ 13) as [s|] eqn:E; [eapply nth_error_In; exact E | vm_compute in E; discriminate].
Qed.
Print Assumptions C50_refuted.

(** At every crash point the named directory is as before; or it is what is left of
    it (or nothing at all), and then the complete new file set is still in the download
    directory; or it is the complete new file set. *)
Theorem C50_states : forall z top name replace net e s, net 0 = AnArchive z -> plain_archive z top name ->
  visited e (snd (download_file_set name replace net e)) s ->
  dget name s = dget name e
  \/ (exists es es' text, dget name e = Some (TDir es) /\ left_of es' es /\ (dget name s = Some (TDir es') \/ dget name s = None)
      /\ z_info z name = Ok text /\ exists t, dget top s = Some t /\ complete z top text t)
  \/ (exists text t, z_info z name = Ok text /\ dget name s = Some t /\ complete z top text t).
Proof. intros z top name replace net e s N PA V. apply (phase_name z top name e PA). eapply visited_phase; eauto. Qed.
Print Assumptions C50_states.

(** a first installation is atomic *)
Theorem C50_partial : forall z top name replace net e s, net 0 = AnArchive z -> plain_archive z top name -> dget name e = None ->
  visited e (snd (download_file_set name replace net e)) s ->
  dget name s = None \/ exists text t, z_info z name = Ok text /\ dget name s = Some t /\ complete z top text t.
Proof.
  intros z top name replace net e s N PA E V. destruct (C50_states _ _ _ _ _ _ _ N PA V) as [H | [(es & _ & _ & H & _) | H]]; [left; congruence | congruence | auto].
Qed.
Print Assumptions C50_partial.

(** the archive of the samples is installed, and there are crash points of all kinds *)
Example C50_example : plain_archive zip0 top0 (py "v3")
  /\ snd (snd (download_file_set (py "v3") true net0 cache1)) = Ok tt
  /\ snd (fst (snd (download_file_set (py "v3") true net0 cache1))) =
     [(py "v1", info_of "{}");
      (py "v3", TDir [(py "nxdl.xsd", TFile (py "ab")); (py "base_classes", TDir [(py "NXentry.nxdl.xml", TFile (py "cd"))]);
                      (py "__github_info__.json", TFile (py "{}"))])]
  /\ List.length (fst (fst (snd (download_file_set (py "v3") true net0 cache1)))) = 15.
Proof. split; [exact zip0_plain | vm_compute; auto]. Qed.

(** ** C51 *)
(** As long as neither the info file of the download nor the named directory has
    changed, the file sets on offer are as before; or all is done. *)
Theorem C51_unchanged : forall z top name replace net e s rj cpath, net 0 = AnArchive z -> plain_archive z top name ->
  visited e (snd (download_file_set name replace net e)) s ->
  tget [top; py "__github_info__.json"] s = tget [top; py "__github_info__.json"] e -> dget name s = dget name e ->
  cache_sets rj cpath [] s = cache_sets rj cpath [] e
  \/ (dget top s = None /\ exists text t, z_info z name = Ok text /\ dget name s = Some t /\ complete z top text t).
Proof. intros z top name replace net e s rj cpath N PA V. apply (phase_offered z top name e PA). eapply visited_phase; eauto. Qed.
Print Assumptions C51_unchanged.

Example C51_example : exists s, visited cache1 (snd (download_file_set (py "v3") true net0 cache1)) s /\ s <> cache1
  /\ tget [top0; py "__github_info__.json"] s = tget [top0; py "__github_info__.json"] cache1 /\ dget (py "v3") s = dget (py "v3") cache1
  /\ dget top0 s <> None.
Proof.
  exists (match nth_error (fst (fst (snd (download_file_set (py "v3") true net0 cache1)))) 3 with Some s => s | None => cache1 end).
  split; [right; left; destruct (nth_error _ 3) as [s|] eqn:E; [eapply nth_error_In; exact E | vm_compute in E; discriminate]|].
  vm_compute. repeat split; discriminate.
Qed.

(** ** C52 *)
Theorem C52_existing : forall name net e, In name (map fst e) -> download_file_set name false net e = (0, ([], e, Ok tt)).
Proof. intros name net e H. unfold download_file_set. apply dmem_In in H. rewrite H. reflexivity. Qed.
Print Assumptions C52_existing.

Theorem C52_frame : forall z top name replace net e s, net 0 = AnArchive z -> plain_archive z top name ->
  visited e (snd (download_file_set name replace net e)) s ->
  forall n, n <> top -> n <> name -> dget n s = dget n e.
Proof. intros z top name replace net e s N PA V. apply (phase_frame z top name e PA). eapply visited_phase; eauto. Qed.
Print Assumptions C52_frame.

(** without an archive nothing happens at all *)
Theorem C52_no_archive : forall name replace net e s, (forall z, net 0 <> AnArchive z) ->
  visited e (snd (download_file_set name replace net e)) s -> s = e.
Proof.
  intros name replace net e s N V. unfold download_file_set, visited in V. destruct (dmem name e && negb replace); [simpl in V; intuition|].
  unfold download_archive, GITHUB_RETRY_COUNT in V. cbn [try_rounds] in V. destruct (net 0) as [z| |x]; [destruct (N z eq_refl)| |]; simpl in V; intuition.
Qed.
Print Assumptions C52_no_archive.

Example C52_example : In (py "v3") (map fst cache1) /\ download_file_set (py "v3") false net0 cache1 = (0, ([], cache1, Ok tt))
  /\ dget (py "v1") (snd (fst (snd (download_file_set (py "v3") true net0 cache1)))) = Some (info_of "{}").
Proof. vm_compute. auto. Qed.

(** ** C53 *)
(** a file outside the named directory that was not there before is the info file, or
    (the beginning of) a definition file of the archive, at its place *)
Theorem C53_files : forall z top name replace net e s, net 0 = AnArchive z -> plain_archive z top name ->
  visited e (snd (download_file_set name replace net e)) s ->
  forall p c, hd [] p <> name -> file_at p s = Some c -> file_at p e <> Some c ->
  (exists text, z_info z name = Ok text /\ p = [top; py "__github_info__.json"] /\ beginning c text)
  \/ exists m m', In m (z_members z) /\ definition_file top (m_name m) /\ destination m p
       /\ In m' (z_members z) /\ m_name m' = m_name m /\ beginning c (m_data m').
Proof.
  intros z top name replace net e s N PA V p c Np F NF. destruct (phase_files z top name e PA s (visited_phase _ _ _ _ PA _ _ _ N V) p c Np F) as [H | H]; [contradiction | exact H].
Qed.
Print Assumptions C53_files.

(** and so it is in the named directory after the installation *)
Theorem C53_installed : forall z top name replace net e, net 0 = AnArchive z -> plain_archive z top name ->
  snd (snd (download_file_set name replace net e)) = Ok tt -> dmem name e = false \/ replace = true ->
  forall p c, file_at (name :: p) (snd (fst (snd (download_file_set name replace net e)))) = Some c -> file_at (top :: p) e <> Some c ->
  (p = [py "__github_info__.json"] /\ z_info z name = Ok c)
  \/ exists m m', In m (z_members z) /\ definition_file top (m_name m) /\ destination m (top :: p)
       /\ In m' (z_members z) /\ m_name m' = m_name m /\ beginning c (m_data m').
Proof.
  intros z top name replace net e N PA H D p c F NF. destruct (end_installed z top name e PA _ _ N H) as [[A B] | I]; [destruct D; congruence|].
  destruct (installed_files z top name e PA _ I p c F) as [X | X]; [contradiction | exact X].
Qed.
Print Assumptions C53_installed.

(** the test the code applies is the one of the specification *)
Theorem C53_test : forall item top, top <> [] ->
  (is_extractable item NXDL_file_endings (allowed_parents top) = true <-> definition_file top item).
Proof. exact extractable_spec. Qed.
Print Assumptions C53_test.

Example C53_example : map (fun m => is_extractable (m_name m) NXDL_file_endings (allowed_parents top0)) (z_members zip0) = [false; true; true; false; false].
Proof. vm_compute. reflexivity. Qed.

(** whatever the names in the archive: nothing leads out of the cache directory *)
Theorem C53_inside : forall z m rest top name replace net e s, net 0 = AnArchive z -> z_members z = m :: rest ->
  (exists tail, m_name m = top ++ tail /\ (tail = [] \/ exists t, tail = 47%N :: t)) -> safe_name top -> safe_name name ->
  safe_tree (TDir e) -> visited e (snd (download_file_set name replace net e)) s -> safe_tree (TDir s).
Proof.
  intros z m rest top name replace net e s N Z (tail & E & T) St. apply (visited_safe z top); auto.
  unfold top_of. rewrite Z, E. destruct T as [-> | [t ->]].
  - rewrite app_nil_r. rewrite split_no_sep by apply St. reflexivity.
  - rewrite split_app_sep by apply St. reflexivity.
Qed.
Print Assumptions C53_inside.

(** an archive with a name that climbs out *)
Definition zip_evil : archive := mkZ
  [mkM (py "d/") []; mkM (py "d/nxdl.xsd") (py "ab"); mkM (py "../../etc/applications/evil.xml") (py "cd")] (fun _ => Ok (py "{}")).
Example C53_inside_case : snd (snd (download_file_set (py "v3") false (fun _ => AnArchive zip_evil) [])) = Ok tt
  /\ snd (fst (snd (download_file_set (py "v3") false (fun _ => AnArchive zip_evil) [])))
     = [(py "etc", TDir [(py "applications", TDir [(py "evil.xml", TFile (py "cd"))])]);
        (py "v3", TDir [(py "nxdl.xsd", TFile (py "ab")); (py "__github_info__.json", TFile (py "{}"))])]
  /\ safe_name (py "d") /\ safe_name (py "v3").
Proof.
  split; [vm_compute; reflexivity|]. split; [vm_compute; reflexivity|].
  split; (split; [intros [X | [X | X]]; discriminate | vm_compute; intuition discriminate]).
Qed.

(** ** C54 *)
(** a connection error is not retried *)
Theorem C54_refuted : exists net, net 0 = NoConnection /\ net 1 = AnArchive zip0 /\ download_archive net = (1, Exn OSError).
Proof. exists (fun i => match i with 0 => NoConnection | _ => AnArchive zip0 end). vm_compute. auto. Qed.
Print Assumptions C54_refuted.

(** there is exactly one request, whose outcome decides *)
Theorem C54_partial : forall net, download_archive net =
  (1, match net 0 with AnArchive z => Ok (Some z) | NoConnection => Exn OSError | OtherFailure e => Exn e end).
Proof. intros net. unfold download_archive, GITHUB_RETRY_COUNT. cbn [try_rounds]. destruct (net 0); reflexivity. Qed.
Print Assumptions C54_partial.

Example C54_example : download_archive net0 = (1, Ok (Some zip0)).
Proof. reflexivity. Qed.

(** ** C73 *)
(** a crash while the info file is written: afterwards the list of file sets cannot
    be read *)
Theorem C73_refuted : exists s sets, visited cache1 (snd (download_file_set (py "v3") true net0 cache1)) s
  /\ all_file_sets rj1 (mkDisk (py "/s") [] (py "/u") cache1) = Ok sets /\ all_file_sets rj1 (mkDisk (py "/s") [] (py "/u") s) = Exn ValueError.
Proof.
  exists (match nth_error (fst (fst (snd (download_file_set (py "v3") true net0 cache1)))) 8 with Some s => s | None => cache1 end).
  eexists. split; [right; left|split; [vm_compute; reflexivity | vm_compute; reflexivity]].
  destruct (nth_error _ 8) as [s|] eqn:E; [eapply nth_error_In; exact E | vm_compute in E; discriminate].
Qed.
Print Assumptions C73_refuted.

(** this is the only such crash point, if the caches could be read before and the text
    of the new info file can be *)
Theorem C73_partial : forall z top name replace net e s rj, net 0 = AnArchive z -> plain_archive z top name ->
  visited e (snd (download_file_set name replace net e)) s ->
  readable rj e -> (forall sub, dget name e = Some (TDir sub) -> NoDup (map fst sub)) -> (forall text, z_info z name = Ok text -> exists i, rj text = Ok i) ->
  readable rj s \/ exists text c, z_info z name = Ok text /\ beginning c text /\ c <> text /\ tget [top; py "__github_info__.json"] s = Some (TFile c).
Proof. intros z top name replace net e s rj N PA V. apply (phase_readable z top name e PA). eapply visited_phase; eauto. Qed.
Print Assumptions C73_partial.

Example C73_example : readable rj1 cache1 /\ (forall sub, dget (py "v3") cache1 = Some (TDir sub) -> NoDup (map fst sub))
  /\ (forall text, z_info zip0 (py "v3") = Ok text -> exists i, rj1 text = Ok i).
Proof.
  split; [|split].
  - intros item sub t [E | [E | []]] G; injection E as <- <-; vm_compute in G; injection G as <-; eexists _, _; split; reflexivity.
  - intros sub E. vm_compute in E. injection E as <-. repeat constructor; simpl; intuition discriminate.
  - intros text E. injection E as <-. eexists. vm_compute. reflexivity.
Qed.

(** ** C74 *)
(** what an earlier, interrupted download left behind gets installed *)
Definition cache2 : entries := [(top0, TDir [(py "applications", TDir [(py "NXold.nxdl.xml", TFile (py "stale"))])])].
Theorem C74_refuted : file_at [py "v3"; py "applications"; py "NXold.nxdl.xml"] (snd (fst (snd (download_file_set (py "v3") false net0 cache2)))) = Some (py "stale")
  /\ dget (py "v3") cache2 = None /\ snd (snd (download_file_set (py "v3") false net0 cache2)) = Ok tt
  /\ forall m, In m (z_members zip0) -> ~ destination m [top0; py "applications"; py "NXold.nxdl.xml"].
Proof.
  split; [vm_compute; reflexivity|]. split; [reflexivity|]. split; [vm_compute; reflexivity|].
  intros m I. rewrite destination_spec. simpl in I. destruct I as [<- | [<- | [<- | [<- | [<- | []]]]]]; vm_compute; discriminate.
Qed.
Print Assumptions C74_refuted.

(** without leftovers the content is exactly that of the archive *)
Theorem C74_partial : forall z top name replace net e, net 0 = AnArchive z -> plain_archive z top name -> dget top e = None ->
  (forall m, In m (z_members z) -> definition_file top (m_name m) -> ~ exists d, m_name m = d ++ py "/") ->
  snd (snd (download_file_set name replace net e)) = Ok tt -> dmem name e = false \/ replace = true ->
  exists text es, z_info z name = Ok text /\ dget name (snd (fst (snd (download_file_set name replace net e)))) = Some (TDir es)
    /\ forall p c, file_at p es = Some c <-> p = [py "__github_info__.json"] /\ c = text \/ provides z top (top :: p) c.
Proof.
  intros z top name replace net e N PA G ND H D. destruct (end_installed z top name e PA _ _ N H) as [[A B] | I]; [destruct D; congruence|].
  apply (installed_exact z top name e PA _ I G ND).
Qed.
Print Assumptions C74_partial.

Example C74_example : dget top0 cache1 = None
  /\ (forall m, In m (z_members zip0) -> definition_file top0 (m_name m) -> ~ exists d, m_name m = d ++ py "/")
  /\ snd (snd (download_file_set (py "v3") true net0 cache1)) = Ok tt.
Proof.
  split; [reflexivity|]. split; [|vm_compute; reflexivity].
  intros m I D (d & E). apply extractable_spec in D; [|discriminate].
  assert (endswith (m_name m) (py "/") = true) as X by (apply endswith_spec; eauto).
  simpl in I. destruct I as [<- | [<- | [<- | [<- | [<- | []]]]]]; vm_compute in D, X; discriminate.
Qed.

(** installing under the name of the archive's own top directory deletes the download *)
Theorem C74_own_name_refuted : snd (snd (download_file_set top0 true net0 [])) = Exn OSError
  /\ dget top0 (snd (fst (snd (download_file_set top0 true net0 [])))) = None.
Proof. vm_compute. auto. Qed.
Print Assumptions C74_own_name_refuted.
