(** * A file set can be loaded exactly if its NXDL files are proper (C146) *)

From Coq Require Import List NArith ZArith Bool String.
From Verif Require Import PyBase PyFacts Nxdl NxdlLoad NxdlSchema Session Spec_Nxdl Spec_Proper NxdlFacts ProperFacts NxdlSamples ShippedLines Samples SessionSamples Properties_Defaults.
Import ListNotations.
Local Open Scope string_scope.
Local Open Scope list_scope.

(** with a schema that has the defaults looked for, a file set can be loaded exactly if its
    directories are there and each of its NXDL files is proper *)
Theorem C146_loads : forall ls valid content d0 dir, all_defaults d0 ->
  (exists cl, snd (load_manager ls valid content d0 dir) = Ok cl)
  <-> set_directories ls dir /\ forall file, file_of_set ls dir file -> proper_file valid content file.
Proof. exact loads_iff. Qed.
Print Assumptions C146_loads.

(** whatever the schema, a failure names its cause *)
Theorem C146_errors : forall ls valid content d0 dir e, snd (load_manager ls valid content d0 dir) = Exn e ->
  (e = FileNotFound /\ ls dir = None)
  \/ (e = OSError /\ ls dir <> None /\ exists cat, In cat [py "base_classes"; py "applications"; py "contributed_definitions"] /\ no_directory ls (path_join dir cat))
  \/ exists file, file_of_set ls dir file /\
       ((e = OSError /\ content file = None) \/ exists root, content file = Some root /\
         ((e = InvalidNxdlFile /\ valid root = false) \/ (e = KeyError /\ valid root = true /\ (~ proper_content root \/ ~ all_defaults d0)))).
Proof. exact load_errors. Qed.
Print Assumptions C146_errors.

(** the schemas that come with punx have these defaults *)
Theorem C146_shipped : forall kids valid D path, In kids [xsd_v2018_5; xsd_v3_3; xsd_a4fd52d] -> sd_nxdl D = Some kids ->
  (exists d cl, nxdl_manager env0 200 valid D path = Ok (d, cl))
  <-> set_directories (sd_ls D) path /\ forall file, file_of_set (sd_ls D) path file -> proper_file valid (sd_content D) file.
Proof.
  intros kids valid D path I K. destruct (C94_shipped kids I) as (su & SU & (v1 & A1 & _) & (v2 & A2 & _) & (v3 & A3 & _) & (i & j & C1 & C2) & _).
  assert (AD : all_defaults (defaults_of su)).
  { unfold all_defaults, defaults_of. cbn [df_attr_optional df_field_minOccurs df_group_minOccurs df_dimensions df_dim]. rewrite A1, A2, A3. unfold component_of in C1, C2. rewrite C1, C2. cbn. intuition discriminate. }
  rewrite <- (C146_loads _ _ _ _ _ AD). unfold nxdl_manager. rewrite K, SU. cbn [rbind]. destruct (sd_ls D path) eqn:L.
  - destruct (load_manager (sd_ls D) valid (sd_content D) (defaults_of su) path) as [d' [c|e]]; cbn [snd]; split.
    + intros _. exists c. reflexivity.
    + intros _. exists (Some d'), c. reflexivity.
    + intros (d & cl & X). discriminate X.
    + intros [cl X]. discriminate X.
  - unfold load_manager, get_NXDL_file_list. rewrite L. cbn [snd]. split; [intros (d & cl & X); discriminate X|intros [cl X]; discriminate X].
Qed.
Print Assumptions C146_shipped.

(** the sample file set is loaded, so its files are proper *)
Lemma df0_all : all_defaults df0.
Proof. unfold all_defaults, df0; cbn. intuition discriminate. Qed.
Example C146_loads_case : all_defaults df0 /\ set_directories ls0 (py "/d") /\ (forall file, file_of_set ls0 (py "/d") file -> proper_file (fun _ => true) (content0 app0) file)
  /\ file_of_set ls0 (py "/d") (py "/d/base_classes/NXentry.nxdl.xml") /\ proper_content entry0.
Proof.
  assert (X : exists cl, snd (load_manager ls0 (fun _ => true) (content0 app0) df0 (py "/d")) = Ok cl) by (eexists; vm_compute; reflexivity).
  apply (C146_loads _ _ _ _ _ df0_all) in X as [X Y].
  assert (F : file_of_set ls0 (py "/d") (py "/d/base_classes/NXentry.nxdl.xml")).
  { exists (py "base_classes"). split; [left; reflexivity|]. exists [py "NXentry.nxdl.xml"; py "README"; py "NXdata.nxdl.xml"], (py "NXentry"). split; [vm_compute; reflexivity|]. split; [left; vm_compute; reflexivity|vm_compute; reflexivity]. }
  split; [exact df0_all|]. split; [exact X|]. split; [exact Y|]. split; [exact F|]. destruct (Y _ F) as (root & R & _ & P). injection R as <-. exact P.
Qed.

(** application definitions that repeat an attribute, or have a group without a type or a
    link without a name in a group: KeyError *)
Definition app_twice : xnode := nxdl [typed "NXentry" [named "attribute" "a" []; named "attribute" "a" []]].
Definition app_untyped : xnode := nxdl [typed "NXentry" [named "group" "g" []]].
Definition app_link : xnode := nxdl [typed "NXentry" [XN (py "link") [(py "target", py "/x")] []]].
Example C146_errors_case : snd (load0 app_twice) = Exn KeyError /\ snd (load0 app_untyped) = Exn KeyError /\ snd (load0 app_link) = Exn KeyError
  /\ ~ proper_content app_twice /\ ~ proper_content app_untyped /\ ~ proper_content app_link
  /\ snd (load_manager ls0 (fun n => negb (str_eqb (x_tag n) (py "definition"))) (content0 app0) df0 (py "/d")) = Exn InvalidNxdlFile
  /\ snd (load_manager ls0 (fun _ => true) (fun _ => None) df0 (py "/d")) = Exn OSError
  /\ snd (load_manager ls0 (fun _ => true) (content0 app0) df0 (py "/e")) = Exn FileNotFound.
Proof.
  split; [vm_compute; reflexivity|]. split; [vm_compute; reflexivity|]. split; [vm_compute; reflexivity|].
  split; [|split; [|split; [|split; [vm_compute; reflexivity|split; vm_compute; reflexivity]]]].
  - intros [_ G _ _]. destruct (G _ (or_introl eq_refl)) as [_ [[_ D] _ _ _]]. inversion D as [|? ? D1 _]. apply D1. left. reflexivity.
  - intros [_ G _ _]. destruct (G _ (or_introl eq_refl)) as [_ [_ G2 _ _]]. destruct (G2 _ (or_introl eq_refl)) as [[s Z] _]. vm_compute in Z. discriminate Z.
  - intros [_ G _ _]. destruct (G _ (or_introl eq_refl)) as [_ [_ _ _ L]]. destruct (L _ (or_introl eq_refl)) as [s Z]. vm_compute in Z. discriminate Z.
Qed.

(** a schema whose group elements have no minOccurs: proper files, but KeyError *)
Example C146_defaults_case : let d := mkDf (Some (DText (py "true"))) (Some (DText (py "0"))) None true true in
  ~ all_defaults d /\ snd (load_manager ls0 (fun _ => true) (content0 app0) d (py "/d")) = Exn KeyError.
Proof. split; [intros (_ & _ & X & _); apply X; reflexivity|vm_compute; reflexivity]. Qed.

(** the sample with a schema that comes with punx, and with a malformed application definition *)
Definition set_with (app : xnode) : set_dir := mkSD (Some xsd_v3_3) None ls0 (content0 app).
Example C146_shipped_case : (exists d cl, nxdl_manager env0 200 (fun _ => true) (set_with app0) (py "/d") = Ok (d, cl))
  /\ ~ exists d cl, nxdl_manager env0 200 (fun _ => true) (set_with app_twice) (py "/d") = Ok (d, cl).
Proof.
  pose proof (C146_shipped xsd_v3_3 (fun _ => true) (set_with app0) (py "/d") (or_intror (or_introl eq_refl)) eq_refl) as [_ Y].
  pose proof (C146_shipped xsd_v3_3 (fun _ => true) (set_with app_twice) (py "/d") (or_intror (or_introl eq_refl)) eq_refl) as [Z _].
  split.
  - apply Y. exact (conj (proj1 (proj2 C146_loads_case)) (proj1 (proj2 (proj2 C146_loads_case)))).
  - intros X. destruct (Z X) as [_ W]. clear X Y Z.
    assert (F : file_of_set ls0 (py "/d") (py "/d/applications/NXapp.nxdl.xml")).
    { exists (py "applications"). split; [right; left; reflexivity|]. exists [py "NXapp.nxdl.xml"], (py "NXapp"). split; [vm_compute; reflexivity|]. split; [left; vm_compute; reflexivity|vm_compute; reflexivity]. }
    destruct (W _ F) as (root & R & _ & P). change (content0 app_twice (py "/d/applications/NXapp.nxdl.xml") = Some root) in R.
    assert (Q : content0 app_twice (py "/d/applications/NXapp.nxdl.xml") = Some app_twice) by (vm_compute; reflexivity).
    rewrite Q in R. injection R as <-. exact (proj1 (proj2 (proj2 (proj2 C146_errors_case))) P).
Qed.
