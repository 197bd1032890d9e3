(** * Only the NXDL files of a file set's directories matter *)

From Coq Require Import List NArith ZArith Bool String Lia Permutation Sorted.
From Verif Require Import PyBase PyFacts Nxdl NxdlLoad Spec_Nxdl NxdlFacts Spec_Proper Spec_SetFiles TreeOrderFacts ProperFacts.
Import ListNotations.

Lemma ascending_back : forall l, ascending l -> StronglySorted (fun a b => str_leb a b = true) l.
Proof. induction l as [|x l IH]; intros H; [constructor|]. destruct H as [A B]. constructor; [apply IH; exact B|exact A]. Qed.

Lemma strings_unique : forall l m : list pystr, ascending l -> ascending m -> NoDup l -> NoDup m -> (forall x, In x l <-> In x m) -> l = m.
Proof.
  intros l m A B NL NM H. assert (P : Permutation l m) by (apply NoDup_Permutation; assumption).
  assert (X : map (fun s : pystr => (s, tt)) l = map (fun s : pystr => (s, tt)) m).
  { apply sorted_unique.
    - apply ascending_back in A. clear - A. induction A as [|x l A IH F]; [constructor|]. cbn [map]. constructor; [exact IH|]. apply Forall_forall. intros y I. apply in_map_iff in I as (z & <- & I). rewrite Forall_forall in F. apply F. exact I.
    - apply ascending_back in B. clear - B. induction B as [|x l A IH F]; [constructor|]. cbn [map]. constructor; [exact IH|]. apply Forall_forall. intros y I. apply in_map_iff in I as (z & <- & I). rewrite Forall_forall in F. apply F. exact I.
    - apply Permutation_map. exact P.
    - rewrite map_map. cbn. rewrite map_id. exact NL. }
  apply (f_equal (map fst)) in X. rewrite !map_map in X. cbn in X. rewrite !map_id in X. exact X.
Qed.

Lemma join_inj : forall p x y, path_join p x = path_join p y -> x = y.
Proof. intros p x y. unfold path_join. destruct (str_eqb p []); [auto|]. destruct (endswith p [ch_slash]); intros H; apply app_inv_head in H; [exact H|]. injection H as H. exact H. Qed.

Lemma parts_same : forall ls ls' dir cat l l', names_once ls -> names_once ls' -> (forall file, nxdl_file ls dir cat file <-> nxdl_file ls' dir cat file) ->
  part ls dir cat l -> part ls' dir cat l' -> l = l'.
Proof.
  intros ls ls' dir cat l l' O O' H P P'. pose proof (fun f => part_In _ _ _ _ f P) as Q. pose proof (fun f => part_In _ _ _ _ f P') as Q'.
  destruct P as (names & files & E & -> & A & _ & ND), P' as (names' & files' & E' & -> & A' & _ & ND'). f_equal.
  apply strings_unique; auto; [apply ND; eapply O; exact E|apply ND'; eapply O'; exact E'|].
  assert (X : forall fs x, In x fs <-> In (path_join (path_join dir cat) x) (map (path_join (path_join dir cat)) fs)).
  { intros fs x. rewrite in_map_iff. split; [intros I; exists x; auto|]. intros (y & Y & I). apply join_inj in Y. congruence. }
  intros x. rewrite (X files x), (X files' x), Q, Q', H. reflexivity.
Qed.

Lemma category_same : forall ls ls' dir cat, names_once ls -> names_once ls' -> (no_directory ls (path_join dir cat) <-> no_directory ls' (path_join dir cat)) ->
  (forall file, nxdl_file ls dir cat file <-> nxdl_file ls' dir cat file) -> category_files ls dir cat = category_files ls' dir cat.
Proof.
  intros ls ls' dir cat O O' D H. destruct (category_total ls dir cat) as [[l A]|[A N]], (category_total ls' dir cat) as [[l' A']|[A' N']]; rewrite A, A'.
  - f_equal. apply (parts_same ls ls' dir cat); auto; apply category_files_listed; assumption.
  - exfalso. apply category_files_spec in A as (names & E & _). exact (proj2 D N' names E).
  - exfalso. apply category_files_spec in A' as (names & E & _). exact (proj1 D N names E).
  - reflexivity.
Qed.

Lemma lists_same : forall ls ls' dir, names_once ls -> names_once ls' -> same_nxdl_files ls ls' dir -> get_NXDL_file_list ls dir = get_NXDL_file_list ls' dir.
Proof.
  intros ls ls' dir O O' [D H]. unfold get_NXDL_file_list, NXDL_categories. cbn [categories_files].
  rewrite (category_same ls ls' dir (py "base_classes") O O'), (category_same ls ls' dir (py "applications") O O'), (category_same ls ls' dir (py "contributed_definitions") O O') by (apply H; cbn [In]; auto).
  destruct (ls dir), (ls' dir); try reflexivity; [discriminate (proj2 D eq_refl)|discriminate (proj1 D eq_refl)].
Qed.

Lemma files_same : forall valid content content' files acc d, (forall f, In f files -> content f = content' f) ->
  load_files valid content acc files d = load_files valid content' acc files d.
Proof.
  intros valid content content' files. induction files as [|f files IH]; intros acc d H; cbn [load_files]; [reflexivity|].
  rewrite <- (H f (or_introl eq_refl)). destruct (content f); [|reflexivity]. unfold lbind. destruct (parse_definition valid f x d) as [d' [def|e]]; [|reflexivity].
  apply IH. intros g I. apply H. right. exact I.
Qed.

Lemma loads_same : forall ls ls' valid content content' d dir, names_once ls -> names_once ls' -> same_nxdl_files ls ls' dir ->
  (forall file, file_of_set ls dir file -> content file = content' file) -> load_manager ls valid content d dir = load_manager ls' valid content' d dir.
Proof.
  intros ls ls' valid content content' d dir O O' S H. unfold load_manager. rewrite <- (lists_same _ _ _ O O' S).
  destruct (get_NXDL_file_list ls dir) as [files|e] eqn:F; [|reflexivity]. apply files_same. intros f I. apply H. apply (listed_files _ _ _ F). exact I.
Qed.
