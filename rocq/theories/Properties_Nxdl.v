(** * Properties of loading NXDL files (C42-C45, C72) *)

From Coq Require Import List NArith ZArith Bool String.
From Verif Require Import PyBase PyFacts Nxdl NxdlLoad Spec_Nxdl NxdlFacts NxdlShared NxdlSamples.
Import ListNotations.
Open Scope string_scope.
Open Scope list_scope.

(** ** C42: the names inside an NXDL structure *)
(** Every class comes from an NXDL file of the file set, and the class, and every
    group in it at any depth, has exactly one entry per group, field and link
    element, in order, with a name of its own: the one of the element, or this with
    the first free number. *)
Theorem C42_entries : forall ls valid content d0 dir d' cl,
  load_manager ls valid content d0 dir = (d', Ok cl) -> forall t def, In (t, def) cl ->
  exists file root, (nxdl_file ls dir (py "base_classes") file \/ nxdl_file ls dir (py "applications") file \/ nxdl_file ls dir (py "contributed_definitions") file)
    /\ content file = Some root /\ loaded_def root def.
Proof. exact manager_entry. Qed.
Print Assumptions C42_entries.

Theorem C42_distinct : forall ls valid content d0 dir d' cl,
  load_manager ls valid content d0 dir = (d', Ok cl) -> forall t def, In (t, def) cl ->
  NoDup (names_of_def def) /\ forall g, inside def g -> NoDup (names_of_group g).
Proof. exact manager_distinct. Qed.
Print Assumptions C42_distinct.

(** the sample file set loads; in NXentry two groups and a field called "data", and a
    group called "data1", end up with four names *)
Example C42_example : snd (load0 app0) = Ok (classes_of (load0 app0))
  /\ option_map names_of_def (dget (py "NXentry") (classes_of (load0 app0))) =
     Some [py "data"; py "data1"; py "data11"; py "title"; py "data2"; py "title1"].
Proof. vm_compute. auto. Qed.

(** "the first element of a name keeps it": not if the name is one that an earlier
    element was given.  The first (and only) element called "data1" is renamed. *)
Theorem C42_refuted : exists root def, loaded_def root def
  /\ In (py "NXentry", def) (classes_of (load0 app0)) /\ content0 app0 (py "/d/base_classes/NXentry.nxdl.xml") = Some root
  /\ raw_names root = [py "data"; py "data"; py "data1"; py "title"; py "data"; py "title"]
  /\ nth_error (names_of_def def) 2 = Some (py "data11").
Proof.
  destruct (dget (py "NXentry") (classes_of (load0 app0))) as [def|] eqn:E; [|vm_compute in E; discriminate].
  assert (HI : In (py "NXentry", def) (classes_of (load0 app0))) by (apply dget_In; exact E).
  destruct (manager_class ls0 (fun _ => true) (content0 app0) df0 (py "/d") (fst (load0 app0)) (classes_of (load0 app0))
    [] (py "base_classes") [py "applications"; py "contributed_definitions"] (py "NXentry") ls0_plain ls0_names) as (root & def' & A & B & C & _).
  - vm_compute. reflexivity.
  - reflexivity.
  - exists [py "NXentry.nxdl.xml"; py "README"; py "NXdata.nxdl.xml"], (py "NXentry").
    split; [reflexivity | split; [left; reflexivity | reflexivity]].
  - intros c [<- | [<- | []]] (names & base & N & I & F); vm_compute in N; injection N as <-; destruct I as [I | []];
      apply path_join_inj in F; rewrite <- F in I; vm_compute in I; discriminate.
  - rewrite E in B. inversion B; subst def'.
    assert (R : root = entry0) by (vm_compute in A; inversion A; reflexivity). subst root.
    exists entry0, def. split; [exact C|]. split; [exact HI|]. split; [reflexivity|]. split; [reflexivity|].
    vm_compute in E. injection E as <-. reflexivity.
Qed.
Print Assumptions C42_refuted.

(** What holds: an element whose name is neither the name of an element before it,
    nor such a name with a number, keeps it (before: groups first, then fields,
    then links).  Missing from the full statement: names that look like a numbered
    earlier name. *)
Theorem C42_partial : forall root def, loaded_def root def -> forall before raw after, raw_names root = before ++ raw :: after ->
  ~ In raw before -> (forall r i, In r before -> raw <> r ++ str_nat i) -> nth_error (names_of_def def) (List.length before) = Some raw.
Proof. exact def_keeps. Qed.
Print Assumptions C42_partial.

Theorem C42_group_partial : forall n g, loaded_group n g -> forall before raw after, raw_names n = before ++ raw :: after ->
  ~ In raw before -> (forall r i, In r before -> raw <> r ++ str_nat i) -> nth_error (names_of_group g) (List.length before) = Some raw.
Proof. exact group_keeps. Qed.
Print Assumptions C42_group_partial.

(** "title" in the sample, the first of this name after "data", "data", "data1" *)
Example C42_partial_example : exists before after, raw_names entry0 = before ++ py "title" :: after
  /\ ~ In (py "title") before /\ forall r i, In r before -> py "title" <> r ++ str_nat i.
Proof.
  exists [py "data"; py "data"; py "data1"], [py "data"; py "title"]. split; [reflexivity|]. split.
  - intros [X | [X | [X | []]]]; vm_compute in X; discriminate.
  - intros r i [<- | [<- | [<- | []]]]; discriminate.
Qed.

(** ** C43: the search for a free number *)
(** it ends for all names in use, at the smallest number that is free; more rounds
    do not change the result *)
Theorem C43_ends : forall names base, exists i,
  1 <= i <= S (List.length names) /\ ~ In (base ++ str_nat i) names
  /\ (forall j, 1 <= j < i -> In (base ++ str_nat j) names)
  /\ forall fuel, List.length names < fuel -> free_suffix fuel names base 1 = Some i.
Proof. exact search_ends. Qed.
Print Assumptions C43_ends.

(** so a new name is always found, it is not in use, and it is the expected one *)
Theorem C43_name : forall names name, exists new, ensure_unique_name names name = Ok new /\ new_name names name new.
Proof. exact ensure_unique_ok. Qed.
Print Assumptions C43_name.

Theorem C43_fresh : forall taken raw new, new_name taken raw new -> ~ In new taken.
Proof. exact new_name_fresh. Qed.
Print Assumptions C43_fresh.

Example C43_example : ensure_unique_name [py "a"; py "a1"; py "b"; py "a3"] (py "a") = Ok (py "a2").
Proof. vm_compute. reflexivity. Qed.

(** ** C44: the defaults of fields, groups and attributes *)
(** After loading a file set with an application definition that has a field, the
    fields of base classes have a default minOccurs of 1. *)
Theorem C44_refuted : exists def f, In (py "NXentry", def) (classes_of (load0 app0)) /\ d_category def = py "base_classes"
  /\ In (py "title", f) (d_fields def)
  /\ field_minOccurs df0 f = Some (DText (py "0")) /\ field_minOccurs (fst (load0 app0)) f = Some (DInt 1).
Proof.
  destruct (dget (py "NXentry") (classes_of (load0 app0))) as [def|] eqn:E; [|vm_compute in E; discriminate].
  assert (HI : In (py "NXentry", def) (classes_of (load0 app0))) by (apply dget_In; exact E).
  destruct (dget (py "title") (d_fields def)) as [f|] eqn:F; [|vm_compute in E; injection E as <-; vm_compute in F; discriminate].
  exists def, f. split; [exact HI|]. split; [vm_compute in E; injection E as <-; reflexivity|].
  split; [apply dget_In; exact F|]. split; [reflexivity | vm_compute; reflexivity].
Qed.
Print Assumptions C44_refuted.

(** Exactly this, at any depth of the application definition, changes it. *)
Theorem C44_exact : forall ls valid content d0 dir d' cl, listed_names_plain ls ->
  load_manager ls valid content d0 dir = (d', Ok cl) ->
  (application_with_field ls content dir /\ forall f, field_minOccurs d' f = Some (DInt 1))
  \/ (~ application_with_field ls content dir /\ forall f, field_minOccurs d' f = field_minOccurs d0 f).
Proof.
  intros ls valid content d0 dir d' cl HP H.
  destruct (manager_moved ls valid content d0 dir d' cl HP H) as [[A B] | [A B]]; [left | right]; split; auto.
Qed.
Print Assumptions C44_exact.

(** What holds of the property: without such a definition the default stays.
    Missing: file sets with application definitions, for which it is false. *)
Theorem C44_partial : forall ls valid content d0 dir d' cl, listed_names_plain ls ->
  load_manager ls valid content d0 dir = (d', Ok cl) -> ~ application_with_field ls content dir ->
  forall f, field_minOccurs d' f = field_minOccurs d0 f.
Proof.
  intros ls valid content d0 dir d' cl HP H N.
  destruct (manager_moved ls valid content d0 dir d' cl HP H) as [[A B] | [A B]]; [contradiction | auto].
Qed.
Print Assumptions C44_partial.

(** The same of the defaults of groups and of attributes: exactly an application definition
    with a group, or with an attribute somewhere, changes them. *)
Theorem C44_groups : forall ls valid content d0 dir d' cl, listed_names_plain ls ->
  load_manager ls valid content d0 dir = (d', Ok cl) ->
  (application_that has_group ls content dir /\ forall g, group_minOccurs d' g = Some (DInt 1))
  \/ (~ application_that has_group ls content dir /\ forall g, group_minOccurs d' g = group_minOccurs d0 g).
Proof.
  intros ls valid content d0 dir d' cl HP H. rewrite <- (application_iff _ _ ls content dir touched_group).
  destruct (group_moves ls valid content d0 dir d' cl HP H) as [[A B] | [A B]]; [left | right]; split; auto.
Qed.
Print Assumptions C44_groups.

Theorem C44_attributes : forall ls valid content d0 dir d' cl, listed_names_plain ls ->
  load_manager ls valid content d0 dir = (d', Ok cl) ->
  (application_that has_attribute ls content dir /\ forall a, attr_optional d' a = Some DFalse)
  \/ (~ application_that has_attribute ls content dir /\ forall a, attr_optional d' a = attr_optional d0 a).
Proof.
  intros ls valid content d0 dir d' cl HP H. rewrite <- (application_iff _ _ ls content dir touched_attribute).
  destruct (attr_moves ls valid content d0 dir d' cl HP H) as [[A B] | [A B]]; [left | right]; split; auto.
Qed.
Print Assumptions C44_attributes.

Lemma app_bare_none : ~ application_with_field ls0 (content0 app_bare) (py "/d").
Proof.
  intros (file & root & (names & base & E & I & ->) & C & F).
  vm_compute in E. injection E as <-. destruct I as [I | []].
  change (py "NXapp" ++ py ".nxdl.xml" = base ++ py ".nxdl.xml") in I. apply app_inv_tail in I. subst base.
  vm_compute in C. injection C as <-.
  inversion F as [n k Hk | n k Hk Hb]; subst; vm_compute in Hk; [contradiction|]. destruct Hk as [<- | []].
  inversion Hb as [n k Hk | n k Hk Hb']; subst; vm_compute in Hk; contradiction.
Qed.

(** a file set with an application definition without fields *)
Example C44_example : listed_names_plain ls0 /\ snd (load0 app_bare) = Ok (classes_of (load0 app_bare))
  /\ ~ application_with_field ls0 (content0 app_bare) (py "/d") /\ fst (load0 app_bare) = mkDf (Some (DText (py "true"))) (Some (DText (py "0"))) (Some (DInt 1)) true true.
Proof. split; [exact ls0_plain|]. split; [vm_compute; reflexivity|]. split; [exact app_bare_none | vm_compute; reflexivity]. Qed.

(** an attribute of a field in a nested group *)
Example C44_attributes_case : application_that has_attribute ls0 (content0 (nxdl [typed "NXentry" [named "field" "x" [named "attribute" "units" []]]])) (py "/d")
  /\ ~ application_that has_attribute ls0 (content0 app0) (py "/d") /\ application_that has_group ls0 (content0 app0) (py "/d")
  /\ df_attr_optional (fst (load0 (nxdl [typed "NXentry" [named "field" "x" [named "attribute" "units" []]]]))) = Some DFalse
  /\ df_attr_optional (fst (load0 app0)) = Some (DText (py "true")) /\ df_group_minOccurs df0 = Some (DText (py "0")) /\ df_group_minOccurs (fst (load0 app0)) = Some (DInt 1).
Proof.
  assert (H0 : load0 app0 = (fst (load0 app0), Ok (classes_of (load0 app0)))) by (vm_compute; reflexivity).
  split.
  { set (a := nxdl _). assert (H : load0 a = (fst (load0 a), Ok (classes_of (load0 a)))) by (vm_compute; reflexivity).
    destruct (C44_attributes _ _ _ _ _ _ _ ls0_plain H) as [[A _] | [_ B]]; [exact A|]. specialize (B (mkNA [] [])). vm_compute in B. discriminate. }
  split.
  { destruct (C44_attributes _ _ _ _ _ _ _ ls0_plain H0) as [[_ B] | [A _]]; [|exact A]. specialize (B (mkNA [] [])). vm_compute in B. discriminate. }
  split.
  { destruct (C44_groups _ _ _ _ _ _ _ ls0_plain H0) as [[A _] | [_ B]]; [exact A|]. specialize (B (NXG [] [] [] [] [] None)). vm_compute in B. discriminate. }
  vm_compute. auto.
Qed.

(** ** C45: the list of NXDL files *)
Theorem C45_list : forall ls dir l, get_NXDL_file_list ls dir = Ok l ->
  exists a b c, l = a ++ b ++ c /\ nxdl_files_of ls (path_join dir (py "base_classes")) a
    /\ nxdl_files_of ls (path_join dir (py "applications")) b
    /\ nxdl_files_of ls (path_join dir (py "contributed_definitions")) c.
Proof. exact file_list_ok. Qed.
Print Assumptions C45_list.

(** there is a list if all four directories are there *)
Theorem C45_total : forall ls dir, ls dir <> None ->
  (forall cat, In cat [py "base_classes"; py "applications"; py "contributed_definitions"] -> exists names, ls (path_join dir cat) = Some (FSDir names)) ->
  exists l, get_NXDL_file_list ls dir = Ok l.
Proof. exact file_list_total. Qed.
Print Assumptions C45_total.

(** otherwise FileNotFound (the directory itself) or IOError (a category) is raised *)
Theorem C45_fails : forall ls dir e, get_NXDL_file_list ls dir = Exn e ->
  (e = FileNotFound /\ ls dir = None) \/
  (e = OSError /\ ls dir <> None /\ exists cat, In cat [py "base_classes"; py "applications"; py "contributed_definitions"] /\ no_directory ls (path_join dir cat)).
Proof. exact file_list_fail. Qed.
Print Assumptions C45_fails.

Example C45_example : get_NXDL_file_list ls0 (py "/d") =
  Ok [py "/d/base_classes/NXdata.nxdl.xml"; py "/d/base_classes/NXentry.nxdl.xml"; py "/d/applications/NXapp.nxdl.xml"; py "/d/contributed_definitions/NXdata.nxdl.xml"]
  /\ get_NXDL_file_list ls0 (py "/e") = Exn FileNotFound /\ get_NXDL_file_list ls0 (py "/d/base_classes") = Exn OSError.
Proof. vm_compute. auto. Qed.

(** ** C72: which definition a class gets *)
(** A class is the one of the last category that defines it; there is no class that
    no category defines. *)
Theorem C72_last_category : forall ls valid content d0 dir d' cl early cat late t,
  listed_names_plain ls -> nxdl_names_plain ls ->
  load_manager ls valid content d0 dir = (d', Ok cl) ->
  [py "base_classes"; py "applications"; py "contributed_definitions"] = early ++ cat :: late ->
  defines ls dir cat t -> (forall c, In c late -> ~ defines ls dir c t) ->
  exists root def, content (class_file dir cat t) = Some root /\ dget t cl = Some def /\ loaded_def root def /\ d_title def = t /\ d_category def = cat.
Proof. exact manager_class. Qed.
Print Assumptions C72_last_category.

Theorem C72_no_other : forall ls valid content d0 dir d' cl t,
  listed_names_plain ls -> nxdl_names_plain ls ->
  load_manager ls valid content d0 dir = (d', Ok cl) ->
  (forall c, In c [py "base_classes"; py "applications"; py "contributed_definitions"] -> ~ defines ls dir c t) ->
  dget t cl = None.
Proof. exact manager_no_class. Qed.
Print Assumptions C72_no_other.

(** in the sample, NXdata is that of the contributed definitions *)
Example C72_example : listed_names_plain ls0 /\ nxdl_names_plain ls0
  /\ snd (load0 app0) = Ok (classes_of (load0 app0))
  /\ defines ls0 (py "/d") (py "base_classes") (py "NXdata") /\ defines ls0 (py "/d") (py "contributed_definitions") (py "NXdata")
  /\ option_map (fun d => (d_category d, map fst (d_fields d))) (dget (py "NXdata") (classes_of (load0 app0))) = Some (py "contributed_definitions", [py "y"]).
Proof.
  split; [exact ls0_plain|]. split; [exact ls0_names|]. split; [vm_compute; reflexivity|]. split; [|split; [|vm_compute; reflexivity]].
  - exists [py "NXentry.nxdl.xml"; py "README"; py "NXdata.nxdl.xml"], (py "NXdata"). split; [reflexivity | split; [right; right; left; reflexivity | reflexivity]].
  - exists [py "NXdata.nxdl.xml"], (py "NXdata"). split; [reflexivity | split; [left; reflexivity | reflexivity]].
Qed.
