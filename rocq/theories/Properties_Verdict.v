(** * Properties of the verdict on files without a default plot (C130) *)

From Coq Require Import List NArith ZArith Bool String Permutation Lia.
From Verif Require Import PyBase PyFacts H5 Findings Nxdl NxdlLoad SchemaMgr NxdlSchema Core Catalog Validate Session Samples
  Spec_Run Spec_Names Spec_Catalog Spec_Plot Spec_Groups Spec_Attributes Spec_AppDef Spec_Nxdl Spec_Schema Spec_Session Spec_Number Spec_Verdict
  NxdlFacts NameFacts SchemaFacts TextFacts GroupEnd PlotLink NumberFacts VerdictFacts NameSamples CatalogSamples NxdlSamples SessionFacts SessionSamples PlotSamples
  ShippedXsd ShippedLines Properties_Plot Properties_Session.
Import ListNotations.
Local Open Scope nat_scope.

(** ** C130: what a missing default plot is worth *)
(** For a file without default plot, the one finding "NeXus default plot" is a note if the file has an NXentry
    group and the class NXentry asks for no data group; it is an error if the class asks for some, or if the file
    has no NXentry group at all. *)
Theorem C130_missing : forall u w v fname v', validate u w v fname = (v', Ok tt) ->
  ~ v3_found (u_env u) w v' -> ~ v2_found w v' ->
  forall d g, dget (py "NXentry") (st_classes (v_st v)) = Some d -> NoDup (map fst (d_groups d)) -> dget (py "data") (d_groups d) = Some g -> g_minOccurs g = None ->
  exists f, of_test v' (py "NeXus default plot") = [f] /\ missing_plot (file_has (u_env u) w v' (py "NXentry")) (declared_minimum (u_env u) g) f.
Proof. exact verdict_missing. Qed.
Print Assumptions C130_missing.

(** The same, with the NXDL file of NXentry: the group element that counts is the first that is called "data",
    or has no name and the type NXdata. *)
Theorem C130_file_set : forall E fuel limit reclimit valid D path g g' u cl w fname v',
  open_file_set E fuel limit reclimit valid D path g = (g', Ok (u, cl)) -> ordinary_names D ->
  validate u w (new_validator cl) fname = (v', Ok tt) -> ~ v3_found E w v' -> ~ v2_found w v' ->
  forall cat root before element after, class_nxdl D path cat (py "NXentry") root ->
  elements (py "group") root = before ++ element :: after -> group_name element = py "data" -> ~ In (py "data") (map group_name before) ->
  NoDup (map fst (x_attrib element)) ->
  exists f, of_test v' (py "NeXus default plot") = [f] /\ missing_plot (file_has E w v' (py "NXentry")) (element_minimum E element) f.
Proof.
  intros E fuel limit reclimit valid D path g g' u cl w fname v' O PN V N3 N2 cat root before element after CN EL GN NB NA.
  destruct (open_parts _ _ _ _ _ _ _ _ _ _ _ O) as (d0 & sm & M & _ & _).
  destruct (session_class _ _ _ _ _ _ _ M PN _ _ _ CN) as (d & DG & L & _).
  pose proof (open_env _ _ _ _ _ _ _ _ _ _ _ O) as <-.
  assert (ND : NoDup (map fst (d_groups d))).
  { destruct (def_entries _ _ L) as (EN & _). apply names_given_NoDup in EN. revert EN. generalize (map fst (d_groups d)). clear.
    intros l. generalize (map fst (d_fields d) ++ map fst (d_links d)) as r. intros r. induction l as [|x l IH]; intros H; [constructor|].
    inversion H; subst. constructor; auto. intros I. apply H2. apply in_or_app. auto. }
  pose proof (ld_groups _ _ L) as LG. rewrite EL in LG. apply Forall2_app_inv_l in LG as (gb & gr & LB & LR & GD).
  inversion LR as [|e kg a b [_ LG] _ E1 E2]; subst gr. destruct kg as [k ge]. cbn [snd] in LG.
  assert (LN : List.length (map group_name before) = List.length (map fst gb)) by (rewrite !map_length; symmetry; eapply Forall2_len; eauto).
  assert (K : k = py "data").
  { pose proof (def_keeps _ _ L (map group_name before) (py "data") (map group_name after ++ map element_name (elements (py "field") root) ++ map element_name (elements (py "link") root))) as X.
    assert (RN : raw_names root = map group_name before ++ py "data" :: map group_name after ++ map element_name (elements (py "field") root) ++ map element_name (elements (py "link") root)).
    { unfold raw_names. rewrite EL, map_app. cbn [map]. rewrite GN, <- app_assoc. reflexivity. }
    assert (NS : forall r i, In r (map group_name before) -> py "data" <> r ++ str_nat i).
    { intros r i I X1. destruct (str_nat i) as [|c0 q0] eqn:Q0.
      - rewrite app_nil_r in X1. subst r. contradiction.
      - destruct (exists_last (l := str_nat i)) as (q & c & Q); [rewrite Q0; discriminate|].
        rewrite <- Q0, Q, app_assoc in X1. apply (f_equal (fun l => last l 0%N)) in X1. rewrite last_last in X1.
        assert (IC : In c (str_nat i)) by (rewrite Q; apply in_or_app; right; left; auto).
        apply str_nat_digits in IC. subst c. vm_compute in IC. destruct IC; congruence. }
    specialize (X RN NB NS). unfold names_of_def in X. rewrite GD, LN, map_app, <- app_assoc in X.
    rewrite nth_error_app2, Nat.sub_diag in X by lia. cbn [map fst app nth_error] in X. congruence. }
  subst k.
  assert (DD : dget (py "data") (d_groups d) = Some ge).
  { apply dget_NoDup_In; auto. rewrite GD. apply in_or_app. right. left. reflexivity. }
  destruct LG as [_ _ _ _ (attrs & _ & GA) HM]. specialize (GA NA (py "minOccurs")).
  destruct (verdict_missing _ _ _ _ _ V N3 N2 d ge DG ND DD HM) as (f & F & A1 & A2 & A3). exists f. split; auto. split; auto. split; auto.
  assert (MM : forall z, declared_minimum (u_env u) ge z -> element_minimum (u_env u) element z).
  { intros z [[NI ->] | (s & DS & W)].
    - left. split; auto. destruct (dget (py "minOccurs") (x_attrib element)) as [t|] eqn:DX; auto. exfalso. apply NI.
      assert (GA' : dget (py "minOccurs") (g_attrs ge) = Some (GAText t)) by exact GA. apply dget_In in GA'. apply (in_map fst) in GA'. exact GA'.
    - right. exists s. split; auto. destruct (dget (py "minOccurs") (x_attrib element)) as [t|] eqn:DX.
      + assert (GA' : dget (py "minOccurs") (g_attrs ge) = Some (GAText t)) by exact GA. congruence.
      + rewrite DS in GA. destruct (dget (py "minOccurs") attrs); cbn [option_map] in GA; congruence. }
  destruct A3 as [(S1 & S2 & z & S3 & S4) | (S1 & [S2 | (z & S3 & S4)])]; [left; eauto 6 | right; auto | right; eauto 6].
Qed.
Print Assumptions C130_file_set.

(** ** Cases *)
(** a file whose verdict says that there is none has none *)
Lemma none_found : forall u w v fname v' st, validate u w v fname = (v', Ok tt) ->
  of_test v' verdict_test = [mkF (Some (py "/")) verdict_test st (py "no default plot described")] -> ~ v3_found (u_env u) w v' /\ ~ v2_found w v'.
Proof.
  intros u w v fname v' st V F. destruct (verdict_final _ _ _ _ _ V) as (f & F' & PV). unfold verdict_test in *. assert (EF : f = mkF (Some (py "/")) (py "NeXus default plot") st (py "no default plot described")) by congruence. subst f.
  inversion PV; auto; discriminate.
Qed.

(** NXentry without minOccurs for its NXdata group, and with minOccurs="1" *)
Definition entry_asking : xnode := nxdl [XN (py "group") [(py "type", py "NXdata"); (py "minOccurs", py "1")] []].
Definition content_asking (p : pystr) : option xnode :=
  if str_eqb p (py "/d/base_classes/NXentry.nxdl.xml") then Some entry_asking else content0 app1 p.
Definition set_asking : set_dir := mkSD (Some xsd_v3_3) (Some nxdlTypes_v3_3) ls0 content_asking.
Definition opened_asking : shared * res (setup * classes) := open_file_set env0 60 900 900 (fun _ => true) set_asking (py "/d") process_start.
Definition u_asking : setup := fst (opened_ok opened_asking).
Definition cl_asking : classes := snd (opened_ok opened_asking).
(** a file without NXentry *)
Definition no_entry_file : h5file := [ grp [("other"%string, 1)] []; grp [] [] ].
Definition quiet_run : validator := fst (validate u1 (world_of no_plot_file) (new_validator cl1) fn).
Definition asking_run : validator := fst (validate u_asking (world_of no_plot_file) (new_validator cl_asking) fn).
Definition no_entry_run : validator := fst (validate u1 (world_of no_entry_file) (new_validator cl1) fn).
Definition missing_with (st : status) : list finding := [mkF (Some (py "/")) verdict_test st (py "no default plot described")].

Lemma open_asking : open_file_set env0 60 900 900 (fun _ => true) set_asking (py "/d") process_start = (fst opened_asking, Ok (u_asking, cl_asking)).
Proof. vm_compute. reflexivity. Qed.

Lemma nxdl_asking : class_nxdl set_asking (py "/d") (py "base_classes") (py "NXentry") entry_asking.
Proof.
  exists [], [py "applications"; py "contributed_definitions"]. split; [reflexivity|]. split; [|split; [|reflexivity]].
  - exists [py "NXentry.nxdl.xml"; py "README"; py "NXdata.nxdl.xml"], (py "NXentry"). split; [reflexivity|]. split; [left|]; reflexivity.
  - intros c [<- | [<- | []]]; not_defined1.
Qed.

Example C130_case :
  (validate u1 (world_of no_plot_file) (new_validator cl1) fn = (quiet_run, Ok tt) /\ of_test quiet_run verdict_test = missing_with NOTE
   /\ ~ v3_found env0 (world_of no_plot_file) quiet_run /\ ~ v2_found (world_of no_plot_file) quiet_run)
  /\ (validate u_asking (world_of no_plot_file) (new_validator cl_asking) fn = (asking_run, Ok tt) /\ of_test asking_run verdict_test = missing_with ERROR
   /\ ~ v3_found env0 (world_of no_plot_file) asking_run /\ ~ v2_found (world_of no_plot_file) asking_run)
  /\ (validate u1 (world_of no_entry_file) (new_validator cl1) fn = (no_entry_run, Ok tt) /\ of_test no_entry_run verdict_test = missing_with ERROR
   /\ ~ v3_found env0 (world_of no_entry_file) no_entry_run /\ ~ v2_found (world_of no_entry_file) no_entry_run)
  /\ elements (py "group") entry0 = [] ++ typed "NXdata" [] :: tl (elements (py "group") entry0)
  /\ elements (py "group") entry_asking = [] ++ hd entry_asking (elements (py "group") entry_asking) :: []
  /\ element_minimum env0 (typed "NXdata" []) 0 /\ element_minimum env0 (hd entry_asking (elements (py "group") entry_asking)) 1.
Proof.
  assert (A : validate u1 (world_of no_plot_file) (new_validator cl1) fn = (quiet_run, Ok tt)) by (vm_compute; reflexivity).
  assert (B : validate u_asking (world_of no_plot_file) (new_validator cl_asking) fn = (asking_run, Ok tt)) by (vm_compute; reflexivity).
  assert (C : validate u1 (world_of no_entry_file) (new_validator cl1) fn = (no_entry_run, Ok tt)) by (vm_compute; reflexivity).
  assert (A' : of_test quiet_run verdict_test = missing_with NOTE) by (vm_compute; reflexivity).
  assert (B' : of_test asking_run verdict_test = missing_with ERROR) by (vm_compute; reflexivity).
  assert (C' : of_test no_entry_run verdict_test = missing_with ERROR) by (vm_compute; reflexivity).
  assert (E1 : u_env u1 = env0) by (eapply open_env; exact open1). assert (E2 : u_env u_asking = env0) by (eapply open_env; exact open_asking).
  pose proof (none_found _ _ _ _ _ _ A A') as NA. pose proof (none_found _ _ _ _ _ _ B B') as NB. pose proof (none_found _ _ _ _ _ _ C C') as NC.
  rewrite E1 in NA, NC. rewrite E2 in NB.
  split; [auto|]. split; [auto|]. split; [auto|]. split; [vm_compute; reflexivity|]. split; [vm_compute; reflexivity|]. split.
  - left. split; vm_compute; reflexivity.
  - right. exists (py "1"). split; [vm_compute; reflexivity|]. apply int_number. vm_compute. reflexivity.
Qed.
