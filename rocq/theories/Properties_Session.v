(** * Properties of validations with the files of a file set (C98-C102) *)

From Coq Require Import List NArith ZArith Bool String Permutation Lia.
From Verif Require Import PyBase PyFacts H5 Findings Nxdl NxdlLoad SchemaMgr NxdlSchema Core Catalog Validate Session Samples
  Spec_Run Spec_Names Spec_Catalog Spec_Plot Spec_Groups Spec_Attributes Spec_AppDef Spec_Nxdl Spec_Schema Spec_Session
  NxdlFacts GroupEnd AppRun NameSamples CatalogSamples NxdlSamples SessionFacts SessionSamples ShippedLines
  Properties_Names Properties_Groups Properties_AppDef Properties_Nxdl Properties_Schema.
Import ListNotations.
Local Open Scope nat_scope.

Section Session.
  Context (E : env) (fuel limit reclimit : nat) (valid : xnode -> bool) (D : set_dir) (path : pystr) (g g' : shared) (u : setup) (cl : classes).
  Hypothesis O : open_file_set E fuel limit reclimit valid D path g = (g', Ok (u, cl)).
  Hypothesis PN : ordinary_names D.
  Context (w : world) (fname : pystr) (v' : validator).
  Hypothesis V : validate u w (new_validator cl) fname = (v', Ok tt).

  Lemma known_class : forall i it h cls, catalogued_group w v' i it h -> has_class E w it h cls ->
    forall cat root, class_nxdl D path cat cls root ->
    exists d, dget cls cl = Some d /\ loaded_def root d /\ d_title d = cls /\ d_category d = cat
      /\ has_class (u_env u) w it h cls /\ dget cls (st_classes (v_st (new_validator cl))) = Some d.
  Proof.
    intros i it h cls C H cat root N. destruct (open_parts _ _ _ _ _ _ _ _ _ _ _ O) as (d0 & sm & M & _ & _).
    destruct (session_class _ _ _ _ _ _ _ M PN _ _ _ N) as (d & A & B & X & Y). exists d.
    rewrite (open_env _ _ _ _ _ _ _ _ _ _ _ O). auto 8.
  Qed.

  Lemma session_group : forall i it h cls, catalogued_group w v' i it h -> has_class E w it h cls ->
    forall cat root, class_nxdl D path cat cls root -> exists gk fk lk, entry_names root gk fk lk
    /\ (exists names, Permutation names fk /\ Forall2 (nxdl_field_finding w h (it_addr it)) names
          (findings_for v' (it_addr it) (py "NXDL field in data file")))
    /\ (exists names, Permutation names gk /\ Forall2 (nxdl_group_finding w h (it_addr it)) names
          (findings_for v' (it_addr it) (py "NXDL group in data file")))
    /\ (forall n, In n (map fst (links_of w h)) -> exists f, member_finding w h cls gk fk n f /\ In f (st_find (v_st v'))).
  Proof.
    intros i it h cls C H cat root N. destruct (known_class i it h cls C H cat root N) as (d & A & B & <- & Y & H' & A').
    exists (map fst (d_groups d)), (map fst (d_fields d)), (map fst (d_links d)). split; [apply def_entries; auto|].
    split; [eapply C28_fields; eauto|]. split; [eapply C28_groups; eauto|].
    intros n I. destruct (C29_child _ _ _ _ _ V i it h _ C H' _ A' n I) as (f & F1 & F2). exists f. split; auto. apply member_of_child; auto.
  Qed.
End Session.

(** ** C98: groups are compared with the NXDL file of their class *)
(** For every group of a validated file whose class has an NXDL file in the file set: one finding for each
    field element and for each group element of this file, saying whether the group has an item of this
    name, and a finding for each member saying whether it is among them. *)
Theorem C98_group : forall E fuel limit reclimit valid D path g g' u cl w fname v',
  open_file_set E fuel limit reclimit valid D path g = (g', Ok (u, cl)) -> ordinary_names D ->
  validate u w (new_validator cl) fname = (v', Ok tt) ->
  forall i it h cls, catalogued_group w v' i it h -> has_class E w it h cls ->
  forall cat root, class_nxdl D path cat cls root -> exists gk fk lk, entry_names root gk fk lk
  /\ (exists names, Permutation names fk /\ Forall2 (nxdl_field_finding w h (it_addr it)) names
        (findings_for v' (it_addr it) (py "NXDL field in data file")))
  /\ (exists names, Permutation names gk /\ Forall2 (nxdl_group_finding w h (it_addr it)) names
        (findings_for v' (it_addr it) (py "NXDL group in data file")))
  /\ (forall n, In n (map fst (links_of w h)) -> exists f, member_finding w h cls gk fk n f /\ In f (st_find (v_st v'))).
Proof. intros. eapply session_group; eauto. Qed.
Print Assumptions C98_group.

(** entries have the names of the elements, if these are distinct (else the repeated ones are numbered, see C42) *)
Theorem C98_names : forall n gk fk lk, entry_names n gk fk lk -> NoDup (raw_names n) ->
  gk = map group_name (elements (py "group") n) /\ fk = map element_name (elements (py "field") n) /\ lk = map element_name (elements (py "link") n).
Proof. exact entry_names_own. Qed.
Print Assumptions C98_names.

(** the attributes of a group are compared with the attribute elements of the NXDL file *)
Theorem C98_attributes : forall E fuel limit reclimit valid D path g g' u cl w fname v',
  open_file_set E fuel limit reclimit valid D path g = (g', Ok (u, cl)) -> ordinary_names D ->
  validate u w (new_validator cl) fname = (v', Ok tt) ->
  forall i it h cls, catalogued_group w v' i it h -> has_class E w it h cls ->
  forall cat root, class_nxdl D path cat cls root -> forall k val, In (k, val) (attrs_of w h) ->
  exists d fs, d_title d = cls /\ Forall2 attribute_content (elements (py "attribute") root) (d_attrs d)
    /\ attribute_report E w it h d (k, val) fs /\ forall f, In f fs -> In f (st_find (v_st v')).
Proof.
  intros E fuel limit reclimit valid D path g g' u cl w fname v' O PN V i it h cls C H cat root N k val I.
  destruct (known_class _ _ _ _ _ _ _ _ _ _ _ O PN w v' i it h cls C H cat root N) as (d & A & B & T & Y & H' & A').
  destruct (C71_attribute _ _ _ _ _ V i it h cls C H' d A' k val I) as (fs & F1 & F2).
  exists d, fs. split; auto. split; [apply (ld_attrs _ _ B)|]. split; auto. rewrite <- (open_env _ _ _ _ _ _ _ _ _ _ _ O). auto.
Qed.
Print Assumptions C98_attributes.

(** a class without an NXDL file is an error, one with an NXDL file is known *)
Theorem C98_unknown : forall E fuel limit reclimit valid D path g g' u cl w fname v',
  open_file_set E fuel limit reclimit valid D path g = (g', Ok (u, cl)) -> ordinary_names D ->
  validate u w (new_validator cl) fname = (v', Ok tt) ->
  forall i it h cls, catalogued_group w v' i it h -> has_class E w it h cls ->
  exists st later, findings_for v' (it_addr it) (py "known NXDL")
     = mkF (it_addr it) (py "known NXDL") st (cls ++ py ": recognized NXDL specification") :: later
    /\ ((st = ERROR /\ no_class_nxdl D path cls) \/ (st = OK /\ exists cat root, class_nxdl D path cat cls root)).
Proof.
  intros E fuel limit reclimit valid D path g g' u cl w fname v' O PN V i it h cls C H.
  destruct (open_parts _ _ _ _ _ _ _ _ _ _ _ O) as (d0 & sm & M & _ & _).
  assert (H' : has_class (u_env u) w it h cls) by (rewrite (open_env _ _ _ _ _ _ _ _ _ _ _ O); auto).
  destruct (class_or_not _ _ _ _ _ _ _ M PN cls) as [[N1 N2] | (cat & root & d & A & B & _)].
  - destruct (proj1 (C30_unknown _ _ _ _ _ V i it h cls C H' N2)) as (later & F). exists ERROR, later. auto.
  - destruct (proj1 (C30_known _ _ _ _ _ V i it h cls C H' d B)) as (later & F). exists OK, later. split; auto. right. eauto.
Qed.
Print Assumptions C98_unknown.

(** ** A file set and a file *)
Definition item1 (i : nat) : vitem := nth i (st_items (v_st done1)) (mkItem None (OVal VNone) None None [] None []).
Definition handle1 (i : nat) : handle := match it_obj (item1 i) with ONode h => h | OVal _ => open_root fn end.

Lemma open1 : open_file_set env0 60 900 900 (fun _ => true) set1 (py "/d") process_start = (fst opened1, Ok (u1, cl1)).
Proof. vm_compute. reflexivity. Qed.
Lemma validate1 : validate u1 (world_of follows_file) (new_validator cl1) fn = (done1, Ok tt).
Proof. vm_compute. reflexivity. Qed.
Lemma ordinary1 : ordinary_names set1.
Proof. split; [exact ls0_plain | exact ls0_names]. Qed.

Lemma group_in : forall w v i it h, nth_error (st_items (v_st v)) i = Some it ->
  existsb (fun ai : option pystr * nat => ostr_eqb (fst ai) (it_addr it) && Nat.eqb (snd ai) i) (st_addr (v_st v)) = true ->
  it_obj it = ONode h -> is_group_obj w h = true -> catalogued_group w v i it h.
Proof.
  intros w v i it h L H1 H2 H3. apply existsb_exists in H1 as [[a j] [H1 H4]]. apply andb_true_iff in H4 as [H4 H5].
  cbn [fst snd] in H4, H5. apply ostr_eqb_eq in H4. apply Nat.eqb_eq in H5. subst. split; auto.
Qed.

Lemma class_in : forall E w it h cls val nm, it_cp it <> [] -> it_cp it <> non_nexus ->
  dget (py "NX_class") (attrs_of w h) = Some val -> decode_byte_string E val = Ok (VStr cls) -> cls = py "NX" ++ nm -> has_class E w it h cls.
Proof. intros E w it h cls val nm A B C F G. right. split; auto. split; auto. exists val, nm. auto. Qed.

Ltac not_defined1 := intros (names & base & N & I & F); vm_compute in N; (discriminate || injection N as <-);
  apply path_join_inj in F; rewrite <- F in I; vm_compute in I; intuition discriminate.

Lemma nxdl_entry1 : class_nxdl set1 (py "/d") (py "base_classes") (py "NXentry") entry0.
Proof.
  exists [], [py "applications"; py "contributed_definitions"]. split; [reflexivity|]. split; [|split; [|reflexivity]].
  - exists [py "NXentry.nxdl.xml"; py "README"; py "NXdata.nxdl.xml"], (py "NXentry"). split; [reflexivity|]. split; [left|]; reflexivity.
  - intros c [<- | [<- | []]]; not_defined1.
Qed.
Lemma nxdl_data1 : class_nxdl set1 (py "/d") (py "contributed_definitions") (py "NXdata") (nxdl [named "field" "y" []]).
Proof.
  exists [py "base_classes"; py "applications"], []. split; [reflexivity|]. split; [|split; [intros c []|reflexivity]].
  exists [py "NXdata.nxdl.xml"], (py "NXdata"). split; [reflexivity|]. split; [left|]; reflexivity.
Qed.
Lemma nxdl_app1 : class_nxdl set1 (py "/d") (py "applications") (py "NXapp") app1.
Proof.
  exists [py "base_classes"], [py "contributed_definitions"]. split; [reflexivity|]. split; [|split; [|reflexivity]].
  - exists [py "NXapp.nxdl.xml"], (py "NXapp"). split; [reflexivity|]. split; [left|]; reflexivity.
  - intros c [<- | []]; not_defined1.
Qed.
Lemma nxdl_odd1 : no_class_nxdl set1 (py "/d") (py "NXodd").
Proof. intros c [<- | [<- | [<- | []]]]; not_defined1. Qed.

(** [/entry] is an NXentry; [/entry/Data] an NXdata, a class that two categories define; [/entry/odd] an NXodd, which none does *)
Example C98_case :
  (catalogued_group (world_of follows_file) done1 1 (item1 1) (handle1 1) /\ has_class env0 (world_of follows_file) (item1 1) (handle1 1) (py "NXentry")
   /\ class_nxdl set1 (py "/d") (py "base_classes") (py "NXentry") entry0)
  /\ (catalogued_group (world_of follows_file) done1 4 (item1 4) (handle1 4) /\ has_class env0 (world_of follows_file) (item1 4) (handle1 4) (py "NXdata")
   /\ class_nxdl set1 (py "/d") (py "contributed_definitions") (py "NXdata") (nxdl [named "field" "y" []]))
  /\ (catalogued_group (world_of follows_file) done1 7 (item1 7) (handle1 7) /\ has_class env0 (world_of follows_file) (item1 7) (handle1 7) (py "NXodd")
   /\ no_class_nxdl set1 (py "/d") (py "NXodd"))
  /\ map (fun f => (f_status f, f_comment f)) (findings_for done1 (Some (py "/entry/Data")) (py "NXDL field in data file")) = [(OK, py "found: /entry/Data/y")].
Proof.
  split; [split; [apply group_in; vm_compute; reflexivity|]; split; [|exact nxdl_entry1] |
    split; [split; [apply group_in; vm_compute; reflexivity|]; split; [|exact nxdl_data1] |
    split; [split; [apply group_in; vm_compute; reflexivity|]; split; [|exact nxdl_odd1] | vm_compute; reflexivity]]].
  - apply (class_in _ _ _ _ _ (str "NXentry") (py "entry")); try (vm_compute; discriminate); vm_compute; reflexivity.
  - apply (class_in _ _ _ _ _ (str "NXdata") (py "data")); try (vm_compute; discriminate); vm_compute; reflexivity.
  - apply (class_in _ _ _ _ _ (str "NXodd") (py "odd")); try (vm_compute; discriminate); vm_compute; reflexivity.
Qed.

Lemma follows1 : follows env0 (world_of follows_file) (handle1 1) (py "NXapp").
Proof.
  split; [vm_compute; reflexivity|]. eexists. exists (str "NXapp"). split; [vm_compute; reflexivity|]. split; [|vm_compute; reflexivity].
  eexists. exists (str "NXapp"), (str "NXapp"). split; [vm_compute; reflexivity|]. split; [reflexivity|]. split; [apply fe_one; exact I|vm_compute; reflexivity].
Qed.

(** ** C99: fields that an application definition does not require *)
(** NXapp says minOccurs="0" for "comment"; the file follows NXapp and has none, which is an error *)
Theorem C99_refuted : exists field, In field (elements (py "field") (hd app1 (elements (py "group") app1)))
  /\ dget (py "minOccurs") (x_attrib field) = Some (py "0") /\ element_name field = py "comment"
  /\ class_nxdl set1 (py "/d") (py "applications") (py "NXapp") app1
  /\ follows env0 (world_of follows_file) (handle1 1) (py "NXapp") /\ ~ has_item (world_of follows_file) (handle1 1) (py "comment")
  /\ In (mkF (Some (py "/entry@None")) (py "NXDL field") ERROR (py "NXapp:comment not found")) (st_find (v_st done1)).
Proof.
  eexists. split; [left; reflexivity|]. split; [reflexivity|]. split; [reflexivity|]. split; [exact nxdl_app1|]. split; [|split].
  - exact follows1.
  - unfold has_item. intros X. vm_compute in X. discriminate.
  - apply nth_error_In with (n := 38). vm_compute. reflexivity.
Qed.
Print Assumptions C99_refuted.

(** Exactly: whatever the NXDL says about occurrences, each field element of the first group of the followed
    definition gets one finding: OK if the file has it, ERROR if not.  Missing from the full statement: that
    optional fields may be absent. *)
Theorem C99_partial : forall E fuel limit reclimit valid D path g g' u cl w fname v',
  open_file_set E fuel limit reclimit valid D path g = (g', Ok (u, cl)) -> ordinary_names D ->
  validate u w (new_validator cl) fname = (v', Ok tt) ->
  exists fss, Forall2 (fun i fs => exists entry, found_in v' i entry /\ followed_fields E w D path entry fs) (definition_items v') fss
    /\ of_test v' (py "NXDL field") = List.concat fss.
Proof.
  intros E fuel limit reclimit valid D path g g' u cl w fname v' O PN V.
  destruct (open_parts _ _ _ _ _ _ _ _ _ _ _ O) as (d0 & sm & M & _ & ->).
  destruct (C40_fields _ _ _ _ _ V) as (fss & F & T). exists fss. split; auto.
  eapply Forall2_imp; [|exact F]. intros i fs (entry & A & B). exists entry. split; auto. eapply followed_of; eauto.
Qed.
Print Assumptions C99_partial.

Example C99_case : definition_items done1 = [3] /\ (exists pit, found_in done1 3 pit /\ it_addr pit = Some (py "/entry"))
  /\ map (fun f => (f_status f, f_comment f)) (of_test done1 (py "NXDL field"))
     = [(ERROR, py "NXapp:comment not found"); (OK, py "NXapp:mode found"); (OK, py "NXapp:definition found")].
Proof.
  split; [vm_compute; reflexivity|]. split; [|vm_compute; reflexivity].
  exists (item1 1). split; [|vm_compute; reflexivity]. exists (item1 3), 1. split; [vm_compute; reflexivity|]. split; vm_compute; reflexivity.
Qed.

(** ** C100: fields of nested groups that an application definition requires *)
(** NXapp has a group of class NXdata with the field x, minOccurs="1".  The file has neither a group called
    data nor an x anywhere: nothing is said about it ([C99_case] has all findings about fields). *)
Theorem C100_refuted : exists group field, In group (elements (py "group") (hd app1 (elements (py "group") app1)))
  /\ In field (elements (py "field") group) /\ dget (py "minOccurs") (x_attrib field) = Some (py "1") /\ element_name field = py "x"
  /\ class_nxdl set1 (py "/d") (py "applications") (py "NXapp") app1
  /\ follows env0 (world_of follows_file) (handle1 1) (py "NXapp")
  /\ (forall o obj, nth_error follows_file o = Some obj -> forall links, ob_kind obj = H5.KGroup links -> ~ In (py "x") (map fst links))
  /\ forall f, In f (st_find (v_st done1)) -> f_status f = ERROR ->
       In (f_comment f) [py "not a recognized NXDL class: NXodd"; py "NXroot: recognized NXDL specification"; py "unknown NeXus base class: NXroot";
         py "NXodd: recognized NXDL specification"; py "unknown NeXus base class: NXodd"; py "NXapp:comment not found"].
Proof.
  eexists. eexists. split; [left; reflexivity|]. split; [left; reflexivity|]. split; [reflexivity|]. split; [reflexivity|].
  split; [exact nxdl_app1|]. split; [|split].
  - exact follows1.
  - intros o obj N links K I.
    do 7 (destruct o as [|o]; [vm_compute in N; injection N as <-; vm_compute in K; (discriminate || injection K as <-); vm_compute in I; intuition discriminate|]).
    destruct o; discriminate.
  - assert (X : forallb (fun f => match f_status f with
                                   | ERROR => existsb (str_eqb (f_comment f)) [py "not a recognized NXDL class: NXodd"; py "NXroot: recognized NXDL specification"; py "unknown NeXus base class: NXroot";
         py "NXodd: recognized NXDL specification"; py "unknown NeXus base class: NXodd"; py "NXapp:comment not found"]
                                   | _ => true end) (st_find (v_st done1)) = true) by (vm_compute; reflexivity).
    rewrite forallb_forall in X. intros f I S. specialize (X f I). rewrite S in X. apply existsb_exists in X as (c & C1 & C2).
    apply str_eqb_eq in C2. rewrite C2. exact C1.
Qed.
Print Assumptions C100_refuted.

(** What holds: missing fields that the definition has directly in its first group are errors.  Missing: fields in nested groups. *)
Theorem C100_partial : forall E fuel limit reclimit valid D path g g' u cl w fname v',
  open_file_set E fuel limit reclimit valid D path g = (g', Ok (u, cl)) -> ordinary_names D ->
  validate u w (new_validator cl) fname = (v', Ok tt) ->
  forall i entry h name cat root first rest, In i (definition_items v') -> found_in v' i entry -> it_obj entry = ONode h -> follows E w h name ->
  class_nxdl D path cat name root -> elements (py "group") root = first :: rest -> NoDup (raw_names first) ->
  forall field, In field (elements (py "field") first) -> getopt w h (element_name field) = Ok None ->
  In (mkF (missing_address entry) (py "NXDL field") ERROR (name ++ py ":" ++ element_name field ++ py " not found")) (st_find (v_st v')).
Proof.
  intros E fuel limit reclimit valid D path g g' u cl w fname v' O PN V i entry h name cat root first rest I FI OB FO CN EL ND field IF GO.
  destruct (open_parts _ _ _ _ _ _ _ _ _ _ _ O) as (d0 & sm & M & _ & ->).
  destruct (C40_fields _ _ _ _ _ V) as (fss & F & T).
  assert (X : exists fs e, In fs fss /\ found_in v' i e /\ fields_report E w (st_classes (v_st (new_validator cl))) e fs).
  { clear - F I. induction F as [|x y a b (e & R1 & R2) F IH]; [destruct I|]. destruct I as [<- | I].
    - exists y, e. split; [left; auto|]. auto.
    - destruct (IH I) as (fs & e' & A & B). exists fs, e'. split; [right; auto | auto]. }
  destruct X as (fs & e & X1 & X2 & X3).
  assert (e = entry). { destruct X2 as (a & p & A1 & A2 & A3), FI as (b & q & B1 & B2 & B3). congruence. } subst e.
  assert (Y : In (mkF (missing_address entry) (py "NXDL field") ERROR (name ++ py ":" ++ element_name field ++ py " not found")) fs).
  { pose proof (session_class _ _ _ _ _ _ _ M PN _ _ _ CN) as (def & DG & L & _).
    assert (NM : forall n', follows E w h n' -> n' = name).
    { intros n' (_ & dh & x & P1 & P2 & ->). destruct FO as (_ & dh' & x' & Q1 & Q2 & ->).
      assert (dh' = dh) by congruence. subst. f_equal. exact (AppFacts.dataset_value_fun _ _ _ _ _ P2 Q2). }
    destruct X3 as [h' n' A B C | h' n' def' k ent rest' fs A B C G FF]; assert (h' = h) by congruence; subst h'; apply NM in B; subst n'; change (st_classes (v_st (new_validator cl))) with cl in C; [congruence|].
    assert (def' = def) by congruence. subst def'. pose proof (ld_groups _ _ L) as LG. rewrite EL, G in LG. inversion LG as [|q1 q2 q3 q4 [Q5 LF] Q6 Q7 Q8]; subst.
    cbn [snd] in LF. destruct (entry_names_own _ _ _ _ (group_entries _ _ LF) ND) as (_ & K & _).
    assert (IN : In (element_name field) (map fst (g_fields ent))) by (rewrite K; apply in_map; auto).
    clear - FF IN GO. induction FF as [|x y a b (fh & R1 & R2) F IH]; [destruct IN|]. destruct IN as [IN | IN]; [left | right; auto].
    rewrite IN in *. rewrite GO in R1. inversion R1; subst fh. exact R2. }
  assert (Z : In (mkF (missing_address entry) (py "NXDL field") ERROR (name ++ py ":" ++ element_name field ++ py " not found")) (of_test v' (py "NXDL field"))).
  { rewrite T. apply in_concat. eauto. }
  unfold of_test in Z. apply filter_In in Z. tauto.
Qed.
Print Assumptions C100_partial.

(** at least one field of NXapp is missing in the sample *)
Example C100_case : In 3 (definition_items done1) /\ found_in done1 3 (item1 1) /\ it_obj (item1 1) = ONode (handle1 1)
  /\ elements (py "group") app1 = [hd app1 (elements (py "group") app1)] /\ NoDup (raw_names (hd app1 (elements (py "group") app1)))
  /\ map element_name (elements (py "field") (hd app1 (elements (py "group") app1))) = [py "comment"; py "mode"; py "definition"]
  /\ getopt (world_of follows_file) (handle1 1) (py "comment") = Ok None.
Proof.
  split; [vm_compute; auto|]. split; [exists (item1 3), 1; split; [vm_compute; reflexivity|]; split; vm_compute; reflexivity|].
  split; [vm_compute; reflexivity|]. split; [reflexivity|]. split; [|split; vm_compute; reflexivity].
  vm_compute. repeat constructor; cbn; intuition discriminate.
Qed.

(** ** C101: "(required)" and "(optional)" *)
(** NXapp says minOccurs="0" for "mode"; the finding says that it is required *)
Theorem C101_refuted : exists field, In field (elements (py "field") (hd app1 (elements (py "group") app1)))
  /\ dget (py "minOccurs") (x_attrib field) = Some (py "0") /\ element_name field = py "mode"
  /\ class_nxdl set1 (py "/d") (py "applications") (py "NXapp") app1
  /\ follows env0 (world_of follows_file) (handle1 1) (py "NXapp")
  /\ In (mkF (Some (py "/entry/mode")) (py "NXDL field enumerations") OK (py "NXapp:mode (required) has expected value: a")) (st_find (v_st done1)).
Proof.
  eexists. split; [right; left; reflexivity|]. split; [reflexivity|]. split; [reflexivity|]. split; [exact nxdl_app1|]. split.
  - exact follows1.
  - apply nth_error_In with (n := 40). vm_compute. reflexivity.
Qed.
Print Assumptions C101_refuted.

(** Exactly: every such finding says "(required)" if some application definition of the file set has a field
    (at any depth), and else every such finding says "(optional)".  Missing from the full statement: that the
    text tells what the NXDL says about the field in question. *)
Theorem C101_partial : forall E fuel limit reclimit valid D path g g' u cl w fname v',
  open_file_set E fuel limit reclimit valid D path g = (g', Ok (u, cl)) -> ordinary_names D ->
  validate u w (new_validator cl) fname = (v', Ok tt) ->
  (application_with_field (sd_ls D) (sd_content D) path
   /\ forall f, In f (st_find (v_st v')) -> f_test f = py "NXDL field enumerations" ->
      exists name field rest, f_comment f = (name ++ py ":" ++ field ++ py " (required)") ++ rest)
  \/ (~ application_with_field (sd_ls D) (sd_content D) path
   /\ forall f, In f (st_find (v_st v')) -> f_test f = py "NXDL field enumerations" ->
      exists name field rest, f_comment f = (name ++ py ":" ++ field ++ py " (optional)") ++ rest).
Proof.
  intros E fuel limit reclimit valid D path g g' u cl w fname v' O PN V.
  destruct (open_parts _ _ _ _ _ _ _ _ _ _ _ O) as (d0 & sm & M & _ & U).
  destruct (C40_report _ _ _ _ _ V) as (fss & F & before & after & S & N).
  assert (X : forall f, In f (st_find (v_st v')) -> f_test f = py "NXDL field enumerations" ->
              exists ad field rest, f_comment f = enumeration_text (u_field_minOccurs u) ad field ++ rest).
  { intros f I T. rewrite S in I. assert (J : In f (List.concat fss)).
    { rewrite Forall_forall in N. apply in_app_or in I as [I | I].
      - exfalso. apply (N f); [apply in_or_app; auto|]. rewrite T. right. right. left. auto.
      - apply in_app_or in I as [I | I]; auto. exfalso. apply (N f); [apply in_or_app; auto|]. rewrite T. right. right. left. auto. }
    apply in_concat in J as (l & J1 & J2).
    assert (Y : exists e, definition_report (u_env u) w (u_field_minOccurs u) (st_classes (v_st (new_validator cl))) e l).
    { clear - F J1. induction F as [|x y a b (e & R1 & R2) F IH]; [destruct J1|]. destruct J1 as [<- | J1]; eauto. }
    destruct Y as (e & Y). eapply enumeration_texts; eauto. }
  destruct (minOccurs_after _ _ _ _ _ _ _ M (proj1 PN)) as [[A B] | [A B]]; [left | right]; (split; [exact A|]); intros f I T;
    destruct (X f I T) as (ad & field & rest & C); exists ad, field, rest; rewrite C, U; unfold enumeration_text; cbn [u_field_minOccurs]; rewrite B; reflexivity.
Qed.
Print Assumptions C101_partial.

Example C101_case : application_with_field (sd_ls set1) (sd_content set1) (py "/d")
  /\ map f_comment (of_test done1 (py "NXDL field enumerations"))
     = [py "NXapp:mode (required) has expected value: a"; py "NXapp:definition (required) has expected value: NXapp"].
Proof.
  split; [|vm_compute; reflexivity]. exists (py "/d/applications/NXapp.nxdl.xml"), app1.
  split; [exists [py "NXapp.nxdl.xml"], (py "NXapp"); split; [reflexivity|]; split; [left|]; reflexivity|]. split; [reflexivity|].
  eapply hf_below; [left; reflexivity|]. eapply hf_here. left. reflexivity.
Qed.

(** ** C102: names are judged by the patterns of nxdl.xsd *)
Section Patterns.
  Context (E : env) (fuel limit reclimit : nat) (valid : xnode -> bool) (D : set_dir) (path : pystr) (g g' : shared) (u : setup) (cl : classes).
  Hypothesis O : open_file_set E fuel limit reclimit valid D path g = (g', Ok (u, cl)).
  Context (kids : list lnode) (K : sd_nxdl D = Some kids).
  Let root := map without_lines kids.
  Hypothesis ND : NoDup (type_names root).
  Hypothesis BF : bases_first E root.

  Lemma used_patterns : forall t ps, all_patterns E root t ps -> dget t (u_patterns u) = Some ps.
  Proof.
    intros t ps AP. destruct (open_parts _ _ _ _ _ _ _ _ _ _ _ O) as (d0 & sm & M & SM & U).
    rewrite U. cbn [u_patterns].
    pose proof (manager_patterns _ _ _ _ _ _ SM) as (root' & R1 & R2). unfold xsd_of in R1. cbn [xd_nxdl] in R1. rewrite K in R1. cbn [option_map] in R1.
    injection R1 as <-. fold root in R2. pose proof (C87_partial E root _ R2 ND BF _ _ AP) as Q.
    assert (Z : dget t (map (fun kp => (fst kp, sp_res (snd kp))) (SchemaMgr.sm_patterns sm)) = option_map sp_res (dget t (SchemaMgr.sm_patterns sm))).
    { generalize (SchemaMgr.sm_patterns sm) as l. clear. intros l. unfold dget. induction l as [|[a b] l IH]; cbn [map aget fst snd]; auto. destruct (str_eqb t a); auto. }
    rewrite Z. exact Q.
  Qed.
End Patterns.

(** [ps] are the patterns that the file set's nxdl.xsd has for validItemName, its own and those of its base,
    the base of this, and so on; the schema has each type after its base *)
Theorem C102_names : forall E fuel limit reclimit valid D path g g' u cl w fname v',
  open_file_set E fuel limit reclimit valid D path g = (g', Ok (u, cl)) ->
  validate u w (new_validator cl) fname = (v', Ok tt) ->
  forall kids ps, sd_nxdl D = Some kids ->
  NoDup (type_names (map without_lines kids)) -> bases_first E (map without_lines kids) -> all_patterns E (map without_lines kids) (py "validItemName") ps ->
  forall i it h, listed v' i it -> it_obj it = ONode h -> it_parent it <> None ->
  (isHdf5Group w h = true \/ isHdf5Dataset w h = true) ->
  ~ In 64%N (it_cp it) -> ~ has_part (it_cp it) (py "NXcollection") ->
  exists n st comment, it_name it = Some n /\ last_component (h_name h) n /\ it_addr it = Some (h_name h)
   /\ shows v' i it (mkF (Some (h_name h)) (py "validItemName") st comment)
   /\ name_status (e_uw E) ps n st /\ name_comment (e_uw E) ps (py "valid HDF5 item name, not valid with NeXus") n comment.
Proof.
  intros E fuel limit reclimit valid D path g g' u cl w fname v' O V kids ps K ND BF AP i it h A1 A2 A3 A4 A5 A6.
  destruct (C01_names _ _ _ _ _ V i it h A1 A2 A3 A4 A5 A6) as (n & st & cm & B1 & B2 & B3 & B4 & B5).
  exists n, st, cm. split; auto. split; auto. split; auto. split; auto.
  unfold ctx_patterns in B5. rewrite (used_patterns _ _ _ _ _ _ _ _ _ _ _ O kids K ND BF _ _ AP), (open_env _ _ _ _ _ _ _ _ _ _ _ O) in B5. exact B5.
Qed.
Print Assumptions C102_names.

(** the same for class names and validNXClassName *)
Theorem C102_classes : forall E fuel limit reclimit valid D path g g' u cl w fname v',
  open_file_set E fuel limit reclimit valid D path g = (g', Ok (u, cl)) ->
  validate u w (new_validator cl) fname = (v', Ok tt) ->
  forall kids ps, sd_nxdl D = Some kids ->
  NoDup (type_names (map without_lines kids)) -> bases_first E (map without_lines kids) -> all_patterns E (map without_lines kids) (py "validNXClassName") ps ->
  forall i it x, listed v' i it -> it_obj it = OVal x -> it_name it = Some (py "NX_class") -> it_addr it <> None ->
  exists n st comment, decode_byte_string E x = Ok (VStr n) /\ shows v' i it (mkF (it_addr it) (py "validItemName") st comment)
   /\ ((st = OK /\ relaxed_name (e_uw E) ps n) \/ (st = ERROR /\ ~ relaxed_name (e_uw E) ps n))
   /\ class_comment (e_uw E) ps n comment.
Proof.
  intros E fuel limit reclimit valid D path g g' u cl w fname v' O V kids ps K ND BF AP i it x A1 A2 A3 A4.
  destruct (C70_attribute_names _ _ _ _ _ V i it x A1 A2 A4) as (p & pit & h & k & B1 & B2 & B3 & B4 & B5 & B6 & B7).
  assert (KE : k = py "NX_class") by congruence. subst k.
  assert (X : endswith (h_name h ++ ch_at :: py "NX_class") (py "@NX_class") = true) by (apply endswith_spec; eexists; reflexivity).
  rewrite X in B7. destruct B7 as (l & n & st & cm & C1 & C2 & C3 & C4).
  unfold class_patterns in C1. rewrite (used_patterns _ _ _ _ _ _ _ _ _ _ _ O kids K ND BF _ _ AP) in C1. injection C1 as <-.
  rewrite (open_env _ _ _ _ _ _ _ _ _ _ _ O) in C2, C4. exists n, st, cm. auto.
Qed.
Print Assumptions C102_classes.

Definition schema1 : list snode := map without_lines xsd_v3_3.
Definition item_type1 : snode := Eval vm_compute in nth 7 schema1 SComment.
Definition class_type1 : snode := Eval vm_compute in nth 8 schema1 SComment.
Example C102_case : sd_nxdl set1 = Some xsd_v3_3 /\ NoDup (type_names schema1) /\ bases_first env0 schema1
  /\ all_patterns env0 schema1 (py "validItemName") [py "[A-Za-z_][\w_]*"]
  /\ all_patterns env0 schema1 (py "validNXClassName") [py "NX.+"; py "[A-Za-z_][\w_]*"]
  /\ map (fun f => (f_status f, f_comment f)) (findings_for done1 (Some (py "/entry/Data")) (py "validItemName")) = [(NOTE, py "relaxed pattern: [A-Za-z_][\w_]*")].
Proof.
  assert (TOK : forall root, ~ (valid_name (py "token") /\ In (py "token") (type_names root))) by (intros root [(x & H) _]; discriminate).
  assert (VI : all_patterns env0 schema1 (py "validItemName") [py "[A-Za-z_][\w_]*"]).
  { refine (ap_last env0 schema1 item_type1 (py "validItemName") (py "token") _ 63%Z _ _ _ (TOK _)).
    - apply nth_error_In with (n := 7). vm_compute. reflexivity.
    - exists (py "ItemName"). reflexivity.
    - exists [(py "name", py "validItemName")]. do 3 eexists. exists (py "xs:token").
      split; [reflexivity|]. split; [reflexivity|]. split; [right; left; reflexivity|]. split; [reflexivity|].
      split; [split; [intros H; vm_compute in H; intuition discriminate|right; exists (py "xs"); reflexivity]|].
      split; [reflexivity|]. right. exists [], (py "63"). split; [reflexivity|apply NumberFacts.int_number; reflexivity]. }
  split; [reflexivity|]. split; [vm_compute; repeat constructor; cbn; intuition discriminate|].
  split; [apply bases_firstb_ok; vm_compute; reflexivity|]. split; [exact VI|]. split; [|vm_compute; reflexivity].
  refine (ap_base env0 schema1 class_type1 (py "validNXClassName") (py "validItemName") [py "NX.+"] (-1)%Z [py "[A-Za-z_][\w_]*"] _ _ _ VI).
  - apply nth_error_In with (n := 8). vm_compute. reflexivity.
  - exists (py "NXClassName"). reflexivity.
  - exists [(py "name", py "validNXClassName")]. do 3 eexists. exists (py "nx:validItemName").
    split; [reflexivity|]. split; [reflexivity|]. split; [right; left; reflexivity|]. split; [reflexivity|].
    split; [split; [intros H; vm_compute in H; intuition discriminate|right; exists (py "nx"); reflexivity]|].
    split; [reflexivity|]. left. split; reflexivity.
Qed.

(** ** C103: subgroups of a class that the class of the group allows *)
(** The NXDL file of NXentry has groups of class NXdata, without a name, so that any name will do.  The file
    has such a group, called Data, and the finding says that NXentry does not define it. *)
Theorem C103_refuted : exists group, In group (elements (py "group") entry0)
  /\ dget (py "type") (x_attrib group) = Some (py "NXdata") /\ dget (py "name") (x_attrib group) = None
  /\ class_nxdl set1 (py "/d") (py "base_classes") (py "NXentry") entry0
  /\ has_class env0 (world_of follows_file) (item1 1) (handle1 1) (py "NXentry")
  /\ has_class env0 (world_of follows_file) (item1 4) (handle1 4) (py "NXdata") /\ member (world_of follows_file) (handle1 1) (py "Data") (handle1 4)
  /\ In (mkF (Some (py "/entry/Data")) (py "group in base class") OK (py "not defined: NXentry/Data")) (st_find (v_st done1)).
Proof.
  eexists. split; [left; reflexivity|]. split; [reflexivity|]. split; [reflexivity|]. split; [exact nxdl_entry1|].
  destruct C98_case as ((_ & A & _) & (_ & B & _) & _). split; [exact A|]. split; [exact B|]. split.
  - split; vm_compute; auto.
  - apply nth_error_In with (n := 18). vm_compute. reflexivity.
Qed.
Print Assumptions C103_refuted.

(** What holds: a member that is called like a group element, or like the class of a nameless one without NX,
    is said to be defined.  Missing: members of the class with other names. *)
Theorem C103_partial : forall E fuel limit reclimit valid D path g g' u cl w fname v',
  open_file_set E fuel limit reclimit valid D path g = (g', Ok (u, cl)) -> ordinary_names D ->
  validate u w (new_validator cl) fname = (v', Ok tt) ->
  forall i it h cls, catalogued_group w v' i it h -> has_class E w it h cls ->
  forall cat root, class_nxdl D path cat cls root -> NoDup (raw_names root) ->
  forall group, In group (elements (py "group") root) ->
  forall obj, member w h (group_name group) obj -> isHdf5Group w obj = true -> isHdf5Dataset w obj = false ->
  In (mkF (Some (h_name obj)) (py "group in base class") OK (py "defined: " ++ cls ++ py "/" ++ group_name group)) (st_find (v_st v')).
Proof.
  intros E fuel limit reclimit valid D path g g' u cl w fname v' O PN V i it h cls C H cat root N ND group IG obj MB G1 G2.
  destruct (C98_group _ _ _ _ _ _ _ _ _ _ _ _ _ _ O PN V i it h cls C H cat root N) as (gk & fk & lk & EN & _ & _ & CH).
  destruct (entry_names_own _ _ _ _ EN ND) as (-> & _ & _).
  destruct (CH _ (proj1 MB)) as (f & F1 & F2).
  inversion F1 as [o cm M1 M2 M3 | o cm M1 M2 M3 | o M1 M2 M3]; subst; assert (o = obj) by (destruct MB, M1; congruence); subst o; try congruence.
  destruct M3 as [[_ ->] | [NI _]]; [exact F2|]. exfalso. apply NI. apply in_map. exact IG.
Qed.
Print Assumptions C103_partial.
