(** * Theorems about the group checks (C28-C31, C71) *)

From Coq Require Import List NArith ZArith Bool String Permutation.
From Verif Require Import PyBase H5 Findings Nxdl Core Catalog GroupChecks AttributeCheck Validate Samples Spec_Run Spec_Catalog Spec_Groups
  GroupEnd NameSamples CatalogSamples GroupSamples.
Import ListNotations.
Local Open Scope nat_scope.

(** item 3 of [good_file] is /entry, an NXentry group with title, Data and notes *)
Example entry_case :
  validate setup0 (world_of good_file) (new_validator classes0) fn = (done good_file, Ok tt)
  /\ catalogued_group (world_of good_file) (done good_file) 3 (item_of good_file 3) (handle_of good_file 3)
  /\ has_class (u_env setup0) (world_of good_file) (item_of good_file 3) (handle_of good_file 3) (py "NXentry")
  /\ map fst (links_of (world_of good_file) (handle_of good_file 3)) = [py "title"; py "Data"; py "notes"]
  /\ option_map (fun d => (map fst (d_fields d), map fst (d_groups d))) (dget (py "NXentry") (st_classes (v_st (new_validator classes0))))
     = Some ([py "title"; py "definition"], [py "data"; py "sample"]).
Proof.
  split; [vm_compute; reflexivity|]. split; [apply catalogued_groupb_ok; vm_compute; reflexivity|].
  split; [|split; vm_compute; reflexivity]. right. split; [vm_compute; discriminate|]. split; [vm_compute; discriminate|].
  exists (str "NXentry"), (py "entry"). split; [vm_compute; reflexivity|]. split; vm_compute; reflexivity.
Qed.

(** ** C28: every field and group of the class *)
Theorem C28_fields : forall u w v fname v', validate u w v fname = (v', Ok tt) ->
  forall i it h cls, catalogued_group w v' i it h -> has_class (u_env u) w it h cls ->
  forall d, dget cls (st_classes (v_st v)) = Some d ->
  exists names, Permutation names (map fst (d_fields d))
    /\ Forall2 (nxdl_field_finding w h (it_addr it)) names
         (findings_for v' (it_addr it) (py "NXDL field in data file")).
Proof. exact group_fields. Qed.
Print Assumptions C28_fields.

Theorem C28_groups : forall u w v fname v', validate u w v fname = (v', Ok tt) ->
  forall i it h cls, catalogued_group w v' i it h -> has_class (u_env u) w it h cls ->
  forall d, dget cls (st_classes (v_st v)) = Some d ->
  exists names, Permutation names (map fst (d_groups d))
    /\ Forall2 (nxdl_group_finding w h (it_addr it)) names
         (findings_for v' (it_addr it) (py "NXDL group in data file")).
Proof. exact group_groups. Qed.
Print Assumptions C28_groups.

(** an item "exists in the group" when the group has a link of that name *)
Theorem C28_exists : forall w h n, is_group_obj w h = true -> link_name n -> (has_item w h n <-> In n (map fst (links_of w h))).
Proof. exact has_item_name. Qed.
Print Assumptions C28_exists.

Example C28_case :
  map (fun f => (f_status f, f_comment f)) (findings_for (done good_file) (Some (py "/entry")) (py "NXDL field in data file"))
    = [(OPTIONAL, py "not found: /entry/definition"); (OK, py "found: /entry/title")]
  /\ map (fun f => (f_status f, f_comment f)) (findings_for (done good_file) (Some (py "/entry")) (py "NXDL group in data file"))
    = [(OPTIONAL, py "not found:  in /entry/data"); (OPTIONAL, py "not found:  in /entry/sample")].
Proof. split; vm_compute; reflexivity. Qed.

(** ** C29: every child *)
Theorem C29_child : forall u w v fname v', validate u w v fname = (v', Ok tt) ->
  forall i it h cls, catalogued_group w v' i it h -> has_class (u_env u) w it h cls ->
  forall d, dget cls (st_classes (v_st v)) = Some d -> forall n, In n (map fst (links_of w h)) ->
  exists f, child_finding w h d n f /\ In f (st_find (v_st v')).
Proof. exact group_child_any. Qed.
Print Assumptions C29_child.

(** with hard and soft links: it is the only one at the child's address *)
Theorem C29_one : forall u w v fname v' f, validate u w v fname = (v', Ok tt) ->
  dget fname w = Some (FHdf5 f) -> plain_file f -> distinct_names f ->
  forall i it h cls d n, catalogued_group w v' i it h -> has_class (u_env u) w it h cls ->
  dget cls (st_classes (v_st v)) = Some d -> In n (map fst (links_of w h)) ->
  exists fd, child_finding w h d n fd /\ findings_for v' (f_addr fd) (f_test fd) = [fd].
Proof. exact plain_child. Qed.
Print Assumptions C29_one.

Example C29_case : plain_file good_file /\ distinct_names good_file
  /\ map f_comment (findings_for (done good_file) (Some (py "/entry/title")) (py "field in base class")) = [py "defined: NXentry/title"]
  /\ map f_comment (findings_for (done good_file) (Some (py "/entry/Data")) (py "group in base class")) = [py "not defined: NXentry/Data"].
Proof.
  split; [apply plainb_ok; vm_compute; reflexivity|]. split; [apply distinctb_ok; vm_compute; reflexivity|]. split; vm_compute; reflexivity.
Qed.

(** ** C30: known and unknown classes *)
Theorem C30_unknown : forall u w v fname v', validate u w v fname = (v', Ok tt) ->
  forall i it h cls, catalogued_group w v' i it h -> has_class (u_env u) w it h cls ->
  dget cls (st_classes (v_st v)) = None ->
  (exists later, findings_for v' (it_addr it) (py "known NXDL")
     = mkF (it_addr it) (py "known NXDL") ERROR (cls ++ py ": recognized NXDL specification") :: later)
  /\ findings_for v' (it_addr it) (py "NeXus base class")
     = [mkF (it_addr it) (py "NeXus base class") ERROR (py "unknown NeXus base class: " ++ cls)].
Proof. exact group_unknown. Qed.
Print Assumptions C30_unknown.

Theorem C30_known : forall u w v fname v', validate u w v fname = (v', Ok tt) ->
  forall i it h cls, catalogued_group w v' i it h -> has_class (u_env u) w it h cls ->
  forall d, dget cls (st_classes (v_st v)) = Some d ->
  (exists later, findings_for v' (it_addr it) (py "known NXDL")
     = mkF (it_addr it) (py "known NXDL") OK (cls ++ py ": recognized NXDL specification") :: later)
  /\ exists cm, base_class_text d cls cm /\ findings_for v' (it_addr it) (py "NeXus base class") =
       [mkF (it_addr it) (py "NeXus base class") (if str_eqb (d_category d) (py "applications") then ERROR else OK) cm;
        mkF (it_addr it) (py "NeXus base class") TODO (cls ++ py ": more validations needed")].
Proof. exact group_known. Qed.
Print Assumptions C30_known.

(** items 1 and 3 of [unknown_file] are /entry (an application definition) and /odd (unknown) *)
Example C30_case :
  validate setup0 (world_of unknown_file) (new_validator classes0) fn = (done unknown_file, Ok tt)
  /\ (catalogued_group (world_of unknown_file) (done unknown_file) 3 (item_of unknown_file 3) (handle_of unknown_file 3)
      /\ it_addr (item_of unknown_file 3) = Some (py "/odd")
      /\ has_class (u_env setup0) (world_of unknown_file) (item_of unknown_file 3) (handle_of unknown_file 3) (py "NXodd")
      /\ dget (py "NXodd") (st_classes (v_st (new_validator classes0))) = None)
  /\ map f_status (findings_for (done unknown_file) (Some (py "/entry")) (py "NeXus base class")) = [ERROR; TODO].
Proof.
  split; [vm_compute; reflexivity|]. split; [|vm_compute; reflexivity].
  split; [apply catalogued_groupb_ok; vm_compute; reflexivity|]. split; [vm_compute; reflexivity|]. split; [|vm_compute; reflexivity].
  right. split; [vm_compute; discriminate|]. split; [vm_compute; discriminate|].
  exists (str "NXodd"), (py "odd"). split; [vm_compute; reflexivity|]. split; vm_compute; reflexivity.
Qed.

(** ** C31: which classes are accepted for groups *)
Theorem C31_partial : forall cl n,
  (dget n cl = None -> usedAsBaseClass cl n = Ok false)
  /\ (forall d, dget n cl = Some d -> d_category d = py "applications" -> usedAsBaseClass cl n = Ok false)
  /\ (forall d, dget n cl = Some d -> d_category d = py "base_classes" -> usedAsBaseClass cl n = Ok true)
  /\ (forall d, dget n cl = Some d -> d_category d = py "contributed_definitions" ->
        (usedAsBaseClass cl n = Ok true /\ ~ (d_fields d = [] /\ d_links d = [] /\ List.length (d_groups d) = 1))
        \/ (usedAsBaseClass cl n = Exn TypeError /\ d_fields d = [] /\ d_links d = [] /\ List.length (d_groups d) = 1)).
Proof. exact used_as_base_class. Qed.
Print Assumptions C31_partial.

(** the classification fails for a contributed definition with a single group *)
Theorem C31_refuted : exists cl n d, dget n cl = Some d /\ d_category d = py "contributed_definitions" /\ usedAsBaseClass cl n = Exn TypeError
  /\ snd (validate setup0 (world_of single_file) (new_validator cl) fn) = Exn TypeError.
Proof.
  exists single_group_class, (py "NXsingle"). eexists. split; [vm_compute; reflexivity|]. split; [vm_compute; reflexivity|]. split; vm_compute; reflexivity.
Qed.
Print Assumptions C31_refuted.

(** groups whose class is an application definition get an ERROR finding, those of a base class an OK one *)
Theorem C31_groups : forall u w v fname v', validate u w v fname = (v', Ok tt) ->
  forall i it h cls, catalogued_group w v' i it h -> has_class (u_env u) w it h cls ->
  forall d, dget cls (st_classes (v_st v)) = Some d ->
  exists f rest, findings_for v' (it_addr it) (py "NeXus base class") = f :: rest
    /\ (d_category d = py "applications" -> f_status f = ERROR) /\ (d_category d = py "base_classes" -> f_status f = OK).
Proof. exact group_category. Qed.
Print Assumptions C31_groups.

Example C31_case : usedAsBaseClass classes0 (py "NXentry") = Ok true /\ usedAsBaseClass classes0 (py "NXtest") = Ok false
  /\ usedAsBaseClass classes0 (py "NXodd") = Ok false
  /\ usedAsBaseClass (classes0 ++ [def0 "NXmore" "contributed_definitions" [] [field0 "a" []] [group0 "entry"]]) (py "NXmore") = Ok true.
Proof. repeat split; vm_compute; reflexivity. Qed.

(** ** C71: attributes of groups *)
Theorem C71_attribute : forall u w v fname v', validate u w v fname = (v', Ok tt) ->
  forall i it h cls, catalogued_group w v' i it h -> has_class (u_env u) w it h cls ->
  forall d, dget cls (st_classes (v_st v)) = Some d -> forall k val, In (k, val) (attrs_of w h) ->
  exists fs, attribute_report (u_env u) w it h d (k, val) fs /\ forall f, In f fs -> In f (st_find (v_st v')).
Proof. exact group_attribute_any. Qed.
Print Assumptions C71_attribute.

Example C71_case :
  map (fun f => (f_status f, f_comment f)) (findings_for (done good_file) (Some (py "/entry@default")) (py "known attribute"))
    = [(OK, py "known: NXentry@default")]
  /\ map (fun f => (f_status f, f_comment f)) (findings_for (done good_file) (Some (py "/entry@default")) (py "value of @default"))
    = [(OK, py "found: /entry/Data")].
Proof. split; vm_compute; reflexivity. Qed.
