(** * Specification of the application definition checks *)

From Coq Require Import List NArith ZArith Bool String.
From Verif Require Import PyBase H5 Findings Nxdl Core Catalog Validate Spec_Run Spec_Catalog Spec_Attributes.
Import ListNotations.

(** the items that are definition fields of entries or subentries, in the order of the catalogue *)
Definition items_at (v : validator) (cp : pystr) : list nat :=
  match dget cp (st_cp (v_st v)) with Some l => l | None => [] end.
Definition definition_items (v : validator) : list nat :=
  items_at v (py "/NXentry/definition") ++ items_at v (py "/NXentry/NXsubentry/definition").

(** item [pit] is the item that item [i] was found in *)
Definition found_in (v : validator) (i : nat) (pit : vitem) : Prop :=
  exists it p, nth_error (st_items (v_st v)) i = Some it /\ it_parent it = Some p /\ nth_error (st_items (v_st v)) p = Some pit.

(** the value of dataset [h], its first element if it is an array, decoded *)
Inductive first_element : pyval -> pyval -> Prop :=
| fe_texts : forall s l, first_element (VArrO (s :: l)) (VStr s)
| fe_list : forall s l, first_element (VList (s :: l)) (VStr s)
| fe_bytes : forall b l, first_element (VArrS (b :: l)) (VBytes b)
| fe_numbers : forall r l, first_element (VArrNum (r :: l)) (VFloat r)
| fe_one : forall v, match v with VArrO _ | VList _ | VArrS _ | VArrNum _ => False | _ => True end -> first_element v v.
Definition dataset_value (E : env) (w : world) (h : handle) (x : pyval) : Prop :=
  exists o val first, obj_of w h = Some o /\ ob_kind o = KDataset val /\ first_element val first /\ decode_byte_string E first = Ok x.

(** the group [h] says that it follows the definition [name] *)
Definition follows (E : env) (w : world) (h : handle) (name : pystr) : Prop :=
  is_group_obj w h = true /\ exists dh x, getitem w h (py "definition") = Ok dh /\ dataset_value E w dh x /\ name = py_str x.

(** the value [x] is one of those enumerated *)
Definition enumerated (spec : nxfield) (x : pyval) : Prop := exists s, x = VStr s /\ In (Some s) (nf_enums spec).

(** the address of findings about a field that is missing *)
Definition missing_address (it : vitem) : option pystr :=
  if str_eqb (it_cp it) non_nexus then None else Some ((match it_addr it with Some a => a | None => py "None" end) ++ py "@None").

Definition field_finding (ad field : pystr) (it : vitem) (fh : option handle) (f : finding) : Prop :=
  match fh with
  | Some t => f = mkF (Some (h_name t)) (py "NXDL field") OK (ad ++ py ":" ++ field ++ py " found")
  | None => f = mkF (missing_address it) (py "NXDL field") ERROR (ad ++ py ":" ++ field ++ py " not found")
  end.

(** what the finding about an enumerated field begins with; [mo] is what the validator takes for the minOccurs of fields *)
Definition enumeration_text (mo : option Z) (ad field : pystr) : pystr :=
  ad ++ py ":" ++ field ++ (match mo with Some 1%Z => py " (required)" | _ => py " (optional)" end).

Definition enumeration_report (E : env) (w : world) (mo : option Z) (ad field : pystr) (spec : nxfield) (fh : option handle) (fs : list finding) : Prop :=
  (nf_enums spec = [] /\ fs = [])
  \/ exists t x st cm, nf_enums spec <> [] /\ fh = Some t /\ dataset_value E w t x /\ fs = [mkF (Some (h_name t)) (py "NXDL field enumerations") st cm]
       /\ ((st = OK /\ exists s, x = VStr s /\ In (Some s) (nf_enums spec) /\ cm = enumeration_text mo ad field ++ py " has expected value: " ++ s)
           \/ (st = ERROR /\ ~ enumerated spec x
               /\ exists texts, nf_enums spec = map Some texts /\ cm = enumeration_text mo ad field ++ py " does not have value: " ++ join (py " | ") texts)).

(** the findings about one field of the definition *)
Definition field_report (E : env) (w : world) (mo : option Z) (ad : pystr) (it : vitem) (h : handle) (fs : pystr * nxfield) (l : list finding) : Prop :=
  exists fh f e, getopt w h (fst fs) = Ok fh /\ field_finding ad (fst fs) it fh f /\ enumeration_report E w mo ad (fst fs) (snd fs) fh e /\ l = f :: e.

Definition known_test : pystr := py "known NXDL".
Definition definition_test : pystr := py "NeXus application definition".

(** the findings about the group item [it] and the definition it follows *)
Inductive definition_report (E : env) (w : world) (mo : option Z) (cl : classes) (it : vitem) : list finding -> Prop :=
| dr_unknown : forall h name, it_obj it = ONode h -> follows E w h name -> dget name cl = None ->
    definition_report E w mo cl it [mkF (it_addr it) known_test ERROR (name ++ py ": unrecognized NXDL specification")]
| dr_known : forall h name d k entry rest st cm fss, it_obj it = ONode h -> follows E w h name -> dget name cl = Some d ->
    d_groups d = (k, entry) :: rest ->
    (st = OK /\ d_category d = py "applications" /\ cm = py ": known NeXus application definition"
     \/ st = OK /\ d_category d = py "contributed_definitions" /\ cm = py ": known NeXus contributed definition used as application definition"
     \/ st = ERROR /\ d_category d <> py "applications" /\ d_category d <> py "contributed_definitions" /\ cm = py ": unknown application definition") ->
    Forall2 (field_report E w mo name it h) (g_fields entry) fss ->
    definition_report E w mo cl it
      (mkF (it_addr it) known_test OK (name ++ py ": recognized NXDL specification")
       :: mkF (it_addr it) definition_test st (name ++ cm)
       :: mkF (it_addr it) definition_test TODO (name ++ py ": more validations needed") :: List.concat fss).

(** ... of which those of the test "NXDL field" *)
Inductive fields_report (E : env) (w : world) (cl : classes) (it : vitem) : list finding -> Prop :=
| fr_unknown : forall h name, it_obj it = ONode h -> follows E w h name -> dget name cl = None -> fields_report E w cl it []
| fr_known : forall h name d k entry rest fs, it_obj it = ONode h -> follows E w h name -> dget name cl = Some d -> d_groups d = (k, entry) :: rest ->
    Forall2 (fun ns f => exists fh, getopt w h (fst ns) = Ok fh /\ field_finding name (fst ns) it fh f) (g_fields entry) fs ->
    fields_report E w cl it fs.

(** ** When the check completes *)
Definition field_checkable (E : env) (w : world) (it : vitem) (h : handle) (field : pystr) (spec : nxfield) : Prop :=
  exists fh, getopt w h field = Ok fh
    /\ (forall t, fh = Some t -> exists vi, node_item E w (Some (0, it)) t = Ok vi)
    /\ (nf_enums spec <> [] -> exists t x, fh = Some t /\ dataset_value E w t x /\ (enumerated spec x \/ ~ In None (nf_enums spec))).

Definition checkable (E : env) (w : world) (cl : classes) (it : vitem) : Prop :=
  exists h name, it_obj it = ONode h /\ follows E w h name
    /\ (dget name cl = None
        \/ exists d k entry rest, dget name cl = Some d /\ d_groups d = (k, entry) :: rest
             /\ forall field spec, In (field, spec) (g_fields entry) -> field_checkable E w it h field spec).
