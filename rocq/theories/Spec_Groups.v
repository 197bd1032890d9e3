(** * Specification of the group checks *)

From Coq Require Import List NArith Bool String Permutation.
From Verif Require Import PyBase H5 Findings Nxdl Core Validate Spec_Run Spec_Catalog.
Import ListNotations.

(** the address catalogue of [v] has item [it], number [i], under its address; it
    is the open group (or file) [h] *)
Definition catalogued_group (w : world) (v : validator) (i : nat) (it : vitem) (h : handle) : Prop :=
  In (it_addr it, i) (st_addr (v_st v)) /\ nth_error (st_items (v_st v)) i = Some it /\ it_obj it = ONode h /\ is_group_obj w h = true.

(** the NXDL class the group is to be compared with: NXroot for a root group, else its NX_class *)
Definition has_class (E : env) (w : world) (it : vitem) (h : handle) (cls : pystr) : Prop :=
  (it_cp it = [] /\ cls = py "NXroot") \/ (it_cp it <> [] /\ it_cp it <> non_nexus /\ nexus_class E (attrs_of w h) cls).

(** [name in group] *)
Definition has_item (w : world) (h : handle) (name : pystr) : Prop := py_in w h (VStr name) = Ok true.

(** the address of a member of the group at [addr]; a group whose address ends with "/"
    (the root) gets no second one *)
Definition member_address (addr name p : pystr) : Prop :=
  ((exists r, addr = r ++ py "/") /\ p = addr ++ name) \/ (~ (exists r, addr = r ++ py "/") /\ p = addr ++ py "/" ++ name).

(** one field or group of the class; [place] is how the comment names it *)
Definition nxdl_item_finding (place : pystr -> pystr -> pystr -> Prop) (w : world) (h : handle) (a : option pystr) (test : pystr) (name : pystr)
  (f : finding) : Prop :=
  exists addr p, a = Some addr /\ place addr name p
    /\ ((has_item w h name /\ f = mkF a test OK (py "found: " ++ p)) \/ (~ has_item w h name /\ f = mkF a test OPTIONAL (py "not found: " ++ p))).

Definition nxdl_field_finding (w : world) (h : handle) (a : option pystr) : pystr -> finding -> Prop :=
  nxdl_item_finding member_address w h a (py "NXDL field in data file").

(** "not found:  in /entry/data"; the root group's address does get a second "/" here *)
Definition nxdl_group_finding (w : world) (h : handle) (a : option pystr) : pystr -> finding -> Prop :=
  nxdl_item_finding (fun addr name p => p = py " in " ++ addr ++ py "/" ++ name) w h a (py "NXDL group in data file").

(** one child of the group *)
Definition defined_text (yes : Prop) (d : nxdef) (name cm : pystr) : Prop :=
  (yes /\ cm = py "defined: " ++ d_title d ++ py "/" ++ name) \/ (~ yes /\ cm = py "not defined: " ++ d_title d ++ py "/" ++ name).

Inductive child_finding (w : world) (h : handle) (d : nxdef) (name : pystr) : finding -> Prop :=
| cf_field : forall obj cm, member w h name obj -> isHdf5Dataset w obj = true -> defined_text (In name (map fst (d_fields d))) d name cm ->
    child_finding w h d name (mkF (Some (h_name obj)) (py "field in base class") OK cm)
| cf_group : forall obj cm, member w h name obj -> isHdf5Group w obj = true -> defined_text (In name (map fst (d_groups d))) d name cm ->
    child_finding w h d name (mkF (Some (h_name obj)) (py "group in base class") OK cm)
| cf_other : forall obj, member w h name obj -> isHdf5Dataset w obj = false -> isHdf5Group w obj = false ->
    child_finding w h d name (mkF (Some (h_name obj)) (py "unhandled: group_items_in_base_class") TODO (py "TODO: ")).

(** one attribute of the group *)
Definition known_text (d : nxdef) (k cm : pystr) : Prop :=
  ((In k (map fst (d_attrs d)) \/ k = py "NX_class") /\ cm = py "known: " ++ d_title d ++ py "@" ++ k)
  \/ (~ In k (map fst (d_attrs d)) /\ k <> py "NX_class" /\ cm = py "unknown: " ++ d_title d ++ py "@" ++ k).

Definition enumeration_findings (a : option pystr) (spec : nxattr) (v : pyval) (fs : list finding) : Prop :=
  (na_enums spec = [] /\ fs = [])
  \/ (na_enums spec <> [] /\ exists s st cm, v = VStr s /\ fs = [mkF a (py "attribute value enumeration") st cm]
        /\ ((st = OK /\ In s (na_enums spec) /\ cm = py "found: " ++ s) \/ (st = ERROR /\ ~ In s (na_enums spec) /\ cm = py "not found: " ++ s))).

(** @default of a root, entry or subentry group, and @signal, name a member *)
Definition names_member (it : vitem) (k : pystr) : Prop :=
  (k = py "default" /\ (it_cp it = [] \/ it_cp it = py "/NXentry" \/ it_cp it = py "/NXentry/NXsubentry")) \/ k = py "signal".

Definition value_findings (w : world) (it : vitem) (h : handle) (a : option pystr) (k : pystr) (v : pyval) (fs : list finding) : Prop :=
  (names_member it k /\ exists s st cm addr p, v = VStr s /\ fs = [mkF a (py "value of @" ++ k) st cm]
     /\ it_addr it = Some addr /\ member_address addr s p
     /\ ((st = OK /\ has_item w h s /\ cm = py "found: " ++ p) \/ (st = ERROR /\ ~ has_item w h s /\ cm = py "not found: " ++ p)))
  \/ (k = py "axes" /\ fs = [])
  \/ (~ names_member it k /\ k <> py "axes" /\ k <> py "target"
      /\ fs = [mkF a (py "value of @" ++ k) TODO (py "TODO: need to validate: @" ++ k ++ py " = " ++ py_str v)]).

Definition attribute_report (E : env) (w : world) (it : vitem) (h : handle) (d : nxdef) (kv : pystr * pyval) (fs : list finding) : Prop :=
  exists addr dv cm rest, let a := Some (addr ++ 64%N :: fst kv) in
    it_addr it = Some addr /\ decode_byte_string E (snd kv) = Ok dv
    /\ known_text d (fst kv) cm /\ fs = mkF a (py "known attribute") OK cm :: rest
    /\ match dget (fst kv) (d_attrs d) with
       | None => rest = []
       | Some spec => exists r1 r2, rest = r1 ++ r2 /\ enumeration_findings a spec dv r1 /\ value_findings w it h a (fst kv) dv r2
       end.

(** is the class one for groups (a base class, or a contributed definition used like one)? *)
Definition base_class_text (d : nxdef) (cls cm : pystr) : Prop :=
  (d_category d = py "base_classes" /\ cm = cls ++ py ": known NeXus base class")
  \/ (d_category d <> py "base_classes" /\ cm = cls ++ py ": known NeXus contributed definition used as base class").

(** all findings of the check of one group against its class *)
Inductive group_report (E : env) (w : world) (cl : classes) (it : vitem) (h : handle) : list finding -> Prop :=
| gr_other : it_cp it = non_nexus -> group_report E w cl it h [mkF (it_addr it) (py "NeXus_group") OK (py "not a NeXus group")]
| gr_unknown : forall cls, has_class E w it h cls -> dget cls cl = None ->
    group_report E w cl it h [mkF (it_addr it) (py "known NXDL") ERROR (cls ++ py ": recognized NXDL specification");
                              mkF (it_addr it) (py "NeXus base class") ERROR (py "unknown NeXus base class: " ++ cls)]
| gr_known : forall cls d cm attrs children fields groups fnames gnames anames, has_class E w it h cls -> dget cls cl = Some d ->
    base_class_text d cls cm ->
    Permutation anames (attrs_of w h) -> Forall2 (attribute_report E w it h d) anames attrs ->
    Forall2 (child_finding w h d) (map fst (links_of w h)) children ->
    Permutation fnames (map fst (d_fields d)) ->
    Forall2 (nxdl_field_finding w h (it_addr it)) fnames fields ->
    Permutation gnames (map fst (d_groups d)) ->
    Forall2 (nxdl_group_finding w h (it_addr it)) gnames groups ->
    group_report E w cl it h
      ([mkF (it_addr it) (py "known NXDL") OK (cls ++ py ": recognized NXDL specification");
        mkF (it_addr it) (py "NeXus base class") (if str_eqb (d_category d) (py "applications") then ERROR else OK) cm]
       ++ List.concat attrs ++ children ++ fields ++ groups
       ++ [mkF (it_addr it) (py "NeXus base class") TODO (cls ++ py ": more validations needed")]).

(** what step 2 of a validation records for one entry of the address catalogue *)
Definition entry_report (E : env) (w : world) (cl : classes) (it : vitem) (fs : list finding) : Prop :=
  (exists h, it_obj it = ONode h /\ (is_group_obj w h = true \/ h_isfile h = true) /\ group_report E w cl it h fs)
  \/ ((forall h, it_obj it = ONode h -> is_group_obj w h = false /\ h_isfile h = false) /\ fs = []).
