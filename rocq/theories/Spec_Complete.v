(** * Specification of the files that are validated to the end *)

From Coq Require Import List NArith ZArith Bool String.
From Verif Require Import PyBase Regex H5 Findings Nxdl Core AttributeCheck Validate Spec_Number Spec_Run Spec_Catalog Spec_Attributes Spec_AppDef.
Import ListNotations.

Definition as_text (E : env) (v : pyval) (s : pystr) : Prop := decode_byte_string E v = Ok (VStr s).

(** ** The file set *)
(** the patterns of the schema compile, and there is one for class names *)
Definition good_patterns (u : setup) : Prop :=
  Forall compiles (ctx_patterns u) /\ exists l, class_patterns u = Some l /\ l <> [] /\ Forall compiles l.

(** a definition that groups can be checked against: a contributed one has more than
    one group, or fields or links; there is no @target; minOccurs of groups are numbers *)
Definition good_definition (E : env) (d : nxdef) : Prop :=
  (d_category d = py "applications" \/ d_category d = py "base_classes" \/ d_fields d <> [] \/ d_links d <> [] \/ List.length (d_groups d) <> 1)
  /\ ~ In (py "target") (map fst (d_attrs d))
  /\ forall n g a, In (n, g) (d_groups d) -> dget (py "minOccurs") (g_attrs g) = Some a -> exists s z, a = GAText s /\ whole_number E s z.

Definition good_classes (E : env) (cl : classes) : Prop :=
  (forall n d, dget n cl = Some d -> good_definition E d)
  /\ exists d g, dget (py "NXentry") cl = Some d /\ dget (py "data") (d_groups d) = Some g.

(** ** The attributes of an object *)
(** the class whose definition a group is checked against *)
Definition class_of (E : env) (w : world) (fname : pystr) (h : handle) (cls : pystr) : Prop :=
  (h = open_root fname /\ cls = py "NXroot") \/ nexus_class E (attrs_of w h) cls.

Record good_attribute (E : env) (w : world) (fname : pystr) (cl : classes) (h : handle) (k : pystr) (v : pyval) : Prop := {
  ga_name : ~ In 64%N k;
  ga_decodes : exists x, decode_byte_string E v = Ok x;
  (* the check of its value works *)
  ga_checkable : Spec_Attributes.checkable E w h v k;
  (* @default and @signal of groups are texts *)
  ga_text : is_group_obj w h = true -> k = py "default" \/ k = py "signal" -> exists s, as_text E v s;
  (* so are attributes for which the class of the group enumerates the values *)
  ga_enum : forall cls d spec, is_group_obj w h = true -> class_of E w fname h cls -> dget cls cl = Some d -> dget k (d_attrs d) = Some spec ->
    na_enums spec <> [] -> exists s, as_text E v s;
  (* @signal of an NXdata group is the name of a member, there or not *)
  ga_signal : is_group_obj w h = true -> k = py "signal" -> nexus_class E (attrs_of w h) (py "NXdata") -> forall s, as_text E v s -> link_name s
}.

(** ** The definition an entry follows *)
Definition good_definition_field (E : env) (w : world) (cl : classes) (h : handle) : Prop :=
  exists name, follows E w h name
    /\ (dget name cl = None
        \/ exists d k entry rest, dget name cl = Some d /\ d_groups d = (k, entry) :: rest
             /\ forall field spec, In (field, spec) (g_fields entry) -> link_name field
                  /\ (nf_enums spec <> [] -> exists t x, getitem w h field = Ok t /\ dataset_value E w t x /\ (enumerated spec x \/ ~ In None (nf_enums spec)))).

(** ** The file *)
Record ready (u : setup) (w : world) (fname : pystr) (f : h5file) (cl : classes) : Prop := {
  (* an HDF5 file without external links, all of whose links lead somewhere, without
     cycles; no '@' in names *)
  rd_file : dget fname w = Some (FHdf5 f);
  rd_root : is_group f 0;
  rd_plain : plain_file f;
  rd_distinct : distinct_names f;
  rd_names : no_at_names f;
  rd_open : all_open w fname;
  rd_shallow : shallow w fname (u_reclimit u);
  (* the file set *)
  rd_patterns : good_patterns u;
  rd_classes : good_classes (u_env u) cl;
  (* attributes *)
  rd_attributes : forall h k v, reachable w fname h -> In (k, v) (attrs_of w h) -> good_attribute (u_env u) w fname cl h k v;
  (* classes of groups: no '/' and no '@'; nothing else is called NXdata *)
  rd_class_names : forall h s, reachable w fname h -> nexus_class (u_env u) (attrs_of w h) s -> ~ In 47%N s /\ ~ In 64%N s;
  rd_fields : forall g n h, reachable w fname g -> member w g n h -> isHdf5Group w h = false -> n <> py "NXdata";
  (* an entry or subentry with a field "definition" *)
  rd_definitions : forall g h, reachable w fname g ->
    nexus_class (u_env u) (attrs_of w g) (py "NXentry") \/ nexus_class (u_env u) (attrs_of w g) (py "NXsubentry") ->
    member w g (py "definition") h -> isHdf5Group w h = false -> good_definition_field (u_env u) w cl g
}.
