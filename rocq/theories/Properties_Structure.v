(** * Properties of the data types and of the structures of a schema (C133, C134) *)

From Coq Require Import List NArith ZArith Bool String Lia.
From Verif Require Import PyBase PyFacts H5 Cache SchemaMgr ShippedXsd Samples Spec_Run Spec_Schema SchemaFacts Spec_Structure StructureFacts Properties_Schema.
Import ListNotations.
Open Scope string_scope.
Open Scope list_scope.

(** ** C133 *)
(** Whatever was loaded before, a manager holds of the data types exactly those that the
    directory's nxdlTypes.xsd declares by name, without the two auxiliary ones, each as its
    last declaration says; and the values of the one called anyUnitsAttr as unit categories. *)
Theorem C133_types : forall E fuel h d attrs children m,
  seen E fuel h d = Ok (attrs, children, m) ->
  exists types, xd_types d = Some types
    /\ (forall nm tag a k, nm <> py "anyUnitsAttr" -> nm <> py "primitiveType" -> last_of (type_called nm) types (SN tag a k) ->
          exists t, dget nm (sm_types m) = Some t /\ ty_name t = Some nm /\ type_says k t)
    /\ (forall nm, nm = py "anyUnitsAttr" \/ nm = py "primitiveType" \/ none_of (type_called nm) types -> dget nm (sm_types m) = None)
    /\ (exists tag a k t, last_of (type_called (py "anyUnitsAttr")) types (SN tag a k) /\ type_says k t
          /\ sm_units m = match ty_values t with Some v => v | None => [] end)
    /\ (exists n, last_of (type_called (py "primitiveType")) types n).
Proof.
  intros E fuel h d attrs children m H. unfold seen in H.
  destruct (schema_manager E fuel d (loads E fuel h)) as [g [x|]] eqn:M; [|discriminate]. injection H as <- <- <-.
  destruct (manager_spec _ _ _ _ _ _ M) as (root & el & ty & nm & t & s & _ & _ & _ & _ & _ & _ & _ & P & _).
  destruct (xd_types d) as [types|]; [|discriminate]. exists types. split; [auto|]. apply types_spec. auto.
Qed.
Print Assumptions C133_types.

Definition type_seen (nm : pystr) (r : res (dict sattr * dict sobj * smanager)) : option stype :=
  match r with Ok (_, _, m) => dget nm (sm_types m) | Exn _ => None end.

(** of the file set v2018.5, a union and a restriction without values *)
Example C133_case :
  type_seen (py "NX_FLOAT") (seen env0 100 [dir_3_3] dir_2018_5)
    <> None
  /\ type_seen (py "NX_NUMBER") (seen env0 100 [dir_3_3] dir_2018_5)
    = Some (mkTy (Some (py "NX_NUMBER")) None (Some [py "NX_INT"; py "NX_UINT"; py "NX_POSINT"; py "NX_FLOAT"]) None)
  /\ type_seen (py "NX_UNITLESS") (seen env0 100 [dir_3_3] dir_2018_5)
    = Some (mkTy (Some (py "NX_UNITLESS")) (Some (py "string")) None (Some []))
  /\ type_seen (py "primitiveType") (seen env0 100 [dir_3_3] dir_2018_5) = None
  /\ (exists tag a k, last_of (type_called (py "NX_NUMBER")) nxdlTypes_v2018_5 (SN tag a k)).
Proof.
  split; [vm_compute; discriminate|]. split; [vm_compute; reflexivity|]. split; [vm_compute; reflexivity|]. split; [vm_compute; reflexivity|].
  destruct (last_or_none _ (type_called_dec (py "NX_NUMBER")) nxdlTypes_v2018_5) as [[x L]|N].
  - destruct x as [|tag a k]; [destruct (last_P _ _ _ L) as [[(t & a & k & E & _) _] _]; congruence|eauto].
  - exfalso. assert (T : exists n, In n nxdlTypes_v2018_5 /\ type_called (py "NX_NUMBER") n).
    { destruct (find (fun n => match n with SN _ a _ => match dget (py "name") a with Some v => str_eqb v (py "NX_NUMBER") | None => false end | SComment => false end) nxdlTypes_v2018_5) as [n|] eqn:F; [|vm_compute in F; discriminate].
      exists n. split; [eapply find_some; eauto|]. vm_compute in F. injection F as <-. split; [do 3 eexists; split; reflexivity|].
      intros (a & k & E). discriminate. }
    destruct T as (n & I & C). exact (N n I C).
Qed.

(** ** C134 *)
(** What XML Schema means by a type that is written inside an element: all its attributes.
    The program keeps the first: in the file set v2018.5 the element "dim" has lost
    "value", "ref" and three more. *)
Definition child_of (k : pystr) (o : option sobj) : option sobj :=
  match o with Some (SElem _ _ _ c) => dget k c | _ => None end.
Definition inline_attribute (el : snode) (a : snode) : Prop :=
  dget (py "type") (s_attrib el) = None /\ element (py "attribute") a /\ In a (inside (py "complexType") (s_kids el)).
Theorem C134_refuted : exists t s el a attrs,
  only_named nxdl_v2018_5 (py "dimensionsType") t /\ states nxdl_v2018_5 InType (s_kids t) s
  /\ last_of (child_called (py "dim")) s (StChild el) /\ inline_attribute el a /\ key_of a = py "ref"
  /\ child_of (py "dim") (child_of (py "dimensions") (child_seen (py "field") (seen env0 100 [] dir_2018_5)))
     = Some (SElem (Some (py "dim")) None attrs [])
  /\ dkeys attrs = [py "index"].
Proof.
  assert (T : exists t, get_named_node nxdl_v2018_5 None (py "dimensionsType") = Ok t) by (eexists; vm_compute; reflexivity).
  destruct T as [t T]. pose proof (named_only _ _ _ T) as ON. vm_compute in T. injection T as <-.
  eexists. eexists. eexists. eexists. eexists. split; [exact ON|]. split.
  { cbn [s_kids]. repeat (first [ apply st_end | apply st_sequence | apply st_nothing; [right; left; do 2 eexists; reflexivity|]
      | apply st_nothing; [left; reflexivity|] | apply st_attribute | apply st_child; [left; reflexivity|] ]). }
  split.
  { cbn [app]. apply last_there. apply last_here; [eexists; split; reflexivity|]. intros y I (n & -> & K).
    destruct I as [I|[]]. discriminate I. }
  split; [split; [reflexivity|]; split; [eexists; eexists; reflexivity|]; right; right; left; reflexivity|].
  split; [reflexivity|]. split; [vm_compute; reflexivity|reflexivity].
Qed.
Print Assumptions C134_refuted.

(** Otherwise, whatever was loaded before: the schema has one root element, whose type is
    the one complexType of that name; that type states attributes and children, by itself
    and by what it refers to, in an order; and the last one stated of each name is kept, as
    it is declared, over what was kept from the loads before.  So it is for the children,
    and theirs, with nothing kept before.  A group is not read again once one was read. *)
Theorem C134_partial : forall E fuel h d attrs children m,
  seen E fuel h d = Ok (attrs, children, m) ->
  exists root el ty nm t s, xd_nxdl d = Some root
    /\ only_one (element (py "element")) root el
    /\ dget (py "type") (s_attrib el) = Some ty /\ after_colon ty nm
    /\ only_one (fun n => element (py "complexType") n /\ called nm n) root t
    /\ states root InRoot (s_kids t) s
    /\ keeps_attrs (sh_attrs (loads E fuel h)) s attrs
    /\ keeps_children (element_says root (sh_started (loads E fuel h))) (sh_children (loads E fuel h)) s children
    /\ sm_schema_types m = children.
Proof.
  intros E fuel h d attrs children m H. unfold seen in H.
  destruct (schema_manager E fuel d (loads E fuel h)) as [g [x|]] eqn:M; [|discriminate]. injection H as <- <- <-.
  destruct (manager_spec _ _ _ _ _ _ M) as (root & el & ty & nm & t & s & X & O & T & AC & ON & St & [A C] & _ & Sc).
  exists root, el, ty, nm, t, s. repeat (split; [assumption|]). exact Sc.
Qed.
Print Assumptions C134_partial.

(** What a type states is one thing. *)
Theorem C134_one_partial : forall root p l s s', states root p l s -> states root p l s' -> s = s'.
Proof. intros root p l s s' H H'. exact (states_unique _ _ _ _ H _ H'). Qed.
Print Assumptions C134_one_partial.

Definition attrs_of_child (o : option sobj) : list pystr := match o with Some (SElem _ _ a _) => dkeys a | _ => [] end.
Definition attr_of_child (k : pystr) (o : option sobj) : option sattr := match o with Some (SElem _ _ a _) => dget k a | _ => None end.
Example C134_case :
  (* a field: of its base, of the attribute group its base refers to, of its own *)
  attrs_of_child (child_seen (py "field") (seen env0 100 [] dir_2018_5))
    = [py "name"; py "deprecated"; py "units"; py "long_name"; py "signal"; py "axes"; py "axis";
       py "primary"; py "type"; py "minOccurs"; py "maxOccurs"; py "stride"; py "data_offset"; py "interpretation"; py "nameType"]
  /\ attr_of_child (py "nameType") (child_seen (py "field") (seen env0 100 [] dir_2018_5))
    = Some (mkSA (Some (py "nameType")) false (py "str") (SText (py "specified")) [py "specified"; py "any"] [])
  /\ sh_started (loads env0 100 []) = false /\ sh_started (loads env0 100 [dir_3_3]) = true.
Proof. repeat split; vm_compute; reflexivity. Qed.

(** an attribute that is true by default *)
Example C134_boolean :
  schema_attribute (SN (py "attribute") [(py "name", py "required"); (py "type", py "nx:NX_BOOLEAN"); (py "default", py "True")] [])
    = Ok (mkSA (Some (py "required")) false (py "nx:NX_BOOLEAN") (SBool true) [] [])
  /\ spells (py "True") (py "true") /\ spells (py "Y") (py "y").
Proof. split; [reflexivity|]. split; repeat (constructor; [first [left; reflexivity|right; split; [split; discriminate|reflexivity]]|]); constructor. Qed.
