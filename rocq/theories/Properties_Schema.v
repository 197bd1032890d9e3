(** * Properties of the XML Schema of a file set (C66-C69, C87, C88) *)

From Coq Require Import List NArith ZArith Bool String Lia.
From Verif Require Import PyBase PyFacts H5 Cache CacheSetFacts SchemaMgr NumberFacts ShippedXsd Samples Spec_Run Spec_Schema SchemaFacts.
Import ListNotations.
Open Scope string_scope.
Open Scope list_scope.

(** ** Samples: the file sets that come with punx *)
Definition dir_2018_5 : xsd_dir := mkXD (Some nxdl_v2018_5) (Some nxdlTypes_v2018_5).
Definition dir_3_3 : xsd_dir := mkXD (Some nxdl_v3_3) (Some nxdlTypes_v3_3).
Definition dir_a4fd52d : xsd_dir := mkXD (Some nxdl_a4fd52d) (Some nxdlTypes_a4fd52d).

Definition keys_seen (r : res (dict sattr * dict sobj * smanager)) : res (list pystr * list pystr) :=
  rmap (fun x => let '(a, c, _) := x in (dkeys a, dkeys c)) r.
Definition child_seen (k : pystr) (r : res (dict sattr * dict sobj * smanager)) : option sobj :=
  match r with Ok (_, c, _) => dget k c | Exn _ => None end.
Definition patterns_seen (r : res (dict sattr * dict sobj * smanager)) : option (list (pystr * list pystr * Z)) :=
  match r with Ok (_, _, m) => Some (map (fun kv => (fst kv, sp_res (snd kv), sp_maxLength (snd kv))) (sm_patterns m)) | Exn _ => None end.

(** all three load, and give the patterns that the validation uses *)
Definition shipped_patterns : option (list (pystr * list pystr * Z)) :=
  Some [(py "validItemName", shipped_item_patterns, 63%Z);
        (py "validNXClassName", shipped_class_patterns, 63%Z);
        (py "validTargetName", [py "(/[a-zA-Z_][\w_]*(:[a-zA-Z_][\w_]*)?)+"], (-1)%Z)].
Example shipped_load_2018_5 : patterns_seen (seen env0 100 [] dir_2018_5) = shipped_patterns.
Proof. vm_compute. reflexivity. Qed.
Example shipped_load_3_3 : patterns_seen (seen env0 100 [] dir_3_3) = shipped_patterns.
Proof. vm_compute. reflexivity. Qed.
Example shipped_load_a4fd52d : patterns_seen (seen env0 100 [] dir_a4fd52d) = shipped_patterns.
Proof. vm_compute. reflexivity. Qed.

(** ** C66 *)
(** Of the file sets that come with punx: after v2018.5 was loaded, v3.3 has a "choice"
    that its own schema does not have, and its "group" has lost its attributes. *)
Theorem C66_refuted :
  child_seen (py "choice") (seen env0 100 [] dir_3_3) = None
  /\ child_seen (py "choice") (seen env0 100 [dir_2018_5] dir_3_3) <> None
  /\ (exists o, child_seen (py "group") (seen env0 100 [] dir_3_3) = Some o
        /\ match o with SElem _ _ attrs _ => dkeys attrs = [py "type"; py "name"; py "minOccurs"; py "maxOccurs"; py "deprecated"] | SRec => False end)
  /\ child_seen (py "group") (seen env0 100 [dir_2018_5] dir_3_3)
     = Some (SElem (Some (py "group")) (Some (py "nx:groupType")) [] [(py "group", SRec)]).
Proof.
  split; [vm_compute; reflexivity|]. split; [vm_compute; discriminate|]. split; [|vm_compute; reflexivity].
  eexists. split; [vm_compute; reflexivity|]. vm_compute. reflexivity.
Qed.
Print Assumptions C66_refuted.

(** What does depend on the directory only, whatever was loaded before: the data types, the
    unit categories and the patterns; and the attributes and the names of the children that
    the schema has.  What it does not have is left from the loads before. *)
Theorem C66_partial : forall E fuel h d attrs0 children0 m0,
  seen E fuel [] d = Ok (attrs0, children0, m0) ->
  exists attrs children m, seen E fuel h d = Ok (attrs, children, m)
    /\ sm_types m = sm_types m0 /\ sm_units m = sm_units m0 /\ sm_patterns m = sm_patterns m0
    /\ (forall k a, dget k attrs0 = Some a -> dget k attrs = Some a)
    /\ (forall k, In k (dkeys children0) -> In k (dkeys children))
    /\ (forall k, ~ In k (dkeys attrs0) -> dget k attrs = dget k (sh_attrs (loads E fuel h)))
    /\ (forall k, ~ In k (dkeys children0) -> dget k children = dget k (sh_children (loads E fuel h))).
Proof.
  intros E fuel h d attrs0 children0 m0 H. unfold seen in *. cbn [loads fold_left] in H.
  change (loads E fuel []) with process_start in H.
  destruct (schema_manager E fuel d process_start) as [g0 [x|]] eqn:M; [|discriminate].
  injection H as <- <- <-.
  destruct (g_manager (loads E fuel h) E fuel d _ _ (beside_start (loads E fuel h)) _ _ M) as (g & m & G & (B1 & B2 & B3) & (S1 & S2 & S3)).
  rewrite G. exists (sh_attrs g), (sh_children g), m. cbn [rmap]. split; [reflexivity|].
  split; [auto|]. split; [auto|]. split; [auto|]. split; [|split; [|split]].
  - intros k a K. rewrite (B2 k), K. auto.
  - intros k K. destruct (dget k (sh_children g)) eqn:F.
    + apply dget_In in F. unfold dkeys. apply in_map_iff. eexists (k, _). split; [reflexivity|exact F].
    + exfalso. apply (proj1 (B3 k)); auto. intros F'. apply dget_None in F'. auto.
  - intros k K. apply dget_None in K. rewrite (B2 k), K. auto.
  - intros k K. apply dget_None in K. apply (proj2 (B3 k)). auto.
Qed.
Print Assumptions C66_partial.

Example C66_partial_case : exists a0 c0 m0 a c m,
  seen env0 100 [] dir_3_3 = Ok (a0, c0, m0) /\ seen env0 100 [dir_2018_5; dir_a4fd52d] dir_3_3 = Ok (a, c, m)
  /\ List.length c0 = 6 /\ List.length c = 7 /\ List.length a0 = 11 /\ List.length (sm_types m0) = 43.
Proof. do 6 eexists. split; [vm_compute; reflexivity|]. split; [vm_compute; reflexivity|]. repeat split. Qed.

(** Once a schema with a group was read, further loads change nothing in what the schema
    of a directory gives. *)
Theorem C66_settled_partial : forall E fuel h h' d attrs0 children0 m0 attrs children m attrs' children' m',
  sh_started (loads E fuel h) = true ->
  seen E fuel [] d = Ok (attrs0, children0, m0) ->
  seen E fuel h d = Ok (attrs, children, m) ->
  seen E fuel (h ++ h') d = Ok (attrs', children', m') ->
  forall k, In k (dkeys children0) -> dget k children = dget k children'.
Proof.
  intros E fuel h h' d attrs0 children0 m0 attrs children m attrs' children' m' S H0 H1 H2 k K. unfold seen in *.
  change (loads E fuel []) with process_start in H0.
  destruct (schema_manager E fuel d process_start) as [g0 [x|]] eqn:M0; [|discriminate]. injection H0 as <- <- <-.
  destruct (schema_manager E fuel d (loads E fuel h)) as [g1 [y|]] eqn:M1; [|discriminate]. injection H1 as <- <- <-.
  destruct (schema_manager E fuel d (loads E fuel (h ++ h'))) as [g2 [z|]] eqn:M2; [|discriminate]. injection H2 as <- <- <-.
  set (r0 := mkSh true [] []).
  destruct (g_manager r0 E fuel d _ _ (beside_start r0) _ _ M0) as (r & mr & R & (_ & _ & B3) & _).
  assert (Q : forall gh, sh_started gh = true -> beside_eq r0 gh gh).
  { intros gh T. split; [exact T|]. split; intros j; reflexivity. }
  destruct (s_manager (loads E fuel h) E fuel d _ _ (Q _ S)) as [(_ & _ & O1) _].
  destruct (s_manager (loads E fuel (h ++ h')) E fuel d _ _ (Q _ (loads_keep _ _ h' _ S))) as [(_ & _ & O2) _].
  rewrite M1, R in O1. rewrite M2, R in O2. cbn [fst] in *. rewrite (O1 k), (O2 k).
  destruct (dget k (sh_children r)) eqn:F; auto. exfalso. apply (proj1 (B3 k)); auto.
  intros F'. apply dget_None in F'. auto.
Qed.
Print Assumptions C66_settled_partial.

Example C66_settled_case : sh_started (loads env0 100 [dir_2018_5]) = true /\ sh_started (loads env0 100 []) = false
  /\ In (py "group") (dkeys (match seen env0 100 [] dir_3_3 with Ok (_, c, _) => c | Exn _ => [] end))
  /\ child_seen (py "group") (seen env0 100 [dir_2018_5] dir_3_3) = child_seen (py "group") (seen env0 100 ([dir_2018_5] ++ [dir_3_3; dir_a4fd52d]) dir_3_3)
  /\ child_seen (py "group") (seen env0 100 [dir_2018_5] dir_3_3) <> None.
Proof. split; [vm_compute; reflexivity|]. split; [vm_compute; reflexivity|]. split; [vm_compute; auto 8|]. split; [vm_compute; reflexivity|vm_compute; discriminate]. Qed.

(** ** C67 *)
(** The program tests whether the base is a part of the text "nx:basicComponent". *)
Definition loose_schema : list snode :=
  [SN (py "complexType") [(py "name", py "fieldType")]
     [SN (py "complexContent") [] [SN (py "extension") [(py "base", py "nx:basic")] [SN (py "attribute") [(py "name", py "units")] []]]];
   SN (py "complexType") [(py "name", py "basic")] [SN (py "attribute") [(py "name", py "name"); (py "use", py "required")] []]].
Theorem C67_refuted : exists root n ref c, In n root /\ called (py "fieldType") n /\ extends n ref /\ ref <> py "nx:basicComponent"
  /\ snd (schema_type 100 root (Some (py "nx:fieldType")) false) = Ok c /\ dkeys (fst c) = [py "name"; py "units"].
Proof.
  exists loose_schema, (nth 0 loose_schema SComment), (py "nx:basic"). eexists.
  split; [left; reflexivity|]. split; [do 3 eexists; split; reflexivity|].
  split; [do 7 eexists; split; [reflexivity|]; split; [left; reflexivity|]; split; [left; reflexivity|reflexivity]|].
  split; [discriminate|]. split; [vm_compute; reflexivity|reflexivity].
Qed.
Print Assumptions C67_refuted.

(** A type that extends something else than a part of that text is never accepted. *)
Theorem C67_partial : forall fuel root ref n base started,
  In n root -> called (strip_ns ref) n -> extends n base -> ~ part_of base (py "nx:basicComponent") ->
  exists e, snd (schema_type fuel root (Some ref) started) = Exn e.
Proof.
  intros fuel root ref n base started I (tag & a & kids & -> & Nm) X NP.
  destruct (schema_type fuel root (Some ref) started) as [b [c|e]] eqn:R; [|exists e; reflexivity]. exfalso. apply NP.
  destruct fuel as [|fuel]; [discriminate|]. cbn [schema_type] in R. apply sbind_ok in R. destruct R as (b1 & n' & G & R).
  unfold slift in G. injection G as <- G. unfold get_named_node in G.
  destruct (filter _ root) as [|x [|]] eqn:F; try discriminate. injection G as <-.
  assert (x = SN tag a kids) as ->. { eapply filter_one; [exact F|exact I|]. cbn beta iota. rewrite Nm, str_eqb_refl. reflexivity. }
  destruct X as (t' & a' & k' & ca & ck & ea & ek & E & I1 & I2 & B). injection E as <- <- <-. cbn [s_kids] in R.
  assert (C := bad_extension_type _ _ _ _ _ _ _ _ _ _ _ R I1 I2 B). apply contains_sub_spec in C. exact C.
Qed.
Print Assumptions C67_partial.

(** It is a ValueError when the extension is the first thing there *)
Theorem C67_value_error : forall fuel root ref tag a ca ea ek rest1 rest2 base started,
  In (SN tag a (SN (py "complexContent") ca (SN (py "extension") ea ek :: rest1) :: rest2)) root ->
  (forall x, In x root -> called (strip_ns ref) x -> x = SN tag a (SN (py "complexContent") ca (SN (py "extension") ea ek :: rest1) :: rest2)) ->
  NoDup root -> dget (py "name") a = Some (strip_ns ref) ->
  dget (py "base") ea = Some base -> ~ part_of base (py "nx:basicComponent") ->
  snd (schema_type (S fuel) root (Some ref) started) = Exn ValueError.
Proof.
  intros fuel root ref tag a ca ea ek rest1 rest2 base started I U ND Nm B NP. cbn [schema_type].
  set (n := SN tag a _) in *.
  assert (G : get_named_node root None (strip_ns ref) = Ok n).
  { unfold get_named_node. set (f := fun x => _).
    assert (F : filter f root = [n]).
    { assert (T : f n = true) by (unfold f, n; cbn beta iota; rewrite Nm, str_eqb_refl; auto).
      assert (O : forall x, In x root -> f x = true -> x = n).
      { intros x J T'. apply U; auto. unfold f in T'. destruct x as [|t x k]; [discriminate|]. cbn [andb] in T'.
        destruct (dget (py "name") x) eqn:D; [|discriminate]. apply str_eqb_eq in T'. subst. do 3 eexists. split; [reflexivity|auto]. }
      clear - I ND T O. induction root as [|x l IH]; [destruct I|]. inversion ND; subst. cbn [filter].
      destruct I as [-> | I].
      - rewrite T. f_equal. destruct (filter f l) as [|y r] eqn:F; auto. exfalso.
        assert (J : In y (filter f l)) by (rewrite F; left; auto). apply filter_In in J. destruct J as [J1 J2].
        rewrite (O y) in J1; auto. right. auto.
      - destruct (f x) eqn:X; [|apply IH; auto; intros; apply O; auto; right; auto].
        exfalso. rewrite (O x) in H1; auto. left. auto. }
    rewrite F. auto. }
  rewrite G. unfold sbind, slift, n. cbn [s_kids type_structure].
  change (str_eqb (py "complexContent") (py "annotation")) with false.
  change (str_eqb (py "complexContent") (py "attribute")) with false.
  change (str_eqb (py "complexContent") (py "attributeGroup")) with false.
  change (str_eqb (py "complexContent") (py "group")) with false.
  change (str_eqb (py "complexContent") (py "complexContent")) with true. cbn [orb]. cbn iota.
  unfold sbind. cbn [parse_complexContent]. change (str_eqb (py "extension") (py "extension")) with true. cbn iota. rewrite B.
  destruct (contains_sub (py "nx:basicComponent") base) eqn:C; [|reflexivity].
  apply contains_sub_spec in C. contradiction.
Qed.
Print Assumptions C67_value_error.

Example C67_case : ~ part_of (py "nx:basicComponents") (py "nx:basicComponent") /\ ~ part_of (py "nx:fieldType") (py "nx:basicComponent")
  /\ part_of (py "basicComponent") (py "nx:basicComponent")
  /\ snd (schema_type 100 [SN (py "complexType") [(py "name", py "linkType")] [SN (py "complexContent") [] [SN (py "extension") [(py "base", py "nx:fieldType")] []]]]
            (Some (py "nx:linkType")) false) = Exn ValueError.
Proof.
  split; [intros H; apply contains_sub_spec in H; discriminate|]. split; [intros H; apply contains_sub_spec in H; discriminate|].
  split; [exists (py "nx:"), []; reflexivity|]. vm_compute. reflexivity.
Qed.

(** ** C68 *)
(** The types whose patterns are kept are those called valid... *)
Theorem C68_kept : forall E root db, parse_nxdl_patterns E root = Ok db -> NoDup (type_names root) ->
  forall t, In t (dkeys db) <-> valid_name t /\ In t (type_names root).
Proof.
  intros E root db P ND t. unfold dkeys. rewrite <- (keys_same _ _ _ P (knames_NoDup _ ND)). apply knames_In.
Qed.
Print Assumptions C68_kept.

Section In_root.
  Context (E : env) (root : list snode) (db : dict spattern).
  Hypothesis P : parse_nxdl_patterns E root = Ok db.
  Hypothesis ND : NoDup (type_names root).

  Lemma names_apart : forall l1 n l2 t b ps m, root = l1 ++ n :: l2 -> declares E n t b ps m -> ~ In t (type_names l1) /\ ~ In t (type_names l2).
  Proof.
    intros l1 n l2 t b ps m R D. rewrite R, type_names_app, type_names_cons in ND.
    destruct D as (a & k & ra & rk & base & -> & Nm & _). rewrite kept_one, str_eqb_refl, Nm in ND. cbn [app] in ND.
    apply NoDup_remove_2 in ND. split; intros F; apply ND, in_or_app; auto.
  Qed.

  Lemma base_first : forall l1 nb l2 nt l3 t b bb pst psb mt mb,
    root = l1 ++ nb :: l2 ++ nt :: l3 -> valid_name b -> valid_name t ->
    declares E nb b bb psb mb -> declares E nt t b pst mt ->
    exists p, dget b db = Some p /\ dget t db = Some (mkSP (sp_base p) (pst ++ sp_res p) (sp_maxLength p)).
  Proof.
    intros l1 nb l2 nt l3 t b bb pst psb mt mb R Vb Vt Db Dt.
    destruct (declares_kept _ _ _ _ _ _ Db Vb) as [Kb Nb]. destruct (declares_kept _ _ _ _ _ _ Dt Vt) as [Kt Nt].
    pose proof (final_pattern E root db P (knames_NoDup _ ND) l1 nb (l2 ++ nt :: l3) b bb psb mb R Kb Nb Db) as FB.
    assert (R' : root = (l1 ++ nb :: l2) ++ nt :: l3) by (rewrite <- app_assoc; exact R).
    pose proof (final_pattern E root db P (knames_NoDup _ ND) _ nt l3 t b pst mt R' Kt Nt Dt) as FT.
    rewrite valid_token in FT by auto.
    assert (X : existsb (str_eqb b) (knames (l1 ++ nb :: l2)) = true).
    { apply existsb_str. rewrite <- Nb. apply nm_knames; auto. apply in_or_app. right. left. auto. }
    rewrite X in FT. destruct (dget b db) as [p|]; [|discriminate]. exists p. auto.
  Qed.
End In_root.

(** a base declared before: what the base has in the end *)
Theorem C68_base_first : forall E root db l1 nb l2 nt l3 t b bb pst psb mt mb,
  parse_nxdl_patterns E root = Ok db -> NoDup (type_names root) ->
  root = l1 ++ nb :: l2 ++ nt :: l3 -> valid_name b -> valid_name t ->
  declares E nb b bb psb mb -> declares E nt t b pst mt ->
  exists p, dget b db = Some p /\ dget t db = Some (mkSP (sp_base p) (pst ++ sp_res p) (sp_maxLength p)).
Proof. intros. eapply base_first; eauto. Qed.
Print Assumptions C68_base_first.

(** a base declared later: what the base declares itself *)
Theorem C68_base_later : forall E root db l1 nb l2 nt l3 t b bb pst psb mt mb,
  parse_nxdl_patterns E root = Ok db -> NoDup (type_names root) ->
  root = l1 ++ nt :: l2 ++ nb :: l3 -> valid_name b -> valid_name t ->
  declares E nb b bb psb mb -> declares E nt t b pst mt ->
  dget t db = Some (mkSP bb (pst ++ psb) mb).
Proof.
  intros E root db l1 nb l2 nt l3 t b bb pst psb mt mb P ND R Vb Vt Db Dt.
  destruct (declares_kept _ _ _ _ _ _ Db Vb) as [Kb Nb]. destruct (declares_kept _ _ _ _ _ _ Dt Vt) as [Kt Nt].
  assert (R' : root = (l1 ++ nt :: l2) ++ nb :: l3) by (rewrite <- app_assoc; exact R).
  destruct (names_apart E root ND _ _ _ _ _ _ _ R' Db) as [A1 A2].
  rewrite (final_pattern E root db P (knames_NoDup _ ND) l1 nt (l2 ++ nb :: l3) t b pst mt R Kt Nt Dt).
  rewrite valid_token by auto. rewrite type_names_app, in_app_iff in A1.
  rewrite existsb_str_false by (intros F; apply knames_In in F; tauto).
  destruct (str_eqb_spec b t) as [-> | NE].
  { exfalso. apply A1. right. eapply declares_named; [exact Dt|left; auto]. }
  destruct (find _ _) as [x|] eqn:F.
  - assert (x = nb) as ->.
    { apply find_some in F. destruct F as [I T]. apply andb_true_iff in T. destruct T as [T1 T2]. apply str_eqb_eq in T2.
      assert (IN : forall l, In x l -> In b (type_names l)).
      { intros l J. apply (nm_knames x l) in J; auto. rewrite T2 in J. apply knames_In in J. tauto. }
      apply in_app_or in I. destruct I as [I | [I | I]]; auto; exfalso.
      - apply A1. right. apply IN. right. auto.
      - apply A2. auto. }
    destruct (start_db E root db P (knames_NoDup _ ND)) as (db0 & _ & _ & V).
    destruct (V nb) as (q & _ & O); [rewrite R'; apply in_or_app; right; left; auto | auto |].
    rewrite O. pose proof (declares_one _ _ _ _ _ _ _ Db O) as ->. reflexivity.
  - exfalso. assert (J : In nb (l2 ++ nb :: l3)) by (apply in_or_app; right; left; auto). assert (C := find_none _ _ F nb J). cbn beta in C.
    rewrite Kb, Nb, str_eqb_refl in C. discriminate.
Qed.
Print Assumptions C68_base_later.

(** no such base: its own *)
Theorem C68_no_base : forall E root db n t b ps m,
  parse_nxdl_patterns E root = Ok db -> NoDup (type_names root) ->
  In n root -> valid_name t -> declares E n t b ps m -> ~ (valid_name b /\ In b (type_names root)) ->
  dget t db = Some (mkSP b ps m).
Proof.
  intros E root db n t b ps m P ND I V D NB. destruct (declares_kept _ _ _ _ _ _ D V) as [K N].
  apply in_split in I. destruct I as (l1 & l2 & R).
  rewrite (final_pattern E root db P (knames_NoDup _ ND) l1 n l2 t b ps m R K N D).
  assert (NK : ~ In b (knames root)) by (intros F; apply knames_In in F; auto).
  destruct (str_eqb b (py "token")); auto.
  rewrite existsb_str_false.
  2:{ intros F. apply NK. rewrite R. unfold knames in *. rewrite filter_app, map_app. apply in_or_app. auto. }
  destruct (str_eqb_spec b t) as [-> | NE].
  { exfalso. apply NK. rewrite <- N. apply nm_knames; auto. rewrite R. apply in_or_app. right. left. auto. }
  rewrite find_kept_None; auto. intros x J T F. apply NK. rewrite <- F. apply nm_knames; auto. rewrite R. apply in_or_app. right. right. auto.
Qed.
Print Assumptions C68_no_base.

(** the usual case, a base without such a base, in any order *)
Theorem C68_one_level : forall E root db nt nb t b bb pst psb mt mb,
  parse_nxdl_patterns E root = Ok db -> NoDup (type_names root) ->
  In nt root -> In nb root -> t <> b -> valid_name b -> valid_name t ->
  declares E nt t b pst mt -> declares E nb b bb psb mb -> ~ (valid_name bb /\ In bb (type_names root)) ->
  dget t db = Some (mkSP bb (pst ++ psb) mb).
Proof.
  intros E root db nt nb t b bb pst psb mt mb P ND It Ib NE Vb Vt Dt Db NB.
  pose proof (C68_no_base E root db nb b bb psb mb P ND Ib Vb Db NB) as FB.
  destruct (in_split _ _ It) as (l1 & l2 & R). rewrite R in Ib. apply in_app_or in Ib. destruct Ib as [Ib | [Ib | Ib]].
  - destruct (in_split _ _ Ib) as (a & b' & R'). subst l1. rewrite <- app_assoc in R. cbn [app] in R.
    destruct (C68_base_first E root db a nb b' nt l2 t b bb pst psb mt mb P ND R Vb Vt Db Dt) as (p & Q1 & Q2).
    rewrite FB in Q1. injection Q1 as <-. exact Q2.
  - exfalso. subst nb. apply NE. destruct (declares_kept _ _ _ _ _ _ Db Vb), (declares_kept _ _ _ _ _ _ Dt Vt). congruence.
  - destruct (in_split _ _ Ib) as (a & b' & R'). subst l2.
    exact (C68_base_later E root db l1 nb a nt b' t b bb pst psb mt mb P ND R Vb Vt Db Dt).
Qed.
Print Assumptions C68_one_level.

(** the shipped schema: class names have the pattern of class names and that of names *)
Example C68_case : exists db nt nb, parse_nxdl_patterns env0 nxdl_v2018_5 = Ok db /\ NoDup (type_names nxdl_v2018_5)
  /\ In nt nxdl_v2018_5 /\ In nb nxdl_v2018_5
  /\ declares env0 nt (py "validNXClassName") (py "validItemName") [py "NX.+"] (-1)
  /\ declares env0 nb (py "validItemName") (py "token") [py "[A-Za-z_][\w_]*"] 63
  /\ dget (py "validNXClassName") db = Some (mkSP (py "token") [py "NX.+"; py "[A-Za-z_][\w_]*"] 63).
Proof.
  eexists. exists (nth 8 nxdl_v2018_5 SComment), (nth 7 nxdl_v2018_5 SComment).
  split; [vm_compute; reflexivity|].
  split. { vm_compute. repeat constructor; cbn; intuition discriminate. }
  split; [apply nth_In; vm_compute; lia|]. split; [apply nth_In; vm_compute; lia|].
  split; [|split; [|vm_compute; reflexivity]].
  - exists [(py "name", py "validNXClassName")]. do 3 eexists. exists (py "nx:validItemName").
    split; [reflexivity|]. split; [reflexivity|]. split; [right; left; reflexivity|]. split; [reflexivity|].
    split; [split; [intros H; vm_compute in H; intuition discriminate|right; exists (py "nx"); reflexivity]|].
    split; [reflexivity|]. left. split; reflexivity.
  - exists [(py "name", py "validItemName")]. do 3 eexists. exists (py "xs:token").
    split; [reflexivity|]. split; [reflexivity|]. split; [right; left; reflexivity|]. split; [reflexivity|].
    split; [split; [intros H; vm_compute in H; intuition discriminate|right; exists (py "xs"); reflexivity]|].
    split; [reflexivity|]. right. exists [], (py "63"). split; [reflexivity|apply NumberFacts.int_number; reflexivity].
Qed.

(** ** C87 *)
Definition simple (t b p : string) : snode :=
  SN (py "simpleType") [(py "name", py t)] [SN (py "restriction") [(py "base", py b)] [SN (py "pattern") [(py "value", py p)] []]].
Lemma simple_declares : forall t b p, ~ In ch_colon (py b) -> declares env0 (simple t ("nx:" ++ b) p) (py t) (py b) [py p] (-1).
Proof.
  intros t b p N. exists [(py "name", py t)]. do 3 eexists. exists (py ("nx:" ++ b)).
  split; [reflexivity|]. split; [reflexivity|]. split; [left; reflexivity|]. split; [reflexivity|].
  split; [split; [exact N|right; exists (py "nx"); reflexivity]|]. split; [reflexivity|]. left. split; reflexivity.
Qed.

(** Three types, each based on the next: the first does not get the patterns of the last. *)
Theorem C87_refuted : exists root db, parse_nxdl_patterns env0 root = Ok db /\ NoDup (type_names root)
  /\ all_patterns env0 root (py "validA") [py "a+"; py "b+"; py "c+"]
  /\ option_map sp_res (dget (py "validA") db) = Some [py "a+"; py "b+"].
Proof.
  exists [simple "validA" "nx:validB" "a+"; simple "validB" "nx:validC" "b+"; simple "validC" "nx:token" "c+"]. eexists.
  split; [vm_compute; reflexivity|]. split; [vm_compute; repeat constructor; cbn; intuition discriminate|].
  assert (V : forall u : string, valid_name (py ("valid" ++ u))) by (intros u; eexists; reflexivity).
  split; [|vm_compute; reflexivity].
  apply (ap_base _ _ (simple "validA" ("nx:" ++ "validB") "a+") (py "validA") (py "validB") [py "a+"] (-1)%Z [py "b+"; py "c+"]);
    [left; reflexivity | apply (V "A") | apply simple_declares; intros H; vm_compute in H; intuition discriminate |].
  apply (ap_base _ _ (simple "validB" ("nx:" ++ "validC") "b+") (py "validB") (py "validC") [py "b+"] (-1)%Z [py "c+"]);
    [right; left; reflexivity | apply (V "B") | apply simple_declares; intros H; vm_compute in H; intuition discriminate |].
  apply (ap_last _ _ (simple "validC" ("nx:" ++ "token") "c+") (py "validC") (py "token") [py "c+"] (-1)%Z);
    [right; right; left; reflexivity | apply (V "C") | apply simple_declares; intros H; vm_compute in H; intuition discriminate |].
  intros [[u H] _]. discriminate.
Qed.
Print Assumptions C87_refuted.

(** It does when every type comes after its base, for chains of any length. *)
Theorem C87_partial : forall E root db, parse_nxdl_patterns E root = Ok db -> NoDup (type_names root) -> bases_first E root ->
  forall t ps, all_patterns E root t ps -> option_map sp_res (dget t db) = Some ps.
Proof.
  intros E root db P ND BF t ps A. induction A as [n t b ps m I V D NB | n t b ps m qs I V D A IH].
  - rewrite (C68_no_base E root db n t b ps m P ND I V D NB). reflexivity.
  - assert (VB : valid_name b /\ exists nb bb qs' mb, In nb root /\ declares E nb b bb qs' mb).
    { inversion A; subst; split; eauto 8. }
    destruct VB as (Vb & nb & bb & qs' & mb & Ib & Db).
    destruct (in_split _ _ I) as (l1 & l2 & R).
    assert (F : In b (type_names l1)). { eapply BF; eauto. eapply declares_named; eauto. }
    assert (Ib' : In nb l1).
    { rewrite R in Ib. apply in_app_or in Ib. destruct Ib as [Ib | Ib]; auto. exfalso.
      rewrite R, type_names_app in ND. assert (G : In b (type_names (n :: l2))) by (eapply declares_named; eauto).
      clear - F G ND. induction (type_names l1) as [|y l IHl]; [destruct F|]. cbn [app] in ND. inversion ND; subst.
      destruct F as [-> | F]; [apply H1, in_or_app; auto | auto]. }
    destruct (in_split _ _ Ib') as (a & c & R'). subst l1. rewrite <- app_assoc in R. cbn [app] in R.
    destruct (C68_base_first E root db a nb c n l2 t b bb ps qs' m mb P ND R Vb V Db D) as (p & Q1 & Q2).
    rewrite Q1 in IH. rewrite Q2. cbn in *. injection IH as ->. reflexivity.
Qed.
Print Assumptions C87_partial.

Example C87_case : exists db, parse_nxdl_patterns env0 [simple "validC" "nx:token" "c+"; simple "validB" "nx:validC" "b+"; simple "validA" "nx:validB" "a+"] = Ok db
  /\ bases_first env0 [simple "validC" "nx:token" "c+"; simple "validB" "nx:validC" "b+"; simple "validA" "nx:validB" "a+"]
  /\ option_map sp_res (dget (py "validA") db) = Some [py "a+"; py "b+"; py "c+"].
Proof.
  eexists. split; [vm_compute; reflexivity|]. split; [|vm_compute; reflexivity].
  intros l1 n l2 t b ps m R D Vt Vb I.
  assert (DET : forall T B Q, n = simple T ("nx:" ++ B) Q -> ~ In ch_colon (py B) -> b = py B).
  { intros T B Q -> N. destruct D as (a & k & ra & rk & base & E1 & _ & I1 & B1 & AC & _).
    injection E1 as <- <-. destruct I1 as [I1 | []]. injection I1 as <- <-. injection B1 as <-.
    apply after_colon_strip in AC. rewrite <- AC. exact (strip_ns_app (py "nx") (py B) N). }
  destruct l1 as [|x1 [|x2 [|x3 l1]]]; injection R as; subst.
  - assert (b = py "token") as -> by (eapply (DET "validC" "token" "c+"); [reflexivity|intros H; vm_compute in H; intuition discriminate]).
    destruct Vb as [u Vb]. discriminate.
  - assert (b = py "validC") as -> by (eapply (DET "validB" "validC" "b+"); [reflexivity|intros H; vm_compute in H; intuition discriminate]).
    vm_compute. auto.
  - assert (b = py "validB") as -> by (eapply (DET "validA" "validB" "a+"); [reflexivity|intros H; vm_compute in H; intuition discriminate]).
    vm_compute. auto.
  - destruct l1; discriminate.
Qed.

(** ** C69 *)
Theorem C69_stripped : forall s t, strip_ns s = t <-> after_colon s t.
Proof. intros. split; [intros <-; apply strip_after_colon | apply after_colon_strip]. Qed.
Print Assumptions C69_stripped.

Example C69_case : strip_ns (py "first:second") = py "second" /\ strip_ns (py "a:b:c") = py "c" /\ strip_ns (py "c") = py "c" /\ strip_ns (py "c:") = [].
Proof. repeat split. Qed.

(** ** C88 *)
(** The unit categories of the shipped schemas are the members of a union, which the
    program does not look at: it finds no unit category. *)
Theorem C88_refuted :
  (exists tag a k ua uk, In (SN tag a k) nxdlTypes_v2018_5 /\ dget (py "name") a = Some (py "anyUnitsAttr")
     /\ In (SN (py "union") ua uk) k /\ exists m, dget (py "memberTypes") ua = Some m /\ part_of (py "nxdl:NX_ANGLE") m)
  /\ (forall h, exists attrs children m, seen env0 100 h dir_2018_5 = Ok (attrs, children, m) /\ sm_units m = []).
Proof.
  split.
  - exists (py "simpleType"), [(py "name", py "anyUnitsAttr")]. do 3 eexists. split.
    { vm_compute. do 20 (try (left; reflexivity); right). }
    split; [reflexivity|]. split; [right; left; reflexivity|]. eexists. split; [reflexivity|].
    apply contains_sub_spec. vm_compute. reflexivity.
  - intros h. destruct (seen env0 100 [] dir_2018_5) as [[[a0 c0] m0]|e] eqn:S; [|vm_compute in S; discriminate].
    destruct (C66_partial env0 100 h dir_2018_5 a0 c0 m0 S) as (a & c & m & S' & _ & U & _).
    exists a, c, m. split; auto. rewrite U. vm_compute in S. injection S as _ _ <-. reflexivity.
Qed.
Print Assumptions C88_refuted.

(** So it is for every schema that declares them by a union; it finds them if they are
    declared by an enumeration, in this order. *)
Theorem C88_partial : forall types tag a k db units,
  parse_nxdlTypes (Some types) = Ok (db, units) ->
  In (SN tag a k) types -> tag <> py "annotation" -> dget (py "name") a = Some (py "anyUnitsAttr") ->
  (forall x, In x types -> called (py "anyUnitsAttr") x -> x = SN tag a k) ->
  ((forall ra rk, ~ In (SN (py "restriction") ra rk) k) -> (forall la lk, ~ In (SN (py "list") la lk) k) -> units = [])
  /\ (forall ra rk, In (SN (py "restriction") ra rk) k ->
        (forall x, In x k -> x = SN (py "restriction") ra rk \/ (exists aa ak, x = SN (py "annotation") aa ak) \/ x = SComment) ->
        units = values_of (py "enumeration") rk).
Proof.
  intros types tag a k db units H I NA Nm U.
  destruct (units_found _ _ _ _ _ _ H I NA Nm U) as (t & T & ->). split.
  - intros NR NL. rewrite (no_values _ _ _ T NR NL). reflexivity.
  - intros ra rk R O. rewrite (enum_found _ _ _ ra rk T R O). reflexivity.
Qed.
Print Assumptions C88_partial.

Example C88_case : exists db, parse_nxdlTypes (Some
  [SN (py "simpleType") [(py "name", py "anyUnitsAttr")]
     [SN (py "restriction") [(py "base", py "xs:token")] [SN (py "enumeration") [(py "value", py "NX_ANGLE")] []; SN (py "enumeration") [(py "value", py "NX_AREA")] []]];
   SN (py "simpleType") [(py "name", py "primitiveType")] []]) = Ok (db, [py "NX_ANGLE"; py "NX_AREA"]).
Proof. eexists. vm_compute. reflexivity. Qed.
