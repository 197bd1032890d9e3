(** * Properties of the NXDL defaults read from nxdl.xsd (C89-C94) *)

From Coq Require Import List NArith ZArith Bool String Permutation.
From Verif Require Import PyBase PyFacts H5 SchemaMgr NxdlSchema ShippedLines Samples Spec_Number NumberFacts Spec_Defaults
  DefaultsHeap DefaultsParse DefaultsCat DefaultsTypes DefaultsSummary DefaultsEnd DefaultsCheck DefaultsLayout DefaultsRules.
Import ListNotations.
Open Scope string_scope.
Open Scope list_scope.

(** ** A small schema for the examples *)
Definition at1 (k v : string) : pystr * pystr := (py k, py v).
Definition el (tag : string) (line : N) (attrs : list (string * string)) (kids : list lnode) : lnode :=
  LN (py tag) line (map (fun kv => at1 (fst kv) (snd kv)) attrs) kids.
Definition pattern_type (name base pat : string) (line : N) : lnode :=
  el "simpleType" line [("name", name)]
    [el "restriction" (line + 1) [("base", base)] [el "pattern" (line + 2) [("value", pat)] []]].
(** the definition, and the group [gname] with its five elements; [y] is the line of the
    second attribute of the type "basicType", [inner] is more content for that type *)
Definition small_definition (gname : string) : list lnode :=
  [el "element" 20 [("name", "definition"); ("type", "nx:definitionType")] [];
   el "complexType" 21 [("name", "definitionType")]
     [el "sequence" 22 []
        [el "element" 23 [("name", "symbols"); ("type", "nx:basicType")] [];
         el "group" 24 [("ref", "nx:" ++ gname)%string] []];
      el "attribute" 25 [("name", "name"); ("use", "required"); ("type", "nx:itemName")] []];
   el "group" 26 [("name", gname)]
     [el "sequence" 27 []
        [el "element" 28 [("name", "doc"); ("type", "nx:basicType")] [];
         el "element" 29 [("name", "attribute"); ("type", "nx:basicType")] [];
         el "element" 30 [("name", "group"); ("type", "nx:groupType")] [];
         el "element" 31 [("name", "field"); ("type", "nx:basicType")] [];
         el "element" 32 [("name", "link"); ("type", "nx:basicType")] []]]].
Definition basic_type (y : N) : lnode :=
  el "complexType" 40 [("name", "basicType")]
    [el "attribute" 41 [("name", "x"); ("use", "required"); ("type", "nx:itemName")] [];
     el "attribute" y [("name", "y"); ("default", "1")] []].
(** extends [basic_type]; has the group [gname] in its content *)
Definition group_type (gname : string) : lnode :=
  el "complexType" 50 [("name", "groupType")]
    [el "sequence" 51 [] [el "group" 52 [("ref", "nx:" ++ gname)%string] []];
     el "complexContent" 53 []
       [el "extension" 54 [("base", "nx:basicType")]
          [el "attribute" 55 [("name", "z"); ("default", "0")] []]]].
Definition item_name : lnode := pattern_type "itemName" "xs:token" "[a-z]+" 10.
Definition small_schema (y : N) : list lnode :=
  item_name :: small_definition "groupGroup" ++ [basic_type y; group_type "groupGroup"].

(** ** C89 layout *)
(** The defaults do not depend on how the schema is broken into lines: false.  Two attributes
    on one line of the schema are mixed up; the first is lost. *)
Theorem C89_refuted :
  ~ (forall E limit kids1 kids2 s1 s2, Forall2 same_but_lines kids1 kids2 ->
       nxdl_summary E limit kids1 = Ok s1 -> nxdl_summary E limit kids2 = Ok s2 ->
       attribute_names (su_heap s1) (su_field s1) = attribute_names (su_heap s2) (su_field s2)).
Proof.
  intros H.
  destruct (nxdl_summary env0 50 (small_schema 42)) as [s1|e] eqn:E1; [|vm_compute in E1; discriminate].
  destruct (nxdl_summary env0 50 (small_schema 41)) as [s2|e] eqn:E2; [|vm_compute in E2; discriminate].
  assert (X : Forall2 same_but_lines (small_schema 42) (small_schema 41)).
  { repeat (match goal with |- Forall2 _ _ _ => constructor | |- same_but_lines _ _ => constructor end). }
  assert (A := H env0 50%nat _ _ s1 s2 X E1 E2).
  vm_compute in E1. injection E1 as <-. vm_compute in E2. injection E2 as <-. vm_compute in A. discriminate A.
Qed.
Print Assumptions C89_refuted.
(** what is lost: the attribute x *)
Example attribute_lost :
  match nxdl_summary env0 50 (small_schema 42), nxdl_summary env0 50 (small_schema 41) with
  | Ok s1, Ok s2 =>
      attribute_names (su_heap s1) (su_field s1) = [py "x"; py "y"] /\
      attribute_names (su_heap s2) (su_field s2) = [py "y"]
  | _, _ => False
  end.
Proof. vm_compute. auto. Qed.

(** As long as no two attributes, no two elements and no two groups are on one line, the layout
    does not matter: the results are equal, be they summaries or exceptions. *)
Theorem C89_partial : forall E limit kids1 kids2,
  Forall2 same_but_lines kids1 kids2 -> own_lines kids1 -> own_lines kids2 ->
  nxdl_summary E limit kids1 = nxdl_summary E limit kids2.
Proof. intros E limit kids1 kids2 H O1 O2. exact (two_summary kids1 kids2 H O1 O2 E limit). Qed.
Print Assumptions C89_partial.
Lemma tidy_own : forall kids, tidyb kids = true -> own_lines kids.
Proof. intros kids H. exact (t_lines _ (tidyb_ok kids H)). Qed.
Example layouts :
  own_lines (small_schema 42) /\ own_lines (small_schema 77) /\ own_lines xsd_v2018_5 /\
  Forall2 same_but_lines (small_schema 42) (small_schema 77) /\
  exists s, nxdl_summary env0 50 (small_schema 77) = Ok s.
Proof.
  split; [apply tidy_own; vm_compute; reflexivity|]. split; [apply tidy_own; vm_compute; reflexivity|].
  split; [apply tidy_own; vm_compute; reflexivity|]. split.
  - repeat (match goal with |- Forall2 _ _ _ => constructor | |- same_but_lines _ _ => constructor end).
  - eexists. vm_compute. reflexivity.
Qed.

(** ** C90 attributes *)
(** The attributes of the definition, and of attribute, doc, field, link and group, are exactly
    those that their types declare, with their defaults. *)
Theorem C90_attributes : forall E limit kids defn t gr G D s,
  tidy kids -> defined_by kids defn t gr G D -> nxdl_summary E limit kids = Ok s ->
  attributes_of_type kids s (su_definition s) D /\
  (forall name i, In (name, i) [("attribute", su_attribute s); ("doc", su_doc s); ("field", su_field s);
                                ("link", su_link s); ("group", su_group_attrs s)] ->
     forall x T, component kids G name x T -> attributes_of_type kids s i T).
Proof. intros E limit kids defn t gr G D s TY DB H. exact (summary_parts E limit kids defn t gr G D s TY DB H). Qed.
Print Assumptions C90_attributes.
(** the schemas that are shipped, and the small one, are in good order *)
Definition in_good_order (kids : list lnode) : Prop :=
  tidy kids /\ exists defn t gr G D, defined_by kids defn t gr G D /\
    (forall name, In name ["attribute"; "doc"; "field"; "link"; "group"] -> exists x T, component kids G name x T) /\
    exists s, nxdl_summary env0 200 kids = Ok s.
Example schemas_in_good_order : forall kids, In kids [xsd_v2018_5; xsd_v3_3; xsd_a4fd52d; small_schema 42] -> in_good_order kids.
Proof.
  assert (X : forall kids defn t gr G D, tidyb kids = true -> the_definition kids = Some (defn, t, gr, G, D) ->
    definedb kids defn t gr D = true ->
    forallb (fun name => match the_component kids G name with Some _ => true | None => false end)
      ["attribute"; "doc"; "field"; "link"; "group"] = true ->
    match nxdl_summary env0 200 kids with Ok _ => true | Exn _ => false end = true -> in_good_order kids).
  { intros kids defn t gr G D H1 H2 H3 H4 H5. split; [apply tidyb_ok; exact H1|]. exists defn, t, gr, G, D.
    split; [apply the_definition_ok; assumption|]. split.
    - intros name Hn. rewrite forallb_forall in H4. specialize (H4 name Hn).
      destruct (the_component kids G name) as [[x T]|] eqn:E1; [|discriminate]. exists x, T. apply the_component_ok. exact E1.
    - destruct (nxdl_summary env0 200 kids) as [s|e]; [exists s; reflexivity|discriminate]. }
  intros kids [<-|[<-|[<-|[<-|[]]]]]; (eapply X; [| vm_compute; reflexivity | | |]); vm_compute; reflexivity.
Qed.
(** ... and there is something to say about them *)
Example shipped_values :
  match nxdl_summary env0 200 xsd_v3_3 with
  | Ok s =>
      attribute_names (su_heap s) (su_group_attrs s) = map py ["type"; "name"; "minOccurs"; "maxOccurs"; "deprecated"] /\
      option_map ad_default (attribute_of (su_heap s) (su_field s) (py "minOccurs")) = Some (Some (py "0")) /\
      option_map ad_required (attribute_of (su_heap s) (su_link s) (py "target")) = Some true /\
      option_map (fun v => List.length (ad_patterns v)) (attribute_of (su_heap s) (su_group_attrs s) (py "type")) = Some 2%nat
  | Exn _ => False
  end.
Proof. vm_compute. auto. Qed.

(** ** C91 simple types *)
(** The patterns of a simple type are its own and those of all types it is based on: false.
    The base must be declared first. *)
Definition chain_schema : list lnode :=
  [pattern_type "itemName" "nx:middle" "i" 1; pattern_type "middle" "nx:last" "m" 4; pattern_type "last" "xs:token" "l" 7]
    ++ small_definition "groupGroup" ++ [basic_type 42; group_type "groupGroup"].
Lemma chain_top : forall k n, In (k, n) [(py "itemName", pattern_type "itemName" "nx:middle" "i" 1);
    (py "middle", pattern_type "middle" "nx:last" "m" 4); (py "last", pattern_type "last" "xs:token" "l" 7)] ->
  top chain_schema "simpleType" k n.
Proof.
  intros k n H. cbn [In] in H. split; [|split].
  - unfold chain_schema. apply in_or_app. left. destruct H as [H|[H|[H|[]]]]; injection H as _ <-; cbn [In]; auto.
  - destruct H as [H|[H|[H|[]]]]; injection H as _ <-; reflexivity.
  - destruct H as [H|[H|[H|[]]]]; injection H as <- <-; reflexivity.
Qed.
Example chain_patterns : all_patterns chain_schema (py "itemName") [py "i"; py "m"; py "l"].
Proof.
  assert (T1 := chain_top (py "itemName") _ (or_introl eq_refl)).
  assert (T2 := chain_top (py "middle") _ (or_intror (or_introl eq_refl))).
  assert (T3 := chain_top (py "last") _ (or_intror (or_intror (or_introl eq_refl)))).
  apply (ap_base _ _ [py "i"] (py "middle") (pattern_type "middle" "nx:last" "m" 4) [py "m"; py "l"]).
  - eexists. eexists. split; [exact T1|]. split; reflexivity.
  - eexists. eexists. eexists. split; [exact T1|]. split; [reflexivity|]. split; reflexivity.
  - exact T2.
  - apply (ap_base _ _ [py "m"] (py "last") (pattern_type "last" "xs:token" "l" 7) [py "l"]).
    + eexists. eexists. split; [exact T2|]. split; reflexivity.
    + eexists. eexists. eexists. split; [exact T2|]. split; [reflexivity|]. split; reflexivity.
    + exact T3.
    + apply (ap_last _ _ [py "l"] (py "token")).
      * eexists. eexists. split; [exact T3|]. split; reflexivity.
      * eexists. eexists. eexists. split; [exact T3|]. split; [reflexivity|]. split; reflexivity.
      * intros m (Hm & Ht & Hn). cbn in Hm. repeat (destruct Hm as [<-|Hm]; [vm_compute in Ht, Hn; discriminate|]). destruct Hm.
Qed.
Theorem C91_refuted :
  ~ (forall E limit kids s k ps, tidy kids -> nxdl_summary E limit kids = Ok s -> all_patterns kids k ps ->
       exists v, dget k (su_simpleType s) = Some v /\ sm_patterns v = ps).
Proof.
  intros H. destruct (nxdl_summary env0 50 chain_schema) as [s|e] eqn:E1; [|vm_compute in E1; discriminate].
  destruct (H env0 50%nat chain_schema s (py "itemName") _ (tidyb_ok chain_schema ltac:(vm_compute; reflexivity)) E1 chain_patterns) as (v & Hv & Hp).
  vm_compute in E1. injection E1 as <-. vm_compute in Hv. injection Hv as <-. vm_compute in Hp. discriminate Hp.
Qed.
Print Assumptions C91_refuted.

(** If the base of every simple type is declared before the type, nothing is lost. *)
Theorem C91_partial : forall E limit kids s, tidy kids -> nxdl_summary E limit kids = Ok s ->
  (forall k b n m, based_on kids k b -> top kids "simpleType" k n -> top kids "simpleType" b m -> before kids m n) ->
  forall k ps, all_patterns kids k ps -> exists v, dget k (su_simpleType s) = Some v /\ sm_patterns v = ps.
Proof.
  intros E limit kids s TY OK HB k ps H. induction H as [k ps b Ho Hb Hn|k ps b m qs Ho Hb Hm H IH].
  - destruct Ho as (n & r & Tn & Rn & Pn). destruct Hb as (n' & r' & v0 & Tn' & Rn' & Bn & Ln).
    destruct (top_unique kids TY "simpleType" "simpleType" k n n') as [X _]; auto; try (cbn; tauto). subst n'. rewrite Rn in Rn'. injection Rn' as <-.
    destruct (simple_rule E limit kids s TY OK k n r v0 b ps Tn Rn Bn Ln Pn) as (v & Hv & H1 & _). exists v. split; [exact Hv | apply H1, Hn].
  - assert (Hb0 := Hb). destruct Ho as (n & r & Tn & Rn & Pn). destruct Hb as (n' & r' & v0 & Tn' & Rn' & Bn & Ln).
    destruct (top_unique kids TY "simpleType" "simpleType" k n n') as [X _]; auto; try (cbn; tauto). subst n'. rewrite Rn in Rn'. injection Rn' as <-.
    destruct (simple_rule E limit kids s TY OK k n r v0 b ps Tn Rn Bn Ln Pn) as (v & Hv & _ & H2 & _).
    destruct (H2 m Hm (HB k b n m Hb0 Tn Hm)) as (vb & Hvb & P1 & _). destruct IH as (vb' & Hvb' & P2). exists v. split; [exact Hv|].
    rewrite Hvb in Hvb'. injection Hvb' as <-. rewrite P1, P2. reflexivity.
Qed.
Print Assumptions C91_partial.

(** In any order: the patterns of the type are its own and those of its base, the latter
    complete if the base is declared before, else only those in its own declaration.  The
    maximum length is that of the base; one of its own is lost. *)
Theorem C91_rules : forall E limit kids s, tidy kids -> nxdl_summary E limit kids = Ok s ->
  forall k b ps n, top kids "simpleType" k n -> own_patterns_of kids k ps -> based_on kids k b ->
  exists v, dget k (su_simpleType s) = Some v /\
    ((forall m, ~ top kids "simpleType" b m) -> sm_patterns v = ps) /\
    (forall m, top kids "simpleType" b m -> before kids m n ->
       exists vb, dget b (su_simpleType s) = Some vb /\ sm_patterns v = ps ++ sm_patterns vb /\ sm_maxLength v = sm_maxLength vb) /\
    (forall m qs b', top kids "simpleType" b m -> ~ before kids m n -> own_patterns_of kids b qs -> based_on kids b b' ->
       sm_patterns v = ps ++ qs).
Proof.
  intros E limit kids s TY OK k b ps n T0 Ho Hb.
  destruct Ho as (n1 & r & Tn & Rn & Pn). destruct Hb as (n' & r' & v0 & Tn' & Rn' & Bn & Ln).
  destruct (top_unique kids TY "simpleType" "simpleType" k n n1) as [X _]; auto; try (cbn; tauto). subst n1.
  destruct (top_unique kids TY "simpleType" "simpleType" k n n') as [X _]; auto; try (cbn; tauto). subst n'. rewrite Rn in Rn'. injection Rn' as <-.
  destruct (simple_rule E limit kids s TY OK k n r v0 b ps Tn Rn Bn Ln Pn) as (v & Hv & H1 & H2 & H3). exists v.
  split; [exact Hv|]. split; [intros N; apply H1, N|]. split; [exact H2|].
  intros m qs b' Tm Nb (m1 & rm & Tm1 & Rm & Pm) (m2 & rm2 & vm & Tm2 & Rm2 & Bm & _).
  destruct (top_unique kids TY "simpleType" "simpleType" b m m1) as [X _]; auto; try (cbn; tauto). subst m1.
  destruct (top_unique kids TY "simpleType" "simpleType" b m m2) as [X _]; auto; try (cbn; tauto). subst m2. rewrite Rm in Rm2. injection Rm2 as <-.
  destruct (H3 m Tm Nb) as (vb & Pvb & P1 & _).
  destruct (parse_simple_read E m rm vb qs vm Pvb Rm Bm Pm) as [_ P2]. rewrite P1, P2. reflexivity.
Qed.
Print Assumptions C91_rules.
Example simple_type_rules_used :
  tidy chain_schema /\
  (exists n, top chain_schema "simpleType" (py "itemName") n) /\
  own_patterns_of chain_schema (py "itemName") [py "i"] /\ based_on chain_schema (py "itemName") (py "middle") /\
  match nxdl_summary env0 50 chain_schema with
  | Ok s => option_map sm_patterns (dget (py "itemName") (su_simpleType s)) = Some [py "i"; py "m"] /\
            option_map sm_patterns (dget (py "middle") (su_simpleType s)) = Some [py "m"; py "l"]
  | Exn _ => False
  end.
Proof.
  assert (T1 := chain_top (py "itemName") _ (or_introl eq_refl)).
  split; [apply tidyb_ok; vm_compute; reflexivity|]. split; [eexists; exact T1|]. split; [|split].
  - eexists. eexists. split; [exact T1|]. split; reflexivity.
  - eexists. eexists. eexists. split; [exact T1|]. split; [reflexivity|]. split; reflexivity.
  - vm_compute. auto.
Qed.
(** The maximum length is that of the declaration if the base is no type of the schema, and else
    that of the base: the one it has in the end if it is declared before, else that of its own
    declaration. *)
Theorem C91_length : forall E limit kids s, tidy kids -> nxdl_summary E limit kids = Ok s ->
  forall k b ps n, top kids "simpleType" k n -> own_patterns_of kids k ps -> based_on kids k b ->
  exists v, dget k (su_simpleType s) = Some v /\
    ((forall m, ~ top kids "simpleType" b m) -> own_length_of E kids k (sm_maxLength v)) /\
    (forall m, top kids "simpleType" b m -> before kids m n ->
       exists vb, dget b (su_simpleType s) = Some vb /\ sm_maxLength v = sm_maxLength vb) /\
    (forall m b', top kids "simpleType" b m -> ~ before kids m n -> based_on kids b b' -> own_length_of E kids b (sm_maxLength v)).
Proof.
  intros E limit kids s TY OK k b ps n T0 Ho Hb.
  destruct Ho as (n1 & r & Tn & Rn & Pn). destruct Hb as (n' & r' & v0 & Tn' & Rn' & Bn & Ln).
  destruct (top_unique kids TY "simpleType" "simpleType" k n n1) as [X _]; auto; try (cbn; tauto). subst n1.
  destruct (top_unique kids TY "simpleType" "simpleType" k n n') as [X _]; auto; try (cbn; tauto). subst n'. rewrite Rn in Rn'. injection Rn' as <-.
  destruct (simple_rule E limit kids s TY OK k n r v0 b ps Tn Rn Bn Ln Pn) as (v & Hv & H1 & H2 & H3). exists v.
  assert (L : forall kk nn rr vv, top kids "simpleType" kk nn -> l_named "restriction" nn = [rr] -> parse_simple E nn = Ok vv -> own_length_of E kids kk (sm_maxLength vv)).
  { intros kk nn rr vv T R P. assert (Q := parse_simple_length E nn rr vv P R). exists nn, rr. split; [exact T|]. split; [exact R|].
    destruct (rev (l_named "maxLength" rr)) as [|p l] eqn:D.
    - left. split; [|exact Q]. apply (f_equal (@rev _)) in D. rewrite rev_involutive in D. exact D.
    - right. destruct Q as (x & z & Q). exists (rev l), p, x, z. split; [|exact Q]. apply (f_equal (@rev _)) in D. rewrite rev_involutive in D. exact D. }
  split; [exact Hv|]. split; [intros N; apply (L k n r v Tn Rn), H1, N|]. split.
  - intros m Tm Bm. destruct (H2 m Tm Bm) as (vb & A & _ & B). eauto.
  - intros m b' Tm Nb (m2 & rm2 & vm & Tm2 & Rm2 & Bm & _).
    destruct (top_unique kids TY "simpleType" "simpleType" b m m2) as [X _]; auto; try (cbn; tauto). subst m2.
    destruct (H3 m Tm Nb) as (vb & Pvb & _ & P1). rewrite P1. exact (L b m rm2 vb Tm Rm2 Pvb).
Qed.
Print Assumptions C91_length.
(** a limit in a declaration with a base outside of the schema; a type that has it from there *)
Definition limited_schema : list lnode :=
  [el "simpleType" 1 [("name", "short")] [el "restriction" 2 [("base", "xs:token")] [el "maxLength" 5 [("value", "7")] []; el "maxLength" 6 [("value", "63")] []]];
   el "simpleType" 7 [("name", "itemName")] [el "restriction" 8 [("base", "nx:short")] []]]
    ++ small_definition "groupGroup" ++ [basic_type 42; group_type "groupGroup"].
Example C91_length_used : tidy limited_schema /\ own_length_of env0 limited_schema (py "short") (Some 63%Z) /\
  match nxdl_summary env0 50 limited_schema with
  | Ok s => option_map sm_maxLength (dget (py "short") (su_simpleType s)) = Some (Some 63%Z) /\
            option_map sm_maxLength (dget (py "itemName") (su_simpleType s)) = Some (Some 63%Z)
  | Exn _ => False
  end.
Proof.
  split; [apply tidyb_ok; vm_compute; reflexivity|]. split; [|vm_compute; auto].
  eexists. eexists. split; [split; [left; reflexivity|]; split; reflexivity|]. split; [reflexivity|]. right.
  exists [el "maxLength" 5 [("value", "7")] []], (el "maxLength" 6 [("value", "63")] []), (py "63"), 63%Z. split; [reflexivity|]. split; [reflexivity|]. split; [apply int_number; vm_compute; reflexivity|reflexivity].
Qed.
(** a maximum length of its own is lost *)
Definition length_schema : list lnode :=
  [el "simpleType" 1 [("name", "free")] [el "restriction" 2 [("base", "xs:token")] []];
   el "simpleType" 3 [("name", "itemName")] [el "restriction" 4 [("base", "nx:free")] [el "maxLength" 5 [("value", "63")] []]]]
    ++ small_definition "groupGroup" ++ [basic_type 42; group_type "groupGroup"].
Theorem C91_length_refuted :
  ~ (forall E limit kids s k n r p z, tidy kids -> nxdl_summary E limit kids = Ok s ->
       top kids "simpleType" k n -> l_named "restriction" n = [r] -> l_named "maxLength" r = [p] ->
       (exists x, l_attr "value" p = Some x /\ whole_number E x z) ->
       exists v, dget k (su_simpleType s) = Some v /\ sm_maxLength v = Some z).
Proof.
  intros H. destruct (nxdl_summary env0 50 length_schema) as [s|e] eqn:E1; [|vm_compute in E1; discriminate].
  destruct (H env0 50%nat length_schema s (py "itemName")
    (el "simpleType" 3 [("name", "itemName")] [el "restriction" 4 [("base", "nx:free")] [el "maxLength" 5 [("value", "63")] []]])
    (el "restriction" 4 [("base", "nx:free")] [el "maxLength" 5 [("value", "63")] []])
    (el "maxLength" 5 [("value", "63")] []) 63%Z) as (v & Hv & Hp).
  - apply tidyb_ok. vm_compute. reflexivity.
  - exact E1.
  - split; [right; left; reflexivity|]. split; reflexivity.
  - reflexivity.
  - reflexivity.
  - exists (py "63"). split; [reflexivity|apply int_number; vm_compute; reflexivity].
  - vm_compute in E1. injection E1 as <-. vm_compute in Hv. injection Hv as <-. vm_compute in Hp. discriminate Hp.
Qed.
Print Assumptions C91_length_refuted.

(** ** C92 order of declarations *)
(** The order of the declarations in the schema does not matter: false. *)
Definition late_schema : list lnode := item_name :: small_definition "groupGroup" ++ [group_type "groupGroup"; basic_type 42].
Theorem C92_refuted :
  ~ (forall E limit kids1 kids2 s, tidy kids1 -> Permutation kids1 kids2 -> nxdl_summary E limit kids1 = Ok s ->
       exists s', nxdl_summary E limit kids2 = Ok s').
Proof.
  intros H. destruct (nxdl_summary env0 50 (small_schema 42)) as [s|e] eqn:E1; [|vm_compute in E1; discriminate].
  assert (TY : tidy (small_schema 42)) by (apply tidyb_ok; vm_compute; reflexivity).
  assert (P : Permutation (small_schema 42) late_schema).
  { unfold small_schema, late_schema. apply perm_skip. apply Permutation_app_head. apply perm_swap. }
  destruct (H env0 50%nat (small_schema 42) late_schema s TY P E1) as (s' & Hs). vm_compute in Hs. discriminate.
Qed.
Print Assumptions C92_refuted.
(** A type can extend only a type that is declared before it; otherwise there is no summary. *)
Theorem C92_base_first_partial : forall E limit kids s, tidy kids -> nxdl_summary E limit kids = Ok s ->
  forall T t x b bt, top kids "complexType" T t -> extension t x -> l_attr "base" x = Some b ->
  top kids "complexType" (local_name b) bt -> before kids bt t.
Proof. exact base_first. Qed.
Print Assumptions C92_base_first_partial.
Example base_first_used :
  tidy (small_schema 42) /\ (exists s, nxdl_summary env0 50 (small_schema 42) = Ok s) /\
  top (small_schema 42) "complexType" (py "groupType") (group_type "groupGroup") /\
  (exists x, extension (group_type "groupGroup") x /\ l_attr "base" x = Some (py "nx:basicType")) /\
  top (small_schema 42) "complexType" (local_name (py "nx:basicType")) (basic_type 42) /\
  nxdl_summary env0 50 late_schema = Exn KeyError.
Proof.
  split; [apply tidyb_ok; vm_compute; reflexivity|]. split; [eexists; vm_compute; reflexivity|].
  split. { split; [cbn [In small_schema small_definition app]; tauto|]. split; reflexivity. }
  split. { eexists. split; [eexists; eexists; split; [left; reflexivity|split; reflexivity]|reflexivity]. }
  split. { split; [cbn [In small_schema small_definition app]; tauto|]. split; reflexivity. }
  vm_compute. reflexivity.
Qed.

(** ** C93 recursive content *)
(** A schema whose definition has content that never ends is not read, whatever the limit of
    recursion is.  The only recursion that the program stops is a reference to "groupGroup". *)
Theorem C93_refused : forall E limit kids defn t gr G D,
  tidy kids -> defined_by kids defn t gr G D ->
  forall S : lnode -> Prop, (forall n, S n -> exists n', content kids n n' /\ S n') ->
  forall sq n0, In sq (l_named "sequence" t) -> In n0 (l_named "element" sq) \/ In n0 (l_named "group" sq) -> S n0 ->
  forall s, nxdl_summary E limit kids <> Ok s.
Proof.
  intros E limit kids defn t gr G D TY DB S HS sq n0 Hsq Hn S0 s.
  apply (endless E limit kids defn t gr G D s TY DB S HS sq n0 Hsq); [|exact S0]. apply in_or_app. exact Hn.
Qed.
Print Assumptions C93_refused.
(** the small schema with another name for its group *)
Definition renamed_schema : list lnode := item_name :: small_definition "itemGroup" ++ [basic_type 42; group_type "itemGroup"].
Example endless_used :
  tidy renamed_schema /\
  (exists defn t gr G D sq, defined_by renamed_schema defn t gr G D /\
     In sq (l_named "sequence" t) /\ In gr (l_named "group" sq) /\
     exists S : lnode -> Prop, (forall n, S n -> exists n', content renamed_schema n n' /\ S n') /\ S gr) /\
  nxdl_summary env0 200 renamed_schema = Exn RecursionError.
Proof.
  split; [apply tidyb_ok; vm_compute; reflexivity|]. split; [|vm_compute; reflexivity].
  pose (g1 := el "group" 24 [("ref", "nx:itemGroup")] []). pose (g2 := el "group" 52 [("ref", "nx:itemGroup")] []).
  pose (e1 := el "element" 30 [("name", "group"); ("type", "nx:groupType")] []).
  assert (TG : forall G, G = nth 2 (small_definition "itemGroup") LComment -> top renamed_schema "group" (local_name (py "nx:itemGroup")) G).
  { intros G ->. split; [cbn [In renamed_schema small_definition app nth]; tauto|]. split; reflexivity. }
  assert (TT : top renamed_schema "complexType" (local_name (py "nx:groupType")) (group_type "itemGroup")).
  { split; [cbn [In renamed_schema small_definition app nth]; tauto|]. split; reflexivity. }
  assert (ST : forall n, n = g1 \/ n = g2 \/ n = e1 -> exists n', content renamed_schema n n' /\ (n' = g1 \/ n' = g2 \/ n' = e1)).
  { intros n [->|[->| ->]].
    - exists e1. split; [|auto]. apply (co_group _ g1 (py "nx:itemGroup") _ e1 eq_refl eq_refl eq_refl (TG _ eq_refl)). cbn; tauto.
    - exists e1. split; [|auto]. apply (co_group _ g2 (py "nx:itemGroup") _ e1 eq_refl eq_refl eq_refl (TG _ eq_refl)). cbn; tauto.
    - exists g2. split; [|auto]. apply (co_element _ e1 (py "nx:groupType") (group_type "itemGroup") (el "sequence" 51 [] [g2]) g2 eq_refl eq_refl eq_refl TT).
      + left. reflexivity.
      + right. split; [left; reflexivity|]. intros (_ & v & Hv & Hl). injection Hv as <-. vm_compute in Hl. discriminate. }
  destruct (the_definition renamed_schema) as [[[[[defn t] gr] G] D]|] eqn:E1; [|vm_compute in E1; discriminate].
  exists defn, t, gr, G, D. exists (hd LComment (l_named "sequence" t)).
  assert (X : definedb renamed_schema defn t gr D = true /\ gr = g1 /\ In (hd LComment (l_named "sequence" t)) (l_named "sequence" t) /\
              In gr (l_named "group" (hd LComment (l_named "sequence" t)))).
  { vm_compute in E1. injection E1 as <- <- <- <- <-. split; [vm_compute; reflexivity|]. split; [vm_compute; reflexivity|].
    split; vm_compute; auto. }
  destruct X as (X1 & X2 & X3 & X4). split; [exact (the_definition_ok _ _ _ _ _ _ E1 X1)|]. split; [exact X3|]. split; [exact X4|].
  exists (fun n => n = g1 \/ n = g2 \/ n = e1). split; [exact ST|]. left. exact X2.
Qed.

(** ** C94 the shipped schemas *)
(** For each shipped file set the schema is read, and offers the defaults that the loader of
    NXDL files takes from it. *)
Theorem C94_shipped : forall kids, In kids [xsd_v2018_5; xsd_v3_3; xsd_a4fd52d] ->
  exists s, nxdl_summary env0 200 kids = Ok s /\
    (exists v, attribute_of (su_heap s) (su_attribute s) (py "optional") = Some v /\ ad_default v = Some (py "true")) /\
    (exists v, attribute_of (su_heap s) (su_field s) (py "minOccurs") = Some v /\ ad_default v = Some (py "0")) /\
    (exists v, attribute_of (su_heap s) (su_group_attrs s) (py "minOccurs") = Some v /\ ad_default v = Some (py "0")) /\
    (exists i j, component_of (su_heap s) (su_field s) (py "dimensions") = Some i /\
                 component_of (su_heap s) i (py "dim") = Some j) /\
    (exists v, attribute_of (su_heap s) (su_definition s) (py "name") = Some v /\ ad_required v = true).
Proof.
  pose (dflt := fun s i k d => match attribute_of (su_heap s) i (py k) with
    | Some v => match ad_default v with Some x => str_eqb x (py d) | None => false end | None => false end).
  assert (D : forall s i k d, dflt s i k d = true -> exists v, attribute_of (su_heap s) i (py k) = Some v /\ ad_default v = Some (py d)).
  { intros s i k d H. unfold dflt in H. destruct (attribute_of (su_heap s) i (py k)) as [v|]; [|discriminate]. exists v. split; [reflexivity|].
    destruct (ad_default v); [|discriminate]. apply str_eqb_eq in H. congruence. }
  pose (check := fun s => dflt s (su_attribute s) "optional" "true" && dflt s (su_field s) "minOccurs" "0" && dflt s (su_group_attrs s) "minOccurs" "0" &&
    match component_of (su_heap s) (su_field s) (py "dimensions") with
    | Some i => match component_of (su_heap s) i (py "dim") with Some _ => true | None => false end | None => false end &&
    match attribute_of (su_heap s) (su_definition s) (py "name") with Some v => ad_required v | None => false end).
  assert (C : forall s, check s = true ->
    (exists v, attribute_of (su_heap s) (su_attribute s) (py "optional") = Some v /\ ad_default v = Some (py "true")) /\
    (exists v, attribute_of (su_heap s) (su_field s) (py "minOccurs") = Some v /\ ad_default v = Some (py "0")) /\
    (exists v, attribute_of (su_heap s) (su_group_attrs s) (py "minOccurs") = Some v /\ ad_default v = Some (py "0")) /\
    (exists i j, component_of (su_heap s) (su_field s) (py "dimensions") = Some i /\
                 component_of (su_heap s) i (py "dim") = Some j) /\
    (exists v, attribute_of (su_heap s) (su_definition s) (py "name") = Some v /\ ad_required v = true)).
  { intros s H. unfold check in H. repeat rewrite andb_true_iff in H. destruct H as ((((H1 & H2) & H3) & H4) & H5).
    split; [exact (D _ _ _ _ H1)|]. split; [exact (D _ _ _ _ H2)|]. split; [exact (D _ _ _ _ H3)|]. split.
    - destruct (component_of (su_heap s) (su_field s) (py "dimensions")) as [i|]; [|discriminate].
      destruct (component_of (su_heap s) i (py "dim")) as [j|] eqn:E1; [|discriminate]. exists i, j. auto.
    - destruct (attribute_of (su_heap s) (su_definition s) (py "name")) as [v|]; [|discriminate]. exists v. auto. }
  assert (X : forall kids, match nxdl_summary env0 200 kids with Ok s => check s | Exn _ => false end = true ->
    exists s, nxdl_summary env0 200 kids = Ok s /\ check s = true).
  { intros kids H. destruct (nxdl_summary env0 200 kids) as [s|]; [exists s; auto|discriminate]. }
  intros kids Hk. destruct (X kids) as (s & Hs & Cs); [|exists s; split; [exact Hs|exact (C s Cs)]].
  destruct Hk as [<-|[<-|[<-|[]]]]; vm_compute; reflexivity.
Qed.
Print Assumptions C94_shipped.
