(** * Lemmas: a validator and the files of its file set *)

From Coq Require Import List NArith ZArith Bool String Permutation Lia.
From Verif Require Import PyBase PyFacts H5 Findings Nxdl NxdlLoad SchemaMgr NxdlSchema Core Validate Session Spec_Run Spec_Catalog Spec_Groups
  Spec_Attributes Spec_AppDef Spec_Nxdl Spec_Session NxdlFacts GroupEnd.
Import ListNotations.
Open Scope string_scope.
Open Scope list_scope.

Lemma open_parts : forall E fuel limit reclimit valid D path g g' u cl,
  open_file_set E fuel limit reclimit valid D path g = (g', Ok (u, cl)) ->
  exists d sm, nxdl_manager E limit valid D path = Ok (d, cl) /\ schema_manager E fuel (xsd_of D) g = (g', Ok sm)
    /\ u = mkSetup E (map (fun kp => (fst kp, sp_res (snd kp))) (SchemaMgr.sm_patterns sm)) reclimit (minOccurs_of d).
Proof.
  unfold open_file_set. intros E fuel limit reclimit valid D path g g' u cl H.
  destruct (first_file_checked E limit D path);
  (destruct (nxdl_manager E limit valid D path) as [[d c]|e] eqn:M; [|destruct (schema_manager E fuel (xsd_of D) g) as [g1 [sm|e']] eqn:S; discriminate H]);
  (destruct (schema_manager E fuel (xsd_of D) g) as [g1 [sm|e]] eqn:S; [|discriminate H]);
  cbn [rbind fst snd] in H; inversion H; subst; exists d, sm; auto.
Qed.

Lemma open_env : forall E fuel limit reclimit valid D path g g' u cl,
  open_file_set E fuel limit reclimit valid D path g = (g', Ok (u, cl)) -> u_env u = E.
Proof. intros. apply open_parts in H as (d & sm & _ & _ & ->). reflexivity. Qed.

(** either the classes come from the loader, or there are no NXDL files *)
Lemma manager_parts : forall E limit valid D path d cl, nxdl_manager E limit valid D path = Ok (d, cl) ->
  (exists su d0 d', d0 = defaults_of su /\ d = Some d' /\ load_manager (sd_ls D) valid (sd_content D) d0 path = (d', Ok cl))
  \/ (d = None /\ cl = [] /\ get_NXDL_file_list (sd_ls D) path = Ok []).
Proof.
  unfold nxdl_manager. intros E limit valid D path d cl H. destruct (sd_ls D path); [|discriminate].
  destruct (sd_nxdl D) as [kids|].
  - destruct (nxdl_summary E limit kids) as [su|e]; cbn [rbind] in H; [|discriminate].
    destruct (load_manager (sd_ls D) valid (sd_content D) (defaults_of su) path) as [d' [c|e]] eqn:L; inversion H; subst. left. eauto 8.
  - destruct (get_NXDL_file_list (sd_ls D) path) as [[|x l]|e] eqn:L; cbn [rbind] in H; inversion H; subst. right. auto.
Qed.

Lemma no_files : forall D path, get_NXDL_file_list (sd_ls D) path = Ok [] -> forall c t, In c categories -> ~ defines (sd_ls D) path c t.
Proof.
  intros D path H c t I F. unfold defines in F. pose proof (manager_files _ _ _ H (class_file path c t)) as [_ M].
  apply M. destruct I as [<- | [<- | [<- | []]]]; auto.
Qed.

Lemma session_class : forall E limit valid D path d cl, nxdl_manager E limit valid D path = Ok (d, cl) -> ordinary_names D ->
  forall cat t root, class_nxdl D path cat t root ->
  exists def, dget t cl = Some def /\ loaded_def root def /\ d_title def = t /\ d_category def = cat.
Proof.
  intros E limit valid D path d cl H [O1 O2] cat t root (early & late & C & DF & N & R).
  destruct (manager_parts _ _ _ _ _ _ _ H) as [(su & d0 & d' & _ & _ & L) | (_ & _ & F)].
  - destruct (manager_class _ _ _ _ _ _ _ early cat late t O1 O2 L C DF N) as (root' & def & A & B & X & Y & Z).
    rewrite R in A. inversion A; subst. eauto.
  - exfalso. refine (no_files _ _ F cat t _ DF). rewrite C. apply in_or_app. right. left. auto.
Qed.

Lemma session_no_class : forall E limit valid D path d cl, nxdl_manager E limit valid D path = Ok (d, cl) -> ordinary_names D ->
  forall t, no_class_nxdl D path t -> dget t cl = None.
Proof.
  intros E limit valid D path d cl H [O1 O2] t N.
  destruct (manager_parts _ _ _ _ _ _ _ H) as [(su & d0 & d' & _ & _ & L) | (_ & -> & _)]; [|reflexivity].
  eapply manager_no_class; eauto.
Qed.

Lemma defines_dec : forall ls dir cat t, {defines ls dir cat t} + {~ defines ls dir cat t}.
Proof.
  intros ls dir cat t. destruct (ls (path_join dir cat)) as [[|names]|] eqn:L.
  - right. intros (n & b & A & _). rewrite L in A. discriminate.
  - destruct (in_dec (list_eq_dec N.eq_dec) (t ++ py ".nxdl.xml") names) as [I | I].
    + left. exists names, t. auto.
    + right. intros (n & b & A & B & C). rewrite L in A. inversion A; subst. apply path_join_inj in C. apply I. rewrite C. exact B.
  - right. intros (n & b & A & _). rewrite L in A. discriminate.
Qed.

Lemma last_of : forall (P : pystr -> Prop), (forall x, {P x} + {~ P x}) -> forall l,
  (forall c, In c l -> ~ P c) \/ exists early c late, l = early ++ c :: late /\ P c /\ forall x, In x late -> ~ P x.
Proof.
  intros P dec l. induction l as [|x l IH]; [left; intros c []|].
  destruct IH as [IH | (e & c & r & -> & A & B)].
  - destruct (dec x) as [Y | N].
    + right. exists [], x, l. auto.
    + left. intros c [<- | I]; auto.
  - right. exists (x :: e), c, r. auto.
Qed.

(** every name has the NXDL file of a loaded class, or none *)
Lemma class_or_not : forall E limit valid D path d cl, nxdl_manager E limit valid D path = Ok (d, cl) -> ordinary_names D ->
  forall t, (no_class_nxdl D path t /\ dget t cl = None)
    \/ exists cat root def, class_nxdl D path cat t root /\ dget t cl = Some def /\ loaded_def root def /\ d_title def = t /\ d_category def = cat.
Proof.
  intros E limit valid D path d cl H O t. pose proof O as [O1 O2].
  destruct (last_of (fun c => defines (sd_ls D) path c t) (fun c => defines_dec _ _ c t) categories) as [N | (early & cat & late & C & DF & N)].
  - left. split; auto. eapply session_no_class; eauto.
  - right. destruct (manager_parts _ _ _ _ _ _ _ H) as [(su & d0 & d' & _ & _ & L) | (_ & _ & F)].
    + destruct (manager_class _ _ _ _ _ _ _ early cat late t O1 O2 L C DF N) as (root & def & A & B & X & Y & Z).
      exists cat, root, def. split; auto. exists early, late. auto.
    + exfalso. refine (no_files _ _ F cat t _ DF). rewrite C. apply in_or_app. right. left. auto.
Qed.

Lemma Forall2_len : forall {A B} (R : A -> B -> Prop) l l', Forall2 R l l' -> List.length l' = List.length l.
Proof. intros A B R l l' F. induction F; cbn [List.length]; auto. Qed.

Lemma def_entries : forall root def, loaded_def root def -> entry_names root (map fst (d_groups def)) (map fst (d_fields def)) (map fst (d_links def)).
Proof.
  intros root def [N G F L A]. split; [exact N|].
  split; [rewrite map_length; eapply Forall2_len; eauto|]. split; rewrite map_length; eapply Forall2_len; eauto.
Qed.

Lemma group_entries : forall n g, loaded_group n g -> entry_names n (map fst (g_groups g)) (map fst (g_fields g)) (map fst (g_links g)).
Proof.
  intros n g [N G F L A]. split; [exact N|].
  split; [rewrite map_length; eapply Forall2_len; eauto|]. split; rewrite map_length; eapply Forall2_len; eauto.
Qed.

(** distinct names are kept *)
Lemma names_given_own : forall raws keys, names_given raws keys -> NoDup raws -> keys = raws.
Proof.
  intros raws keys H. induction H as [|raws keys raw new H IH N]; intros ND; auto.
  assert (ND' : NoDup raws /\ ~ In raw raws).
  { apply NoDup_remove in ND. rewrite app_nil_r in ND. exact ND. }
  destruct ND' as [ND' NI]. rewrite (IH ND') in *. f_equal. f_equal.
  inversion N; subst; auto. contradiction.
Qed.

Lemma app_split_eq : forall {A} (a b c d : list A), List.length a = List.length c -> a ++ b = c ++ d -> a = c /\ b = d.
Proof.
  induction a as [|x a IH]; intros b [|y c] d L H; cbn [List.length app] in *; try discriminate; auto.
  inversion H; subst. destruct (IH b c d) as [-> ->]; auto.
Qed.

Lemma entry_names_own : forall n gk fk lk, entry_names n gk fk lk -> NoDup (raw_names n) ->
  gk = map group_name (elements (py "group") n) /\ fk = map element_name (elements (py "field") n) /\ lk = map element_name (elements (py "link") n).
Proof.
  intros n gk fk lk (N & G & F & L) ND. apply names_given_own in N; auto. unfold raw_names in N.
  apply app_split_eq in N as [-> N]; [|rewrite map_length; auto]. apply app_split_eq in N as [-> ->]; [|rewrite map_length; auto]. auto.
Qed.

Lemma member_of_child : forall w h d n f, child_finding w h d n f ->
  member_finding w h (d_title d) (map fst (d_groups d)) (map fst (d_fields d)) n f.
Proof. intros w h d n f H. inversion H; subst; econstructor; eauto. Qed.

(** ** Application definitions *)
From Verif Require Import Spec_Plot AppRun.

Lemma followed_of : forall E limit valid D path d cl, nxdl_manager E limit valid D path = Ok (d, cl) -> ordinary_names D ->
  forall w it fs, fields_report E w cl it fs -> followed_fields E w D path it fs.
Proof.
  intros E limit valid D path d cl M PN w it fs H. destruct H as [h name A B C | h name def k entry rest fs A B C G F].
  - destruct (class_or_not _ _ _ _ _ _ _ M PN name) as [[N _] | (cat & root & def & _ & X & _)]; [|congruence].
    eapply ff_unknown; eauto.
  - destruct (class_or_not _ _ _ _ _ _ _ M PN name) as [[_ X] | (cat & root & def' & N & X & L & _)]; [congruence|].
    rewrite C in X. inversion X; subst def'. pose proof (ld_groups _ _ L) as LG. rewrite G in LG.
    inversion LG as [|first ? rest' ? [_ LF] LR HE]; subst.
    eapply (ff_known E w D path it h name cat root first rest'); eauto; [apply group_entries; eauto|].
    cbn [snd]. revert F. generalize (g_fields entry) as l. clear. intros l. revert fs. induction l as [|x l IH]; intros fs F; inversion F; subst; cbn [map]; constructor; auto.
Qed.

Lemma minOccurs_after : forall E limit valid D path d cl, nxdl_manager E limit valid D path = Ok (d, cl) -> listed_names_plain (sd_ls D) ->
  (application_with_field (sd_ls D) (sd_content D) path /\ minOccurs_of d = Some 1%Z)
  \/ (~ application_with_field (sd_ls D) (sd_content D) path /\ minOccurs_of d = None).
Proof.
  intros E limit valid D path d cl M PN. destruct (manager_parts _ _ _ _ _ _ _ M) as [(su & d0 & d' & -> & -> & L) | (-> & _ & F)].
  - destruct (manager_moved _ _ _ _ _ _ _ PN L) as [[A B] | [A B]]; [left | right]; split; auto; unfold minOccurs_of; destruct d' as [x y z z1 z2]; cbn [df_field_minOccurs] in B; subst; auto.
    unfold defaults_of. cbn [df_field_minOccurs]. destruct (attribute_of (su_heap su) (su_field su) (py "minOccurs")) as [a|]; cbn [option_map]; auto.
    unfold dflt_of. destruct (ad_default a); auto.
  - right. split; auto. intros (file & root & (names & base & A & B & ->) & _).
    pose proof (manager_files _ _ _ F (path_join (path_join path (py "applications")) (base ++ py ".nxdl.xml"))) as [_ X].
    apply X. right. left. exists names, base. auto.
Qed.

Lemma enumeration_texts : forall E w mo cl it fs, definition_report E w mo cl it fs ->
  forall f, In f fs -> f_test f = py "NXDL field enumerations" -> exists ad field rest, f_comment f = enumeration_text mo ad field ++ rest.
Proof.
  intros E w mo cl it fs H f I T. destruct H as [h name A B C | h name d k entry rest st cm fss A B C G S F].
  - destruct I as [<- | []]. discriminate T.
  - destruct I as [<- | [<- | [<- | I]]]; try discriminate T.
    apply in_concat in I as (l & I1 & I2).
    assert (X : exists ns, field_report E w mo name it h ns l).
    { clear - F I1. induction F as [|x y a b R F IH]; [destruct I1|]. destruct I1 as [<- | I1]; eauto. }
    destruct X as (ns & fh & f0 & e & _ & FF & EE & ->). destruct I2 as [<- | I2].
    + unfold field_finding in FF. destruct fh; subst f0; discriminate T.
    + destruct EE as [[_ ->] | (t & x & st' & cm' & _ & _ & _ & -> & [(-> & s & _ & _ & ->) | (-> & _ & texts & _ & ->)])]; [destruct I2| |];
        destruct I2 as [<- | []]; cbn [f_comment]; eauto.
Qed.

(** the patterns that a schema manager holds are those of nxdl.xsd *)
Lemma manager_patterns : forall E fuel d g g' sm, schema_manager E fuel d g = (g', Ok sm) ->
  exists root, xd_nxdl d = Some root /\ parse_nxdl_patterns E root = Ok (SchemaMgr.sm_patterns sm).
Proof.
  unfold schema_manager. intros E fuel d g g' sm H. destruct (xd_nxdl d) as [root|]; [|discriminate]. exists root. split; auto.
  destruct (s_named (py "element") root) as [|el [|]]; try discriminate. destruct (dget (py "type") (s_attrib el)) as [ty|]; [|discriminate].
  unfold gbind, glift in H.
  destruct (get_named_node root (Some (py "complexType")) (strip_ns ty)) as [n|]; [|discriminate].
  destruct (root_content fuel root (s_kids n) g) as [g1 [x|]]; [|discriminate].
  destruct (parse_nxdlTypes (xd_types d)) as [tu|]; [|discriminate].
  destruct (parse_nxdl_patterns E root) as [ps|]; [|discriminate]. inversion H; subst. reflexivity.
Qed.

(** ** Deciding [bases_first] for the examples *)
From Verif Require Import Spec_Schema SchemaFacts.

Definition base_ok (before all : list pystr) (k : snode) : bool :=
  match k with
  | SN tag ra rk =>
      if str_eqb tag (py "restriction") then
        match dget (py "base") ra with
        | Some base => let b := strip_ns base in
            negb (startswith b (py "valid")) || negb (existsb (str_eqb b) all) || existsb (str_eqb b) before
        | None => true
        end
      else true
  | SComment => true
  end.
Fixpoint bases_firstb (before : list snode) (all : list pystr) (l : list snode) : bool :=
  match l with
  | [] => true
  | n :: rest => forallb (base_ok (type_names before) all) (s_kids n) && bases_firstb (before ++ [n]) all rest
  end.

Lemma existsb_str : forall b l, existsb (str_eqb b) l = true <-> In b l.
Proof.
  intros b l. rewrite existsb_exists. split.
  - intros (x & A & B). apply str_eqb_eq in B. subst. auto.
  - intros I. exists b. split; auto. apply str_eqb_eq. auto.
Qed.

Lemma bases_firstb_at : forall all l1 before n l2, bases_firstb before all (l1 ++ n :: l2) = true ->
  forallb (base_ok (type_names (before ++ l1)) all) (s_kids n) = true.
Proof.
  induction l1 as [|x l1 IH]; intros before n l2 H; cbn [app bases_firstb] in H; apply andb_true_iff in H as [H1 H2].
  - rewrite app_nil_r. auto.
  - apply IH in H2. rewrite <- app_assoc in H2. exact H2.
Qed.

Lemma bases_firstb_ok : forall E root, bases_firstb [] (type_names root) root = true -> bases_first E root.
Proof.
  intros E root H l1 n l2 t b ps m -> D Vt Vb I. apply bases_firstb_at in H. cbn [app] in H.
  destruct D as (attrib & kids & ra & rk & base & -> & _ & IK & B & AC & _). cbn [s_kids] in H.
  rewrite forallb_forall in H. specialize (H _ IK). unfold base_ok in H. rewrite B in H.
  apply after_colon_strip in AC. rewrite AC in H. change (str_eqb (py "restriction") (py "restriction")) with true in H. cbv beta iota zeta in H.
  apply orb_true_iff in H as [H | H]; [|apply existsb_str; auto]. exfalso.
  apply orb_true_iff in H as [H | H]; apply negb_true_iff in H.
  - destruct Vb as (u & ->). assert (X : startswith (py "valid" ++ u) (py "valid") = true) by (apply startswith_spec; eauto). congruence.
  - apply existsb_str in I. congruence.
Qed.
