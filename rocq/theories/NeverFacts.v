(** * Where InvalidNxdlFile does not come from *)

From Coq Require Import List NArith ZArith Bool String Lia.
From Verif Require Import PyBase PyFacts H5 Nxdl NxdlLoad SchemaMgr NxdlSchema Json Cache Install InfoFile Session.
Import ListNotations.
Open Scope string_scope.
Open Scope list_scope.

Definition nev {A} (r : res A) : Prop := r <> Exn InvalidNxdlFile.
Definition nevs {St A} (m : St -> St * res A) : Prop := forall s, nev (snd (m s)).

Lemma nev_ok : forall A (a : A), nev (Ok a).
Proof. intros A a. discriminate. Qed.
Lemma nev_bind : forall A B (m : res A) (f : A -> res B), nev m -> (forall a, nev (f a)) -> nev (rbind m f).
Proof. intros A B [a|e] f H K; cbn [rbind]; [apply K|]. intros X. injection X as ->. apply H. reflexivity. Qed.
Lemma nevs_sbind : forall A B (m : SM A) (f : A -> SM B), nevs m -> (forall a, nevs (f a)) -> nevs (sbind m f).
Proof. intros A B m f H K s. unfold sbind. specialize (H s). destruct (m s) as [s' [a|e]]; [apply K|]. intros X. injection X as ->. apply H. reflexivity. Qed.
Lemma nevs_gbind : forall A B (m : GM A) (f : A -> GM B), nevs m -> (forall a, nevs (f a)) -> nevs (gbind m f).
Proof. intros A B m f H K s. unfold gbind. specialize (H s). destruct (m s) as [s' [a|e]]; [apply K|]. intros X. injection X as ->. apply H. reflexivity. Qed.
Lemma nevs_lbind : forall A B (m : LM A) (f : A -> LM B), nevs m -> (forall a, nevs (f a)) -> nevs (lbind m f).
Proof. intros A B m f H K s. unfold lbind. specialize (H s). destruct (m s) as [s' [a|e]]; [apply K|]. intros X. injection X as ->. apply H. reflexivity. Qed.
Lemma nevs_slift : forall A (r : res A), nev r -> nevs (slift r).
Proof. intros A r H s. exact H. Qed.
Lemma nevs_glift : forall A (r : res A), nev r -> nevs (glift r).
Proof. intros A r H s. exact H. Qed.
Lemma nevs_llift : forall A (r : res A), nev r -> nevs (llift r).
Proof. intros A r H s. exact H. Qed.
Lemma nevs_of_sm : forall A (m : SM A), nevs m -> nevs (of_sm m).
Proof. intros A m H s. unfold of_sm. specialize (H (sh_started s)). destruct (m (sh_started s)) as [b r]. exact H. Qed.
Lemma nev_getitem : forall V k (d : dict V), nev (dgetitem k d).
Proof. intros V k d. unfold dgetitem. destruct (dget k d); discriminate. Qed.
Lemma nev_int : forall E s, nev (py_int_text E s).
Proof. intros E s. unfold py_int_text. repeat match goal with |- nev (match ?x with _ => _ end) => destruct x end; discriminate. Qed.
Lemma nev_traverse : forall A B (f : A -> res B) l, (forall x, nev (f x)) -> nev (traverse f l).
Proof. intros A B f l H. induction l as [|x l IH]; [discriminate|]. cbn [traverse]. apply nev_bind; [apply H|]. intros. apply nev_bind; [exact IH|]. discriminate. Qed.

Create HintDb nev.
#[export] Hint Resolve nev_ok nev_getitem nev_int nev_traverse : nev.

Ltac nv := repeat first
  [ progress intros
  | discriminate
  | assumption
  | solve [eauto with nev]
  | match goal with
    | |- nev (rbind _ _) => apply nev_bind
    | |- nevs (sbind _ _) => apply nevs_sbind
    | |- nevs (gbind _ _) => apply nevs_gbind
    | |- nevs (lbind _ _) => apply nevs_lbind
    | |- nevs (slift _) => apply nevs_slift
    | |- nevs (glift _) => apply nevs_glift
    | |- nevs (llift _) => apply nevs_llift
    | |- nevs (of_sm _) => apply nevs_of_sm
    | |- nev (let _ := _ in _) => cbv zeta
    | |- nev (match ?x with _ => _ end) => destruct x
    | |- nevs (match ?x with _ => _ end) => destruct x
    | |- nevs (sret _) => intros ? ; discriminate
    | |- nevs (sraise _) => intros ?; discriminate
    | |- nevs (gret _) => intros ?; discriminate
    | |- nevs (graise _) => intros ?; discriminate
    | |- nevs (lret _) => intros ?; discriminate
    | |- nevs (lraise _) => intros ?; discriminate
    | |- nevs get_started => intros ?; discriminate
    | |- nevs set_started => intros ?; discriminate
    | |- nevs (change _) => intros ?; discriminate
    end ].

(** ** nxdl_schema.py *)
Lemma nev_parse_sattr : forall n, nev (parse_sattr n).
Proof. intros n. unfold parse_sattr. nv. Qed.
#[export] Hint Resolve nev_parse_sattr : nev.
Lemma nev_new_sattr : forall n h, nev (new_sattr n h).
Proof. intros n h. unfold new_sattr. nv. Qed.
Lemma nev_alloc_all : forall A (f : A -> heap -> res (heap * nat)) l h, (forall x h, nev (f x h)) -> nev (alloc_all f l h).
Proof. intros A f l. induction l as [|x l IH]; intros h H; [discriminate|]. cbn [alloc_all]. nv. Qed.
#[export] Hint Resolve nev_new_sattr nev_alloc_all : nev.
Lemma nev_new_selem_at : forall fuel n h, nev (new_selem_at fuel n h).
Proof. induction fuel as [|fuel IH]; intros n h; [discriminate|]. cbn [new_selem_at]. nv. Qed.
#[export] Hint Resolve nev_new_selem_at : nev.
Lemma nev_new_selem : forall n h, nev (new_selem n h).
Proof. intros. apply nev_new_selem_at. Qed.
#[export] Hint Resolve nev_new_selem : nev.
Lemma nev_new_sgroup : forall n h, nev (new_sgroup n h).
Proof. intros. unfold new_sgroup. nv. Qed.
#[export] Hint Resolve nev_new_sgroup : nev.
Lemma nev_rule_patterns : forall l acc, nev (rule_patterns acc l).
Proof. induction l as [|p l IH]; intros acc; [discriminate|]. cbn [rule_patterns]. nv. Qed.
Lemma nev_rule_maxLength : forall E l m, nev (rule_maxLength E m l).
Proof. intros E. induction l as [|p l IH]; intros m; [discriminate|]. cbn [rule_maxLength]. nv. Qed.
#[export] Hint Resolve nev_rule_patterns nev_rule_maxLength : nev.
Lemma nev_restrictions : forall E l s, nev (restrictions E s l).
Proof. intros E. induction l as [|p l IH]; intros s; [discriminate|]. cbn [restrictions]. nv. Qed.
#[export] Hint Resolve nev_restrictions : nev.
Lemma nev_simple_types : forall E l db, nev (simple_types E db l).
Proof. intros E. induction l as [|p l IH]; intros db; [discriminate|]. cbn [simple_types]. unfold parse_simple. nv. Qed.
#[export] Hint Resolve nev_simple_types : nev.
Lemma nev_cat_simple : forall E kids c, nev (cat_simple E kids c).
Proof. intros. unfold cat_simple, all_simple_types. nv. Qed.
Lemma nev_cat_attributes : forall l c, nev (cat_attributes l c).
Proof. induction l as [|p l IH]; intros c; [discriminate|]. cbn [cat_attributes]. nv. Qed.
Lemma nev_cat_attributeGroups : forall l c, nev (cat_attributeGroups l c).
Proof. induction l as [|p l IH]; intros c; [discriminate|]. cbn [cat_attributeGroups]. nv. Qed.
Lemma nev_cat_elements : forall l c, nev (cat_elements l c).
Proof. induction l as [|p l IH]; intros c; [discriminate|]. cbn [cat_elements]. nv. Qed.
Lemma nev_cat_groups : forall l c, nev (cat_groups l c).
Proof. induction l as [|p l IH]; intros c; [discriminate|]. cbn [cat_groups]. nv. Qed.
Lemma nev_by_line : forall s n, nev (by_line s n).
Proof. intros. unfold by_line. nv. Qed.
Lemma nev_schema_children : forall c n, nev (schema_children c n).
Proof. intros. unfold schema_children. nv. Qed.
#[export] Hint Resolve nev_cat_simple nev_cat_attributes nev_cat_attributeGroups nev_cat_elements nev_cat_groups nev_by_line nev_schema_children : nev.
Lemma nev_ct_sequence : forall c n, nev (ct_sequence c n).
Proof. intros. unfold ct_sequence. nv. Qed.
#[export] Hint Resolve nev_ct_sequence : nev.
Lemma nev_ct_extension : forall c n, nev (ct_extension c n).
Proof. intros. unfold ct_extension. nv. Qed.
#[export] Hint Resolve nev_ct_extension : nev.
Lemma nev_ct_content : forall c n, nev (ct_content c n).
Proof. intros. unfold ct_content. nv. Qed.
Lemma nev_ct_attributeGroup : forall c n, nev (ct_attributeGroup c n).
Proof. intros. unfold ct_attributeGroup. nv. Qed.
#[export] Hint Resolve nev_ct_content nev_ct_attributeGroup : nev.
Lemma nev_ct_children : forall c n, nev (ct_children c n).
Proof. intros. unfold ct_children. nv. Qed.
#[export] Hint Resolve nev_ct_children : nev.
Lemma nev_cat_complexTypes : forall l c, nev (cat_complexTypes l c).
Proof. induction l as [|p l IH]; intros c; [discriminate|]. cbn [cat_complexTypes]. nv. Qed.
#[export] Hint Resolve nev_cat_complexTypes : nev.
Lemma nev_read_catalog : forall E kids, nev (read_catalog E kids).
Proof. intros. unfold read_catalog. nv. Qed.
Lemma nev_deepcopy : forall fuel i h, nev (deepcopy fuel i h).
Proof. induction fuel as [|fuel IH]; intros i h; [discriminate|]. cbn [deepcopy]. nv. Qed.
Lemma nev_for_each : forall A (f : A -> heap -> res heap) l h, (forall x h, nev (f x h)) -> nev (for_each f l h).
Proof. intros A f l. induction l as [|x l IH]; intros h H; [discriminate|]. cbn [for_each]. nv. Qed.
#[export] Hint Resolve nev_read_catalog nev_deepcopy nev_for_each : nev.
Lemma nev_substitute : forall fuel recurse schema types i h, (forall i h, nev (recurse i h)) -> nev (substitute fuel recurse schema types i h).
Proof. intros. unfold substitute. nv; try (apply nev_for_each; nv). Qed.
#[export] Hint Resolve nev_substitute : nev.
Lemma nev_apply : forall fuel schema types i h, nev (apply_substitutions fuel schema types i h).
Proof. induction fuel as [|fuel IH]; intros; [discriminate|]. cbn [apply_substitutions]. nv. Qed.
#[export] Hint Resolve nev_apply : nev.
Lemma nev_init_definition : forall fuel kids c, nev (init_definition fuel kids c).
Proof. intros. unfold init_definition. nv. Qed.
Lemma nev_build_tree : forall fuel h i, nev (build_tree fuel h i).
Proof. induction fuel as [|fuel IH]; intros; [discriminate|]. cbn [build_tree]. nv. Qed.
Lemma nev_first_value : forall V (d : dict V), nev (first_value d).
Proof. intros. unfold first_value. nv. Qed.
#[export] Hint Resolve nev_init_definition nev_build_tree nev_first_value : nev.
Lemma nev_summary : forall E limit kids, nev (nxdl_summary E limit kids).
Proof. intros. unfold nxdl_summary. nv. Qed.

(** ** nxdl_manager.py *)
Lemma nev_unique : forall names n, nev (ensure_unique_name names n).
Proof. intros. unfold ensure_unique_name. nv. Qed.
Lemma nev_parse_attribute : forall n, nev (parse_attribute n).
Proof. intros. unfold parse_attribute. nv. Qed.
Lemma nev_parse_link : forall n, nev (parse_link n).
Proof. intros. unfold parse_link. nv. Qed.
Lemma nevs_app_attr : forall c, nevs (app_attr c).
Proof. intros c d. unfold app_attr. destruct (str_eqb c (py "applications")); [destruct (df_attr_optional d)|]; discriminate. Qed.
Lemma nevs_app_field : forall c, nevs (app_field c).
Proof. intros c d. unfold app_field. destruct (str_eqb c (py "applications")); [destruct (df_field_minOccurs d)|]; discriminate. Qed.
Lemma nevs_app_group : forall c, nevs (app_group c).
Proof. intros c d. unfold app_group. destruct (str_eqb c (py "applications")); [destruct (df_group_minOccurs d)|]; discriminate. Qed.
#[export] Hint Resolve nev_unique nev_parse_attribute nev_parse_link nevs_app_attr nevs_app_field nevs_app_group : nev.
Lemma nevs_parse_attributes : forall cat l acc, nevs (parse_attributes cat acc l).
Proof. intros cat. induction l as [|n l IH]; intros acc; cbn [parse_attributes]; nv. Qed.
Lemma nevs_parse_dims : forall l acc, nevs (parse_dims acc l).
Proof. induction l as [|n l IH]; intros acc d; cbn [parse_dims]; [discriminate|]. destruct (df_dim d); [apply IH|discriminate]. Qed.
#[export] Hint Resolve nevs_parse_attributes nevs_parse_dims : nev.
Lemma nevs_parse_dimensions : forall n, nevs (parse_dimensions n).
Proof.
  intros n d. unfold parse_dimensions. destruct (df_dimensions d); [|discriminate].
  match goal with |- nev (snd (?m d)) => enough (X : nevs m) by exact (X d) end. nv.
Qed.
#[export] Hint Resolve nevs_parse_dimensions : nev.
Lemma nevs_parse_field : forall cat n, nevs (parse_field cat n).
Proof. intros. unfold parse_field. nv. Qed.
#[export] Hint Resolve nevs_parse_field : nev.
Lemma nevs_parse_fields : forall cat groups l acc, nevs (parse_fields cat groups acc l).
Proof. intros cat groups. induction l as [|n l IH]; intros acc; cbn [parse_fields]; nv. Qed.
Lemma nevs_parse_links : forall others l acc, nevs (parse_links others acc l).
Proof. intros others. induction l as [|n l IH]; intros acc; cbn [parse_links]; nv. Qed.
Lemma nevs_parse_groups_with : forall f cat l acc, (forall n, In n l -> nevs (f n)) -> nevs (parse_groups_with f cat acc l).
Proof.
  intros f cat. induction l as [|n l IH]; intros acc H; cbn [parse_groups_with]; [nv|].
  assert (K : forall m, In m l -> nevs (f m)) by (intros m I; apply H; right; exact I). assert (F : nevs (f n)) by (apply H; left; reflexivity). nv; apply IH; exact K.
Qed.
#[export] Hint Resolve nevs_parse_fields nevs_parse_links : nev.
Lemma nevs_parse_group : forall cat n, nevs (parse_group cat n).
Proof.
  intros cat. fix F 1. intros [t attrib kids]. cbn [parse_group].
  assert (K : forall n, In n kids -> nevs (parse_group cat n)).
  { induction kids as [|k kids IH]; intros n I; [destruct I|]. destruct I as [<-|I]; [apply F|apply IH; exact I]. }
  clear F. apply nevs_lbind; [nv|]. intros ty. apply nevs_lbind; [nv|]. intros attrs. apply nevs_lbind; [apply nevs_parse_groups_with; exact K|]. nv.
Qed.
Lemma nevs_parse_definition : forall valid f root, valid root = true -> nevs (parse_definition valid f root).
Proof. intros valid f root V. unfold parse_definition. rewrite V. cbn [negb]. cbv zeta. apply nevs_lbind; [nv|]. intros. apply nevs_lbind; [apply nevs_parse_groups_with; intros; apply nevs_parse_group|]. nv. Qed.
Lemma nevs_load_files : forall valid content files acc d, snd (load_files valid content acc files d) = Exn InvalidNxdlFile ->
  exists f root, In f files /\ content f = Some root /\ valid root = false.
Proof.
  intros valid content. induction files as [|f files IH]; intros acc d H; [discriminate|]. cbn [load_files] in H.
  destruct (content f) as [root|] eqn:C; [|discriminate]. destruct (valid root) eqn:V; [|exists f, root; split; [left; reflexivity|auto]].
  unfold lbind in H. assert (X := nevs_parse_definition valid f root V d). destruct (parse_definition valid f root d) as [d' [def|e]].
  - destruct (IH _ _ H) as (g & r & I & G). exists g, r. split; [right; exact I|exact G].
  - exfalso. apply X. cbn [snd] in *. congruence.
Qed.
Lemma nev_category_files : forall ls dir cat, nev (category_files ls dir cat).
Proof. intros. unfold category_files, listdir. nv. Qed.
#[export] Hint Resolve nev_category_files : nev.
Lemma nev_categories_files : forall ls dir l, nev (categories_files ls dir l).
Proof. intros ls dir. induction l as [|c l IH]; cbn [categories_files]; nv. Qed.
#[export] Hint Resolve nev_categories_files : nev.
Lemma nev_file_list : forall ls dir, nev (get_NXDL_file_list ls dir).
Proof. intros. unfold get_NXDL_file_list. nv. Qed.

Lemma manager_invalid : forall E limit valid D path, nxdl_manager E limit valid D path = Exn InvalidNxdlFile ->
  exists files f root, get_NXDL_file_list (sd_ls D) path = Ok files /\ In f files /\ sd_content D f = Some root /\ valid root = false.
Proof.
  intros E limit valid D path H. unfold nxdl_manager in H. destruct (sd_ls D path); [|discriminate].
  assert (L := nev_file_list (sd_ls D) path). destruct (sd_nxdl D) as [kids|].
  - assert (S := nev_summary E limit kids). destruct (nxdl_summary E limit kids) as [su|e]; cbn [rbind] in H; [|exfalso; apply S; congruence].
    unfold load_manager in H. destruct (get_NXDL_file_list (sd_ls D) path) as [files|e].
    + match type of H with context [load_files ?v ?c ?a ?fs ?d] => assert (X := nevs_load_files v c fs a d); destruct (load_files v c a fs d) as [d' [cl|e]]; [discriminate|] end.
      injection H as ->. destruct (X eq_refl) as (q & root & I & C & V). exists files, q, root. auto.
    + injection H as ->. exfalso. apply L. reflexivity.
  - destruct (get_NXDL_file_list (sd_ls D) path) as [[|q files]|e]; cbn [rbind] in H; [discriminate|discriminate|]. injection H as ->. exfalso. apply L. reflexivity.
Qed.

(** ** schema_manager.py *)
Lemma nev_restriction_items : forall E l p, nev (restriction_items E p l).
Proof. intros E. induction l as [|n l IH]; intros p; cbn [restriction_items]; nv. Qed.
#[export] Hint Resolve nev_restriction_items : nev.
Lemma nev_one_pattern : forall E n, nev (one_pattern E n).
Proof. intros. unfold one_pattern. nv. Qed.
#[export] Hint Resolve nev_one_pattern : nev.
Lemma nev_own_patterns : forall E l db, nev (own_patterns E db l).
Proof. intros E. induction l as [|n l IH]; intros db; cbn [own_patterns]; nv. Qed.
#[export] Hint Resolve nev_own_patterns : nev.
Lemma nev_parse_patterns : forall E root, nev (parse_nxdl_patterns E root).
Proof. intros. unfold parse_nxdl_patterns. nv. Qed.
Lemma nev_enum_values : forall l, nev (enum_values l).
Proof. induction l as [|n l IH]; cbn [enum_values]; nv. Qed.
#[export] Hint Resolve nev_parse_patterns nev_enum_values : nev.
Lemma nev_type_content : forall l t, nev (type_content t l).
Proof. induction l as [|n l IH]; intros t; cbn [type_content]; nv. Qed.
#[export] Hint Resolve nev_type_content : nev.
Lemma nev_types_of : forall l db, nev (types_of db l).
Proof. induction l as [|n l IH]; intros db; cbn [types_of]; nv. Qed.
#[export] Hint Resolve nev_types_of : nev.
Lemma nev_parse_types : forall t, nev (parse_nxdlTypes t).
Proof. intros. unfold parse_nxdlTypes. nv. Qed.
Lemma nev_schema_attribute : forall n, nev (schema_attribute n).
Proof. intros. unfold schema_attribute. nv. Qed.
Lemma nev_named_node : forall root tag v, nev (get_named_node root tag v).
Proof. intros. unfold get_named_node. nv. Qed.
#[export] Hint Resolve nev_parse_types nev_schema_attribute nev_named_node : nev.
Lemma nev_inline_types : forall l attrs, nev (inline_types attrs l).
Proof. induction l as [|n l IH]; intros attrs; cbn [inline_types]; nv. Qed.
#[export] Hint Resolve nev_inline_types : nev.
Section Structures.
  Context (st : option pystr -> SM content) (H : forall r, nevs (st r)).
  Lemma nevs_schema_element : forall n, nevs (schema_element st n).
  Proof. intros n. unfold schema_element. nv. Qed.
  Hint Resolve nevs_schema_element : nev.
  Lemma nevs_parse_sequence : forall l c, nevs (parse_sequence st c l).
  Proof. induction l as [|n l IH]; intros c; cbn [parse_sequence]; nv. Qed.
  Hint Resolve nevs_parse_sequence : nev.
  Lemma nevs_extension_content : forall l c, nevs (extension_content st c l).
  Proof. induction l as [|n l IH]; intros c; cbn [extension_content]; nv. Qed.
  Hint Resolve nevs_extension_content : nev.
  Lemma nevs_complexContent : forall l c, nevs (parse_complexContent st c l).
  Proof. induction l as [|n l IH]; intros c; cbn [parse_complexContent]; nv. Qed.
  Hint Resolve nevs_complexContent : nev.
  Lemma nevs_type_structure : forall l c, nevs (type_structure st c l).
  Proof. induction l as [|n l IH]; intros c; cbn [type_structure]; nv. Qed.
End Structures.
Lemma nevs_schema_type : forall fuel root ref, nevs (schema_type fuel root ref).
Proof. induction fuel as [|fuel IH]; intros root ref; cbn [schema_type]; [nv|]. destruct ref; [|nv]. apply nevs_sbind; [nv|]. intros. apply nevs_type_structure. intros. apply IH. Qed.
#[export] Hint Resolve nevs_schema_type nevs_schema_element : nev.
Lemma nevs_root_sequence : forall fuel root l, nevs (root_sequence fuel root l).
Proof. intros fuel root. induction l as [|n l IH]; cbn [root_sequence]; nv. Qed.
#[export] Hint Resolve nevs_root_sequence : nev.
Lemma nevs_root_content : forall fuel root l, nevs (root_content fuel root l).
Proof. intros fuel root. induction l as [|n l IH]; cbn [root_content]; nv. Qed.
#[export] Hint Resolve nevs_root_content : nev.

Lemma schema_invalid : forall E fuel d g, snd (schema_manager E fuel d g) = Exn InvalidNxdlFile ->
  exists root, xd_nxdl d = Some root /\ List.length (s_named (py "element") root) <> 1.
Proof.
  intros E fuel d g H. unfold schema_manager in H. destruct (xd_nxdl d) as [root|]; [|discriminate]. exists root. split; [reflexivity|].
  destruct (s_named (py "element") root) as [|el [|el2 l]]; [discriminate| |discriminate]. exfalso.
  match type of H with snd (?m g) = _ => enough (X : nevs m) by exact (X g H) end. nv.
Qed.

(** ** The caches *)
Lemma nev_rcons : forall A B (c : A) (r : res (list A * B)), nev r -> nev (rcons c r).
Proof. intros A B c [[s t]|e] H; [discriminate|]. intros X. injection X as ->. apply H. reflexivity. Qed.
Lemma nev_scan_str_at : forall n s, List.length s <= n -> nev (scan_str s).
Proof.
  induction n as [|n IH]; intros s L; [destruct s; [discriminate|cbn [List.length] in L; lia]|].
  destruct s as [|c t]; [discriminate|]. cbn [List.length] in L. cbn [scan_str].
  repeat match goal with
  | |- nev (if ?b then _ else _) => destruct b
  | |- nev (rcons _ _) => apply nev_rcons
  | |- nev (scan_str _) => apply IH; cbn [List.length] in *; lia
  | |- nev (match ?x with _ => _ end) => destruct x
  | |- nev _ => discriminate
  end.
Qed.
Lemma nev_scan_str : forall s, nev (scan_str s).
Proof. intros s. apply (nev_scan_str_at (List.length s)). lia. Qed.
#[export] Hint Resolve nev_scan_str nev_rcons : nev.
Lemma nev_members : forall value, (forall s, nev (value s)) -> forall fuel d s, nev (members value fuel d s).
Proof. intros value H. induction fuel as [|fuel IH]; intros d s; cbn [members]; nv. Qed.
Lemma nev_elements : forall value, (forall s, nev (value s)) -> forall fuel s, nev (elements value fuel s).
Proof. intros value H. induction fuel as [|fuel IH]; intros s; cbn [elements]; nv. Qed.
#[export] Hint Resolve nev_members nev_elements : nev.
Lemma nev_scan_value : forall fuel s, nev (scan_value fuel s).
Proof. induction fuel as [|fuel IH]; intros s; cbn [scan_value]; nv. Qed.
#[export] Hint Resolve nev_scan_value : nev.
Lemma nev_read_json : forall s, nev (read_json s).
Proof. intros. unfold read_json, loads, get_text. nv. Qed.
#[export] Hint Resolve nev_read_json : nev.
Lemma nev_cache_sets : forall cp l acc, nev (cache_sets read_json cp acc l).
Proof. intros cp. induction l as [|[n [t|sub]] l IH]; intros acc; cbn [cache_sets]; [nv|apply IH|]. unfold read_info. nv. Qed.
#[export] Hint Resolve nev_cache_sets : nev.
Lemma nev_choose : forall sets r, nev (choose sets r).
Proof. intros. unfold choose, newest_first. nv. Qed.
#[export] Hint Resolve nev_choose : nev.
Lemma nev_select : forall sets r, nev (select sets r).
Proof. intros. unfold select. nv. Qed.
Lemma nev_cm_init : forall k, nev (cm_init read_json k).
Proof.
  intros k. unfold cm_init, all_file_sets. apply nev_bind; [nv|]. intros sets. assert (S := nev_select sets None). destruct (select sets None) as [fs|e]; [discriminate|].
  destruct e; try discriminate. exfalso. apply S. reflexivity.
Qed.
