(** * C107: the dimensions of NXDL fields *)

From Coq Require Import List NArith ZArith Bool String.
From Verif Require Import PyBase PyFacts H5 Nxdl NxdlLoad NxdlSchema SchemaMgr Session Samples Spec_Nxdl Spec_Dims NxdlFacts NxdlSamples ShippedXsd ShippedLines.
Import ListNotations.
Open Scope string_scope.
Open Scope list_scope.

Lemma F2_nth : forall {A B} (R : A -> B -> Prop) l1 l2, Forall2 R l1 l2 -> forall i a, nth_error l1 i = Some a -> exists b, nth_error l2 i = Some b /\ R a b.
Proof.
  intros A B R l1 l2 H. induction H; intros [|i] z Hn; cbn [nth_error] in *; try discriminate; eauto. injection Hn as <-. eauto.
Qed.

Lemma group_at_loaded : forall root d, loaded_def root d -> forall n g, group_at root d n g -> loaded_group n g.
Proof.
  intros root d L n g H. induction H as [i n name g H1 H2|n g i n' name g' H IH H1 H2].
  - destruct (F2_nth _ _ _ (ld_groups _ _ L) _ _ H1) as ([nm g0] & X & _ & Y). rewrite H2 in X. injection X as -> ->. exact Y.
  - inversion IH as [_ G _ _ _]. destruct (F2_nth _ _ _ G _ _ H1) as ([nm g0] & X & _ & Y). rewrite H2 in X. injection X as -> ->. exact Y.
Qed.

Lemma group_below_at : forall root d, loaded_def root d -> forall n, group_below root n -> exists g, group_at root d n g.
Proof.
  intros root d L n H. induction H as [n I|n n' H [g IH] I]; apply In_nth_error in I as [i I].
  - destruct (F2_nth _ _ _ (ld_groups _ _ L) _ _ I) as ([nm g] & X & _). exists g. eapply ga_top; eauto.
  - pose proof (group_at_loaded _ _ L _ _ IH) as LG. inversion LG as [_ G _ _ _]. destruct (F2_nth _ _ _ G _ _ I) as ([nm g'] & X & _).
    exists g'. eapply ga_sub; eauto.
Qed.

Lemma field_below_at : forall root d, loaded_def root d -> forall n, field_below root n -> exists f, field_at root d n f.
Proof.
  intros root d L n [I|(gn & G & I)]; apply In_nth_error in I as [i I].
  - destruct (F2_nth _ _ _ (ld_fields _ _ L) _ _ I) as ([nm f] & X & _). exists f. eapply fa_top; eauto.
  - destruct (group_below_at _ _ L _ G) as [g GA]. pose proof (group_at_loaded _ _ L _ _ GA) as LG. inversion LG as [_ _ F _ _].
    destruct (F2_nth _ _ _ F _ _ I) as ([nm f] & X & _). exists f. eapply fa_sub; eauto.
Qed.

Lemma field_at_content : forall root d, loaded_def root d -> forall n f, field_at root d n f -> field_content n f.
Proof.
  intros root d L n f H. destruct H as [i n name f H1 H2|n g i n' name f H H1 H2].
  - destruct (F2_nth _ _ _ (ld_fields _ _ L) _ _ H1) as ([nm f0] & X & _ & Y). rewrite H2 in X. injection X as -> ->. exact Y.
  - pose proof (group_at_loaded _ _ L _ _ H) as LG. inversion LG as [_ _ F _ _]. destruct (F2_nth _ _ _ F _ _ H1) as ([nm f0] & X & _ & Y).
    rewrite H2 in X. injection X as -> ->. exact Y.
Qed.

(** ** Every field of every class *)
(** Whenever the NXDL files of a file set are loaded: each class comes from an NXDL file of a category; each
    field element of this file, at any depth, has a loaded field; if the element has one dimensions element,
    whose dim elements have different indices, the field's dimensions have the rank of this element and one
    entry for each dim element, in order, with its index, value, ref, refindex and incr. *)
Theorem C107_dimensions : forall ls valid content d0 dir d' cl,
  load_manager ls valid content d0 dir = (d', Ok cl) -> forall t def, In (t, def) cl ->
  exists file root, (nxdl_file ls dir (py "base_classes") file \/ nxdl_file ls dir (py "applications") file \/ nxdl_file ls dir (py "contributed_definitions") file)
    /\ content file = Some root
    /\ (forall n, field_below root n -> exists f, field_at root def n f)
    /\ (forall n f, field_at root def n f -> forall k, elements (py "dimensions") n = [k] -> NoDup (map index_of (elements (py "dim") k)) ->
          exists x, nf_dims f = Some x /\ ds_rank x = dget (py "rank") (x_attrib k)
            /\ Forall2 (fun e iy => fst iy = index_of e /\ dim_content e (snd iy)) (elements (py "dim") k) (ds_dims x)).
Proof.
  intros ls valid content d0 dir d' cl L t def I. destruct (manager_entry _ _ _ _ _ _ _ L _ _ I) as (file & root & A & B & C).
  exists file, root. split; [exact A|]. split; [exact B|]. split; [intros; eapply field_below_at; eauto|].
  intros n f F k K ND. pose proof (field_at_content _ _ C _ _ F) as (_ & X & _). rewrite K in X. destruct X as (x & X & [R _ _ _ O]). eauto 6.
Qed.
Print Assumptions C107_dimensions.

(** in other cases: of several dim elements with the same index the last one counts; a field with no
    dimensions element has no dimensions *)
Theorem C107_others : forall ls valid content d0 dir d' cl,
  load_manager ls valid content d0 dir = (d', Ok cl) -> forall t def, In (t, def) cl ->
  exists file root, (nxdl_file ls dir (py "base_classes") file \/ nxdl_file ls dir (py "applications") file \/ nxdl_file ls dir (py "contributed_definitions") file)
    /\ content file = Some root
    /\ (forall n f, field_at root def n f ->
          (elements (py "dimensions") n = [] -> nf_dims f = None)
          /\ (forall k, elements (py "dimensions") n = [k] -> exists x, nf_dims f = Some x /\ dimensions_content k x)).
Proof.
  intros ls valid content d0 dir d' cl L t def I. destruct (manager_entry _ _ _ _ _ _ _ L _ _ I) as (file & root & A & B & C).
  exists file, root. split; [exact A|]. split; [exact B|]. intros n f F. pose proof (field_at_content _ _ C _ _ F) as (_ & X & _).
  split; [intros E|intros k E]; rewrite E in X; auto.
Qed.
Print Assumptions C107_others.

(** ** A file set with the schema files that come with punx *)
Definition dim_el (i v : string) (more : dict pystr) : xnode := XN (py "dim") ([(py "index", py i); (py "value", py v)] ++ more) [].
Definition table_el : xnode := named "field" "table" [XN (py "dimensions") [(py "rank", py "2")] [dim_el "1" "n" []; dim_el "2" "m" [(py "ref", py "axis"); (py "incr", py "1")]]].
Definition twice_el : xnode := named "field" "twice" [XN (py "dimensions") [(py "rank", py "dataRank")] [dim_el "1" "n" []; dim_el "2" "m" []; dim_el "1" "k" []]].
Definition dims_app : xnode := nxdl [typed "NXentry" [typed "NXdata" [table_el]; twice_el]].
Definition dims_set : set_dir := mkSD (Some xsd_v3_3) (Some nxdlTypes_v3_3) ls0 (content0 dims_app).
Definition dims_loaded : res (option defaults * classes) := nxdl_manager env0 900 (fun _ => true) dims_set (py "/d").
Definition dims_of (r : res (option defaults * classes)) : list (pystr * option nxdims) :=
  match r with
  | Ok (_, cl) => match dget (py "NXapp") cl with
                  | Some d => flat_map (fun g => map (fun f => (fst f, nf_dims (snd f))) (g_fields (snd g))
                                          ++ flat_map (fun h => map (fun f => (fst f, nf_dims (snd f))) (g_fields (snd h))) (g_groups (snd g))) (d_groups d)
                  | None => []
                  end
  | Exn _ => []
  end.
Definition tx (s : string) : option pystr := Some (py s).
Example C107_case : dims_of dims_loaded =
  [(py "twice", Some (mkDims (tx "dataRank") [(tx "1", mkDim (tx "1") (tx "k") None None None); (tx "2", mkDim (tx "2") (tx "m") None None None)]));
   (py "table", Some (mkDims (tx "2") [(tx "1", mkDim (tx "1") (tx "n") None None None); (tx "2", mkDim (tx "2") (tx "m") (tx "axis") None (tx "1"))]))].
Proof. vm_compute. reflexivity. Qed.

(** the field in the nested group meets the conditions of C107_dimensions *)
Example C107_meets : exists k, elements (py "dimensions") table_el = [k] /\ NoDup (map index_of (elements (py "dim") k)) /\ field_below dims_app table_el.
Proof.
  eexists. split; [reflexivity|]. split.
  - vm_compute. repeat constructor; intros X; cbn in X; repeat destruct X as [X|X]; try discriminate; exact X.
  - right. exists (typed "NXdata" [table_el]). split; [|left; reflexivity].
    apply gb_below with (n := typed "NXentry" [typed "NXdata" [table_el]; twice_el]); [apply gb_here; left; reflexivity|left; reflexivity].
Qed.
