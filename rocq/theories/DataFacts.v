(** * Validations of files without application definitions do not read data *)

From Coq Require Import List NArith ZArith Bool String Lia.
From Verif Require Import PyBase PyFacts Regex Utf8 H5 Findings Nxdl Core Catalog ItemName AttributeCheck
  GroupChecks AppDef DefaultPlot Validate Trace CheckFacts Spec_AppDef Spec_Copy Spec_Data CopyFacts.
Import ListNotations.

Definition definitions_in (s : vstate) : list nat :=
  flat_map (fun k => match dget k (st_cp s) with Some l => l | None => [] end) [py "/NXentry/definition"; py "/NXentry/NXsubentry/definition"].

Definition before (c : ctx) : M unit := build_address_catalog c ;;; step1 c ;;; step2 c.

Lemma open_parts : forall c s, validate_open c s = (before c ;;; step3 c ;;; default_plot_verify c) s.
Proof.
  intros c s. unfold validate_open, before, bind. destruct (build_address_catalog c s) as [s1 [x|e]]; [|reflexivity]. destruct (step1 c s1) as [s2 [y|e]]; [|reflexivity].
  destruct (step2 c s2) as [s3 [z|e]]; reflexivity.
Qed.

Lemma after_cp : forall c s, st_cp (fst ((step3 c ;;; default_plot_verify c) s)) = st_cp s.
Proof.
  intros c s. unfold step3, bind, get. cbn [fst snd]. match goal with |- context [for_each ?g ?l s] => destruct (step3_logs c l s) as [log [T _]]; destruct (for_each g l s) as [s1 [x|e]] end; cbn [fst] in T |- *.
  - destruct (default_plot_verify_logs c s1) as [log2 [T2 _]]. rewrite (tr_cp _ _ _ T2), (tr_cp _ _ _ T). reflexivity.
  - apply (tr_cp _ _ _ T).
Qed.

Section NoDefinition.
  Variables (w w' : world) (cl0 : classes) (E : env) (root : handle) (pats : dict (list pystr)) (rl : nat) (fm : option Z).
  Hypothesis Hw : same_but_data w w'.
  Local Notation CC := (mkCtx E w root pats rl fm).
  Local Notation CD := (mkCtx E w' root pats rl fm).
  Let FA := same_but_files w w' Hw.
  Lemma no_link : forall (f g : pystr) (objs : h5file) (o : h5obj) (links : dict link) (n x q : pystr), f = g -> dget f w = Some (FHdf5 objs) -> In o objs -> ob_kind o = KGroup links ->
    In (n, LExt x q) links -> x = x.
  Proof. reflexivity. Qed.

  Lemma m_before : mrel eq cl0 eq (before CC) (before CD).
  Proof.
    unfold before. eapply m_bind; [unfold build_address_catalog; cbn [c_reclimit c_root]; apply m_catalog; first [exact FA | exact no_link | apply hrel_refl]|]. intros _ _ _.
    eapply m_bind with (V := eq).
    { unfold step1. eapply m_bind; [apply m_get|]. intros s s' S. destruct S. cbn [st_cp]. apply m_for_each. intros. apply m_check_item; first [exact FA | exact no_link | apply hrel_refl]. }
    intros _ _ _. unfold step2. eapply m_bind; [apply m_get|]. intros s s' S. destruct S. cbn [st_addr]. apply m_for_each. intros. apply m_check_group; first [exact FA | exact no_link | apply hrel_refl].
  Qed.

  Lemma open_data : forall s, strip_classes (st_classes s) = strip_classes cl0 -> definitions_in (fst (validate_open CC s)) = [] -> validate_open CC s = validate_open CD s.
  Proof.
    assert (U : forall c s, (before c ;;; step3 c ;;; default_plot_verify c) s = match before c s with (s1, Ok _) => (step3 c ;;; default_plot_verify c) s1 | (s1, Exn e) => (s1, Exn e) end) by reflexivity.
    intros s HC. rewrite !open_parts, !U. intros HD.
    assert (S : srel eq cl0 s s).
    { destruct s as [l a c f k cl]. constructor; [|exact HC]. clear. induction l as [|x l IH]; constructor; auto. destruct x as [p o n ad cp x v]. constructor. destruct o; [apply orel_node; apply hrel_refl|apply orel_val]. }
    destruct (m_before s s S) as [S1 R1]. destruct (before CC s) as [s1 r1], (before CD s) as [s2 r2]. cbn [fst snd] in *. pose proof (srel_eq _ _ _ S1) as Es. subst s2.
    destruct R1 as [a b R1|e]; [|reflexivity]. pose proof (after_cp CC s1) as X. unfold definitions_in in HD. rewrite X in HD.
    assert (U3 : forall c, (step3 c ;;; default_plot_verify c) s1 = default_plot_verify c s1) by (intros c; unfold step3, bind, get; rewrite HD; reflexivity). rewrite !U3.
    destruct (m_default_plot w w' eq FA no_link cl0 E root root pats rl fm s1 s1 S1) as [S2 R2].
    destruct (default_plot_verify CC s1) as [t1 q1], (default_plot_verify CD s1) as [t2 q2]. cbn [fst snd] in *. rewrite (srel_eq _ _ _ S2). destruct R2 as [x y ->|e]; reflexivity.
  Qed.
End NoDefinition.

Theorem validate_no_definition : forall u w w' v p v1 r1, same_but_data w w' -> validate u w v p = (v1, r1) ->
  definition_items v1 = [] -> validate u w' v p = (v1, r1).
Proof.
  intros u w w' v p v1 r1 H V HD. rewrite <- V. symmetry. revert V HD. unfold validate. pose proof (H p) as D. destruct D as [| |f f' Hf]; try reflexivity. unfold mk_ctx.
  intros V HD. rewrite (open_data w w' (st_classes (v_st v)) (u_env u) (open_root p) (u_patterns u) (u_reclimit u) (u_field_minOccurs u) H); try reflexivity.
  destruct (validate_open _ _) as [s1 x1]. cbn [fst]. injection V as <- _. unfold definition_items, items_at in HD. cbn [v_st] in HD. unfold definitions_in. cbn [flat_map]. rewrite app_nil_r. exact HD.
Qed.
