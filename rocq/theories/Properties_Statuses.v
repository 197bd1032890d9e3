(** * C15, C106: the statuses of the findings of a validation *)

From Coq Require Import List NArith ZArith Bool String.
From Verif Require Import PyBase PyFacts H5 Findings Nxdl Core Validate Samples Spec_Statuses StatusFacts SessionSamples
  AttrSamples CatalogSamples FindingSamples GroupSamples PlotSamples NameSamples Properties_AppDef Properties_Attributes.
Import ListNotations.
Open Scope string_scope.
Open Scope list_scope.
Local Open Scope nat_scope.

(** ** C106: every finding that a validation records, whether it completes or not, is of one of the tests of the table
    and has one of the statuses of this test *)
Theorem C106_table : forall u w v fname v' r f, dget fname w = Some (FHdf5 f) -> validate u w v fname = (v', r) ->
  forall g, In g (st_find (v_st v')) -> gives (f_test g) (f_status g).
Proof. intros u w v fname v' r f Hf H g I. exact (proj1 (Forall_forall _ _) (validate_given u w v fname v' r f Hf H) g I). Qed.
Print Assumptions C106_table.

(** the findings with status OPTIONAL are about missing items of base classes *)
Theorem C106_optional : forall u w v fname v' r f, dget fname w = Some (FHdf5 f) -> validate u w v fname = (v', r) ->
  forall g, In g (st_find (v_st v')) -> f_status g = OPTIONAL -> f_test g = py "NXDL field in data file" \/ f_test g = py "NXDL group in data file".
Proof.
  intros u w v fname v' r f Hf H g I E. pose proof (C106_table _ _ _ _ _ _ _ Hf H g I) as G. rewrite E in G.
  inversion G; subst; auto; simpl in *; repeat match goal with H : _ \/ _ |- _ => destruct H end; try discriminate; contradiction.
Qed.
Print Assumptions C106_optional.

(** the findings with status WARN are about names of members of NXcollection groups and about @signal other than 1 *)
Theorem C106_warn : forall u w v fname v' r f, dget fname w = Some (FHdf5 f) -> validate u w v fname = (v', r) ->
  forall g, In g (st_find (v_st v')) -> f_status g = WARN -> f_test g = py "validItemName" \/ f_test g = py "NeXus default plot v2, @signal!=1".
Proof.
  intros u w v fname v' r f Hf H g I E. pose proof (C106_table _ _ _ _ _ _ _ Hf H g I) as G. rewrite E in G.
  inversion G; subst; auto; simpl in *; repeat match goal with H : _ \/ _ |- _ => destruct H end; try discriminate; contradiction.
Qed.
Print Assumptions C106_warn.

(** ** C15: every finding has one of the eight statuses; two of them are never given *)
Theorem C15_run : forall u w v fname v' r f, dget fname w = Some (FHdf5 f) -> validate u w v fname = (v', r) ->
  forall g, In g (st_find (v_st v')) -> In (f_status g) [OK; NOTE; WARN; ERROR; TODO; OPTIONAL].
Proof.
  intros u w v fname v' r f Hf H g I. pose proof (C106_table _ _ _ _ _ _ _ Hf H g I) as G.
  inversion G; simpl in *; tauto.
Qed.
Print Assumptions C15_run.

(** ** The table is not too generous: validations that give its statuses *)
Definition status_classes : classes := mode_classes ++
  [def0 "NXenum" "base_classes" [attr0 "a" ["point"; "linear"]; attr0 "b" ["point"; "linear"]; attr0 "default" []] [] []].
Definition status_file : h5file :=
  [ (* 0 *) grp [("entry", 1)] [];
    (* 1 *) grp [("definition", 2); ("mode", 3); ("kind", 4); ("enum", 5); ("data", 6)] [("NX_class", str "NXentry")];
    (* 2 *) ds (str "NXmode") [];
    (* 3 *) ds (str "other") [];
    (* 4 *) mkObj KDatatype [];
    (* 5 *) grp [] [("NX_class", str "NXenum"); ("a", str "linear"); ("b", str "circle"); ("default", str "data")];
    (* 6 *) grp [("Y", 7)] [("NX_class", str "NXdata"); ("signal", str "Y"); ("axes", VArrO [py "Y"])];
    (* 7 *) ds (VInt 1) [] ].

(** in some validation a finding of this test has this status *)
Definition given_somewhere (ts : pystr * status) : Prop := exists u w v fname v' r f g, dget fname w = Some (FHdf5 f)
  /\ validate u w v fname = (v', r) /\ In g (st_find (v_st v')) /\ f_test g = fst ts /\ f_status g = snd ts.

Definition of_run (ts : pystr * status) (v : validator) : bool :=
  existsb (fun g => str_eqb (f_test g) (fst ts) && status_eqb (f_status g) (snd ts)) (st_find (v_st v)).
Definition tried : list (setup * h5file * classes) :=
  (u1, follows_file, cl1) :: (setup0, status_file, status_classes)
  :: map (fun f => (setup0, f, classes0)) [app_file; attr_file; basedef_file; unknown_file; two_file; v2_file; no_plot_file; good_file; names_file].
Definition try1 (t : setup * h5file * classes) : validator * res unit := validate (fst (fst t)) (world_of (snd (fst t))) (new_validator (snd t)) fn.

Lemma status_eqb_ok : forall a b, status_eqb a b = true -> a = b.
Proof. intros [] []; simpl; congruence. Qed.

Lemma tried_ok : forall runs ts, existsb (fun t => of_run ts (fst (try1 t))) runs = true -> given_somewhere ts.
Proof.
  intros runs ts H. apply existsb_exists in H as ([[u f] cl] & _ & H). unfold of_run in H. apply existsb_exists in H as (g & I & H).
  apply andb_true_iff in H as [A B]. apply str_eqb_eq in A. apply status_eqb_ok in B.
  exists u, (world_of f), (new_validator cl), fn, (fst (try1 (u, f, cl))), (snd (try1 (u, f, cl))), f, g.
  split; [unfold world_of, dget; cbn [aget]; rewrite str_eqb_refl; reflexivity|]. split; [unfold try1; cbn [fst snd]; apply surjective_pairing|]. auto.
Qed.

Definition table : list (pystr * status) :=
  map (pair (py "validItemName")) [OK; NOTE; WARN; ERROR]
  ++ map (pair (py "attribute value")) [OK; NOTE; ERROR; TODO]
  ++ [(py "valid name @signal=y", OK); (py "valid name @signal=Y", NOTE); (py "valid name @signal=2y", ERROR);
      (py "valid name @axes['x']", OK); (py "valid name @axes['Y']", NOTE); (py "valid name @axes['Not here']", ERROR);
      (py "axes['x'] exists", OK); (py "axes['Not here'] exists", ERROR)]
  ++ map (pair (py "known NXDL")) [OK; ERROR]
  ++ map (pair (py "NeXus base class")) [OK; ERROR; TODO]
  ++ [(py "NeXus_group", OK); (py "known attribute", OK); (py "field in base class", OK); (py "group in base class", OK);
      (py "unhandled: group_items_in_base_class", TODO)]
  ++ map (pair (py "attribute value enumeration")) [OK; ERROR]
  ++ map (pair (py "value of @signal")) [OK; ERROR]
  ++ [(py "value of @default", OK); (py "value of @default", TODO); (py "value of @file_name", TODO)]
  ++ map (pair (py "NXDL field in data file")) [OK; OPTIONAL]
  ++ map (pair (py "NXDL group in data file")) [OK; OPTIONAL]
  ++ map (pair (py "NeXus application definition")) [OK; ERROR; TODO]
  ++ map (pair (py "NXDL field")) [OK; ERROR]
  ++ map (pair (py "NXDL field enumerations")) [OK; ERROR]
  ++ map (pair (py "NeXus default plot")) [OK; NOTE; ERROR]
  ++ map (pair (py "NeXus default plot v3, NXdata@signal")) [OK; ERROR]
  ++ [(py "NeXus default plot v3 NIAC2014", OK); (py "NeXus default plot v2", OK); (py "NeXus default plot v2, @signal=1", OK);
      (py "NeXus default plot v2, @signal!=1", WARN); (py "NeXus default plot v2, multiple @signal=1", ERROR)].

Lemma search_ok : forall (runs : list (setup * h5file * classes)) (l : list (pystr * status)),
  (let vs := map (fun t => fst (try1 t)) runs in forallb (fun ts => existsb (of_run ts) vs) l) = true -> forall ts, In ts l -> given_somewhere ts.
Proof.
  intros runs l H ts I. apply (tried_ok runs). cbv zeta in H. pose proof (proj1 (forallb_forall _ _) H ts I) as X. cbv beta in X. revert X. clear.
  induction runs as [|t runs IH]; intros X; [exact X|]. cbn [map existsb] in *. apply orb_true_iff in X. apply orb_true_iff. destruct X as [X|X]; [left; exact X|right; exact (IH X)].
Qed.

Example C106_case : forall ts, In ts table -> given_somewhere ts.
Proof. apply (search_ok tried). vm_compute. reflexivity. Qed.
