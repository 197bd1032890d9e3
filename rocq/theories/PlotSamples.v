(** * Default plots of concrete files *)

From Coq Require Import List NArith ZArith Bool String Lia.
From Verif Require Import PyBase PyFacts H5 Findings Nxdl Core Catalog GroupChecks Validate Samples Spec_Run Spec_Catalog
  PathFacts CatalogSamples Spec_Plot PlotLink.
Import ListNotations.

(** group a has a @signal naming nothing, group b a good one *)
Definition two_file : h5file :=
  [ grp [("entry"%string, 1)] [];
    grp [("a"%string, 2); ("b"%string, 3)] [("NX_class"%string, str "NXentry")];
    grp [] [("NX_class"%string, str "NXdata"); ("signal"%string, str "nothing")];
    grp [("counts"%string, 4)] [("NX_class"%string, str "NXdata"); ("signal"%string, str "counts")];
    ds (VArrNum [py "1"; py "2"]) [] ].

(** @signal=1 on fields: two in group a, one in each of b and c *)
Definition v2_file : h5file :=
  [ grp [("entry"%string, 1)] [];
    grp [("a"%string, 2); ("b"%string, 3); ("c"%string, 5)] [("NX_class"%string, str "NXentry")];
    grp [("x"%string, 4); ("y"%string, 4)] [("NX_class"%string, str "NXdata")];
    grp [("counts"%string, 4); ("t"%string, 6)] [("NX_class"%string, str "NXdata")];
    ds (VArrNum [py "1"; py "2"]) [("signal"%string, str "1")];
    grp [("last"%string, 4)] [("NX_class"%string, str "NXdata")];
    ds (VArrNum [py "1"; py "2"]) [("signal"%string, str "2")] ].

(** no plot at all *)
Definition no_plot_file : h5file := [ grp [("entry"%string, 1)] []; grp [] [("NX_class"%string, str "NXentry")] ].

Definition good_run : validator := fst (run good_file).
Definition two_run : validator := fst (run two_file).
Definition v2_run : validator := fst (run v2_file).
Definition no_plot_run : validator := fst (run no_plot_file).

Lemma good_ok : validate setup0 (world_of good_file) (new_validator classes0) fn = (good_run, Ok tt).
Proof. vm_compute. reflexivity. Qed.
Lemma two_ok : validate setup0 (world_of two_file) (new_validator classes0) fn = (two_run, Ok tt).
Proof. vm_compute. reflexivity. Qed.
Lemma v2_ok : validate setup0 (world_of v2_file) (new_validator classes0) fn = (v2_run, Ok tt).
Proof. vm_compute. reflexivity. Qed.
Lemma no_plot_ok : validate setup0 (world_of no_plot_file) (new_validator classes0) fn = (no_plot_run, Ok tt).
Proof. vm_compute. reflexivity. Qed.

Lemma good_plain : plain_file good_file /\ distinct_names good_file /\ no_at_names good_file.
Proof. split; [apply plainb_ok; vm_compute; reflexivity|]. split; [apply distinctb_ok; vm_compute; reflexivity|apply no_atb_ok; vm_compute; reflexivity]. Qed.
Lemma two_plain : plain_file two_file /\ distinct_names two_file /\ no_at_names two_file.
Proof. split; [apply plainb_ok; vm_compute; reflexivity|]. split; [apply distinctb_ok; vm_compute; reflexivity|apply no_atb_ok; vm_compute; reflexivity]. Qed.

(** a group /e/d of a file whose objects 1 and [o] have these classes *)
Lemma data_class : forall f e d m o, leads f 0 [e] m -> leads f 0 [e; d] o -> is_group f m -> is_group f o ->
  dget (py "NX_class") (attributes f m) = Some (str "NXentry") -> dget (py "NX_class") (attributes f o) = Some (str "NXdata") ->
  class_path env0 f [e; d] (py "/NXentry/NXdata").
Proof.
  intros f e d m o L1 L2 G1 G2 A1 A2. apply (cp_member env0 f [e] (py "/NXentry") d o).
  - apply (cp_member env0 f [] [] e m); [constructor|exact L1|].
    apply (cc_group env0 (is_group f m) (attributes f m) e [] (py "NXentry")); [discriminate| |exact G1|].
    + intros [[|z x] X]; discriminate X.
    + exists (str "NXentry"), (py "entry"). auto.
  - exact L2.
  - apply (cc_group env0 (is_group f o) (attributes f o) d (py "/NXentry") (py "NXdata")); [discriminate| |exact G2|].
    + intros [x X]. apply (f_equal (fun l => last l 0%N)) in X. rewrite last_last in X. vm_compute in X. discriminate X.
    + exists (str "NXdata"), (py "data"). auto.
Qed.

Lemma hard1 : forall f a n o, dget n (members f a) = Some (LHard o) -> o < List.length f -> leads f a [n] o.
Proof. intros f a n o H1 H2. eapply le_hard; eauto. constructor. Qed.
Lemma hard2 : forall f a n o m b, dget n (members f a) = Some (LHard o) -> o < List.length f -> leads f o [m] b -> leads f a [n; m] b.
Proof. intros f a n o m b H1 H2 H3. eapply le_hard; eauto. Qed.

Lemma good_plottable : plottable env0 good_file (py "entry") (py "Data") (py "counts").
Proof.
  assert (L1 : leads good_file 0 [py "entry"] 1) by (apply hard1; [vm_compute; reflexivity|simpl; lia]).
  assert (L2 : leads good_file 0 [py "entry"; py "Data"] 3) by (eapply hard2 with (o := 1); [vm_compute; reflexivity|simpl; lia|apply hard1; [vm_compute; reflexivity|simpl; lia]]).
  exists 3, (str "counts"), 4. eexists. eexists. split; [exact L2|]. split.
  - apply (data_class good_file _ _ 1 3 L1 L2); [eexists; eexists; split; reflexivity|eexists; eexists; split; reflexivity|vm_compute; reflexivity|vm_compute; reflexivity].
  - split; [vm_compute; reflexivity|]. split; [reflexivity|]. split; [apply hard1; [vm_compute; reflexivity|simpl; lia]|]. split; reflexivity.
Qed.

Lemma two_plottable : plottable env0 two_file (py "entry") (py "b") (py "counts").
Proof.
  assert (L1 : leads two_file 0 [py "entry"] 1) by (apply hard1; [vm_compute; reflexivity|simpl; lia]).
  assert (L2 : leads two_file 0 [py "entry"; py "b"] 3) by (eapply hard2 with (o := 1); [vm_compute; reflexivity|simpl; lia|apply hard1; [vm_compute; reflexivity|simpl; lia]]).
  exists 3, (str "counts"), 4. eexists. eexists. split; [exact L2|]. split.
  - apply (data_class two_file _ _ 1 3 L1 L2); [eexists; eexists; split; reflexivity|eexists; eexists; split; reflexivity|vm_compute; reflexivity|vm_compute; reflexivity].
  - split; [vm_compute; reflexivity|]. split; [reflexivity|]. split; [apply hard1; [vm_compute; reflexivity|simpl; lia]|]. split; reflexivity.
Qed.

Definition good_item (it : vitem) : bool :=
  match it_obj it with
  | ONode h => negb (str_eqb (it_cp it) signal_path) && implb (str_eqb (it_cp it) (py "/NXentry/NXdata")) (ostr_eqb (it_addr it) (Some (py "/entry/Data")) && Nat.eqb (h_oid h) 3)
  | OVal _ => true
  end.

Lemma good_signals : signals_name_members env0 good_file.
Proof.
  destruct good_plain as [G1 [G2 G3]]. assert (HF : dget fn (world_of good_file) = Some (FHdf5 good_file)) by reflexivity.
  assert (B : forall i it, nth_error (st_items (v_st good_run)) i = Some it -> good_item it = true).
  { intros i it Hi. apply nth_error_In in Hi. revert it Hi. apply forallb_forall. vm_compute. reflexivity. }
  split.
  - intros p Hp. destruct (path_item _ _ _ _ _ _ good_ok HF G1 G3 _ _ Hp) as [i [it [h [o [_ [[A1 _] [A2 [_ [_ [A5 _]]]]]]]]]].
    apply B in A1. unfold good_item in A1. rewrite A2, A5 in A1. vm_compute in A1. discriminate.
  - intros p o Hp Ho _. destruct (path_item _ _ _ _ _ _ good_ok HF G1 G3 _ _ Hp) as [i [it [h [o' [A0 [[A1 _] [A2 [A3 [A4 [A5 A6]]]]]]]]]].
    pose proof (leads_fun _ _ _ _ Ho _ A0) as ->. apply B in A1. unfold good_item in A1. rewrite A2, A5 in A1.
    change (str_eqb (py "/NXentry/NXdata") signal_path) with false in A1. rewrite str_eqb_refl in A1. cbn [negb implb andb] in A1.
    apply andb_true_iff in A1 as [A1 A7]. apply ostr_eqb_eq in A1. apply Nat.eqb_eq in A7. rewrite A4 in A1. inversion A1 as [A8].
    assert (A9 : path_text p = path_text [py "entry"; py "Data"]) by (rewrite A8; reflexivity). apply path_text_inj in A9; [|exact A6|].
    + exists (py "entry"), (py "Data"), (str "counts"), (py "counts"), 4. split; auto. rewrite <- A3, A7. split; [vm_compute; reflexivity|]. split; [reflexivity|].
      apply hard1; [vm_compute; reflexivity|simpl; lia].
    + repeat constructor; try discriminate; vm_compute; intuition discriminate.
Qed.
