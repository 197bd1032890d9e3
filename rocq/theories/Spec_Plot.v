(** * Specification of the default plot *)

From Coq Require Import List NArith ZArith Bool String.
From Verif Require Import PyBase H5 Findings Nxdl Core Validate Spec_Run Spec_Catalog Spec_Groups.
Import ListNotations.

(** the address catalogue has item [it] at address [a] *)
Definition catalogued_at (v : validator) (a : pystr) (it : vitem) : Prop :=
  exists i, In (Some a, i) (st_addr (v_st v)) /\ nth_error (st_items (v_st v)) i = Some it.

(** item number [i] is [it] and is listed under class path [cp] *)
Definition listed_at (v : validator) (cp : pystr) (i : nat) (it : vitem) : Prop :=
  nth_error (st_items (v_st v)) i = Some it /\ exists l, In (cp, l) (st_cp (v_st v)) /\ In i l.

Definition signal_path : pystr := py "/NXentry/NXdata@signal".

(** the findings of one test *)
Definition of_test (v : validator) (test : pystr) : list finding := filter (fun f => str_eqb (f_test f) test) (st_find (v_st v)).

Definition verdict_test : pystr := py "NeXus default plot".
Definition v3_test : pystr := py "NeXus default plot v3, NXdata@signal".
Definition v2_test : pystr := py "NeXus default plot v2".

(** ** Version 3: @signal of an NXdata group *)
(** the open object that is catalogued where [it], with an address "/entry/data@signal", says *)
Definition signal_of (v : validator) (it : vitem) (entry data : pystr) (hd : handle) : Prop :=
  ~ In 47%N entry /\ ~ In 47%N data /\ ~ In 64%N entry /\ ~ In 64%N data
  /\ (it_addr it = Some (47%N :: entry ++ 47%N :: data) \/ exists k, it_addr it = Some (47%N :: entry ++ 47%N :: data ++ 64%N :: k))
  /\ exists dit, catalogued_at v (47%N :: entry ++ 47%N :: data) dit /\ it_obj dit = ONode hd.

(** joining a path and a name *)
Definition joined (p s t : pystr) : Prop := (ends_with_slash p /\ t = p ++ s) \/ (~ ends_with_slash p /\ t = p ++ 47%N :: s).

(** attribute [k] of [h] is the text [s], and [t] is [s] below [h] *)
Definition points_to (E : env) (w : world) (h : handle) (k t : pystr) : Prop :=
  exists ptr s, dget k (attrs_of w h) = Some ptr /\ decode_byte_string E ptr = Ok (VStr s) /\ joined (h_name h) s t.

(** the @signal [it] names something that exists: [t] *)
Definition signal_exists (E : env) (w : world) (v : validator) (it : vitem) (t : pystr) : Prop :=
  exists entry data hd, signal_of v it entry data hd /\ points_to E w hd (py "signal") t /\ has_item w hd t.

(** ... a dataset *)
Definition signal_plots (E : env) (w : world) (v : validator) (it : vitem) (t : pystr) : Prop :=
  signal_exists E w v it t /\ exists sit h, catalogued_at v t sit /\ it_obj sit = ONode h /\ isHdf5Dataset w h = true.

(** @default at address [a] names [t], which exists *)
Definition default_names (E : env) (w : world) (v : validator) (a t : pystr) : Prop :=
  exists it h, catalogued_at v a it /\ it_obj it = ONode h /\ points_to E w h (py "default") t /\ has_item w h t.

(** the chain of @default from the root through the entry to the data group *)
Definition default_chain (E : env) (w : world) (v : validator) (it : vitem) : Prop :=
  exists entry data hd, signal_of v it entry data hd
    /\ default_names E w v [47%N] (47%N :: entry) /\ default_names E w v (47%N :: entry) (47%N :: entry ++ 47%N :: data).

(** ** Version 2: @signal=1 of a field *)
(** item [i] is the attribute @signal=1 of the dataset item [pit], found in the group item [gp] *)
Definition signal_field (w : world) (v : validator) (i : nat) (it pit gp : vitem) : Prop :=
  (exists cp, listed_at v cp i it /\ exists d, cp = d ++ py "@signal")
  /\ (exists p g, it_parent it = Some p /\ nth_error (st_items (v_st v)) p = Some pit /\ it_parent pit = Some g /\ nth_error (st_items (v_st v)) g = Some gp)
  /\ (exists h, it_obj pit = ONode h /\ isHdf5Dataset w h = true)
  /\ hobj_str (it_obj it) = py "1".

(** it is the only such attribute below the address of its group *)
Definition only_signal_field (w : world) (v : validator) (i : nat) (it pit gp : vitem) : Prop :=
  signal_field w v i it pit gp /\ forall j jt pjt gj, signal_field w v j jt pjt gj -> it_addr gj = it_addr gp -> j = i.

(** there are several below address [a] *)
Definition several_signal_fields (w : world) (v : validator) (a : option pystr) : Prop :=
  exists i it pit gp j jt pjt gj, i <> j /\ signal_field w v i it pit gp /\ signal_field w v j jt pjt gj /\ it_addr gp = a /\ it_addr gj = a.

(** ** What version 3 makes of a file *)
(** every listed @signal names something that exists, one of them a dataset *)
Definition v3_found (E : env) (w : world) (v : validator) : Prop :=
  (forall i it, listed_at v signal_path i it -> exists t, signal_exists E w v it t)
  /\ exists i it t, listed_at v signal_path i it /\ signal_plots E w v it t.

(** item [i] is a listed @signal that names a dataset and is reached by @default from the root *)
Definition chain_plot (E : env) (w : world) (v : validator) (i : nat) (it : vitem) : Prop :=
  listed_at v signal_path i it /\ (exists t, signal_plots E w v it t) /\ default_chain E w v it.

Definition only_chain_plot (E : env) (w : world) (v : validator) (i : nat) (it : vitem) : Prop :=
  chain_plot E w v i it /\ forall j jt, chain_plot E w v j jt -> j = i.

(** the address version 3 gives: that of the only @signal reached by @default, or
    else that of the dataset named by the last listed @signal that names one *)
Inductive v3_address (E : env) (w : world) (v : validator) : pystr -> Prop :=
| va_chain : forall i it a, only_chain_plot E w v i it -> it_addr it = Some a -> v3_address E w v a
| va_last : forall l l1 i l2 it a, (forall i it, ~ only_chain_plot E w v i it) ->
    In (signal_path, l) (st_cp (v_st v)) -> l = l1 ++ i :: l2 -> nth_error (st_items (v_st v)) i = Some it ->
    signal_plots E w v it a ->
    (forall j jt, In j l2 -> nth_error (st_items (v_st v)) j = Some jt -> forall t, ~ signal_plots E w v jt t) ->
    v3_address E w v a.

(** the findings about the listed @signal attributes [l], in order *)
Inductive v3_report (E : env) (w : world) (v : validator) : list nat -> list finding -> Prop :=
| vr_nil : v3_report E w v [] []
| vr_missing : forall i l it, nth_error (st_items (v_st v)) i = Some it -> (forall t, ~ signal_exists E w v it t) ->
    v3_report E w v (i :: l) [mkF (it_addr it) v3_test ERROR (py "field described by @signal does not exist")]
| vr_other : forall i l it fs, nth_error (st_items (v_st v)) i = Some it -> (exists t, signal_exists E w v it t) -> (forall t, ~ signal_plots E w v it t) ->
    v3_report E w v l fs -> v3_report E w v (i :: l) fs
| vr_data : forall i l it fs, nth_error (st_items (v_st v)) i = Some it -> (exists t, signal_plots E w v it t) ->
    v3_report E w v l fs -> v3_report E w v (i :: l) (mkF (it_addr it) v3_test OK (py "correct default plot setup in /NXentry/NXdata") :: fs).

(** the finding about the plot that the @default attributes lead to: one, if every listed @signal
    names something that exists and they lead to exactly one *)
Definition niac_test : pystr := py "NeXus default plot v3 NIAC2014".
Inductive niac_report (E : env) (w : world) (v : validator) : list finding -> Prop :=
| nr_one : forall i it, (forall j jt, listed_at v signal_path j jt -> exists t, signal_exists E w v jt t) -> only_chain_plot E w v i it ->
    niac_report E w v [mkF (it_addr it) niac_test OK (py "default plot setup in /NXentry/NXdata")]
| nr_missing : forall j jt, listed_at v signal_path j jt -> (forall t, ~ signal_exists E w v jt t) -> niac_report E w v []
| nr_none : (forall i it, ~ only_chain_plot E w v i it) -> niac_report E w v [].

(** ** What version 2 makes of a file *)
(** all items, in the order of the class path catalogue *)
Definition all_items (v : validator) : list nat := List.concat (map snd (st_cp (v_st v))).

Definition v2_found (w : world) (v : validator) : Prop := exists i it pit gp, only_signal_field w v i it pit gp.

(** the address version 2 gives: that of the last field that is the only one in its group *)
Definition v2_address (w : world) (v : validator) (a : pystr) : Prop :=
  exists l1 i l2 it pit gp, all_items v = l1 ++ i :: l2 /\ only_signal_field w v i it pit gp /\ it_addr pit = Some a
    /\ forall j jt pjt gj, In j l2 -> ~ only_signal_field w v j jt pjt gj.

(** item [i] is a @signal, other than 1, of a dataset *)
Definition other_signal (w : world) (v : validator) (i : nat) (it : vitem) : Prop :=
  (exists cp, listed_at v cp i it /\ exists d, cp = d ++ py "@signal")
  /\ (exists p pit h, it_parent it = Some p /\ nth_error (st_items (v_st v)) p = Some pit /\ it_obj pit = ONode h /\ isHdf5Dataset w h = true)
  /\ hobj_str (it_obj it) <> py "1".

Definition signal_1_test : pystr := py "NeXus default plot v2, @signal=1".
Definition signal_not_1_test : pystr := py "NeXus default plot v2, @signal!=1".
Definition several_test : pystr := py "NeXus default plot v2, multiple @signal=1".

(** the findings about item [i] *)
Inductive v2_item_report (w : world) (v : validator) (i : nat) : list finding -> Prop :=
| v2_one : forall it pit gp a, signal_field w v i it pit gp -> it_addr it = Some a ->
    v2_item_report w v i [mkF (Some a) signal_1_test OK (py "found field with @signal=1: " ++ a)]
| v2_other : forall it a, other_signal w v i it -> it_addr it = Some a ->
    v2_item_report w v i [mkF (Some a) signal_not_1_test WARN (py "found field with @signal!=1: " ++ a ++ py "=" ++ hobj_str (it_obj it))]
| v2_none : (forall it pit gp, ~ signal_field w v i it pit gp) -> (forall it, ~ other_signal w v i it) -> v2_item_report w v i [].

(** a finding about a group with several *)
Definition several_finding (f : finding) : Prop :=
  exists a, f = mkF (Some a) several_test ERROR (py "multiple fields found with @signal=1 in: " ++ a).

(** ... and about it as plottable data *)
Inductive v2_plot_report (w : world) (v : validator) (i : nat) : list finding -> Prop :=
| v2_plot : forall it pit gp a, only_signal_field w v i it pit gp -> it_addr it = Some a ->
    v2_plot_report w v i [mkF (Some a) v2_test OK (py "found plottable data: " ++ a)]
| v2_no_plot : (forall it pit gp, ~ only_signal_field w v i it pit gp) -> v2_plot_report w v i [].

(** ** The verdict *)
(** an NXentry needs a data group, according to the classes *)
Definition needs_data (cl : classes) : Prop :=
  exists d g, dget (py "NXentry") cl = Some d /\ dget (py "data") (d_groups d) = Some g
    /\ match g_minOccurs g with Some z => (0 < z)%Z | None => True end.

Inductive plot_verdict (E : env) (w : world) (v : validator) : finding -> Prop :=
| pv_v3 : forall a, v3_found E w v -> v3_address E w v a -> plot_verdict E w v (mkF (Some [47%N]) verdict_test OK (py "found by v3: " ++ a))
| pv_v2 : forall a, ~ v3_found E w v -> v2_found w v -> v2_address w v a ->
    plot_verdict E w v (mkF (Some [47%N]) verdict_test OK (py "found by v2: " ++ a))
| pv_none : forall st, ~ v3_found E w v -> ~ v2_found w v -> (st = ERROR /\ needs_data (st_classes (v_st v)) \/ st = NOTE /\ ~ needs_data (st_classes (v_st v))) ->
    plot_verdict E w v (mkF (Some [47%N]) verdict_test st (py "no default plot described")).

(** ** Plottable groups of a file *)
(** the group at /e/d has class path /NXentry/NXdata and its @signal names the dataset [s] in it *)
Definition plottable (E : env) (f : h5file) (e d s : pystr) : Prop :=
  exists o val os ob x, leads f 0 [e; d] o /\ class_path E f [e; d] (py "/NXentry/NXdata")
    /\ dget (py "signal") (attributes f o) = Some val /\ decode_byte_string E val = Ok (VStr s)
    /\ leads f o [s] os /\ nth_error f os = Some ob /\ ob_kind ob = KDataset x.

(** every @signal of class path /NXentry/NXdata@signal belongs to a group /e/d and names a member of that group *)
Definition signals_name_members (E : env) (f : h5file) : Prop :=
  (forall p, ~ class_path E f p signal_path)
  /\ forall p o, class_path E f p (py "/NXentry/NXdata") -> leads f 0 p o -> In (py "signal") (map fst (attributes f o)) ->
     exists e d val s os, p = [e; d] /\ dget (py "signal") (attributes f o) = Some val /\ decode_byte_string E val = Ok (VStr s) /\ leads f o [s] os.

(** the findings of several tests *)
Definition of_tests (v : validator) (tests : list pystr) : list finding := filter (fun f => existsb (str_eqb (f_test f)) tests) (st_find (v_st v)).
