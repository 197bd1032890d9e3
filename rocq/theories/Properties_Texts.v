(** * Theorems about the texts of file sets, findings and items (C127, C128) *)

From Coq Require Import List NArith ZArith Bool String Lia Permutation Sorted.
From Verif Require Import PyBase PyFacts H5 Findings Nxdl Core Catalog Validate Samples Trace CatalogFacts Spec_Run CatalogRun CatalogEnd NameSamples CatalogSamples Texts TextFacts.
Import ListNotations.
Local Open Scope nat_scope.

(** the number of classes of a category *)
Definition classes_in (k : pystr) (classes : dict nxdef) : nat :=
  List.length (filter (fun d => str_eqb (d_category d) k) (map snd classes)).

(** ** C127: the text of a file set *)
(** every category with its number of classes, in order; the numbers add up to the
    number of classes *)
Theorem C127_text : forall classes, exists shown,
  manager_text classes = py "NXDL_Manager(" ++ join (py ", ") (map (fun kn => fst kn ++ py ":" ++ str_nat (snd kn)) shown) ++ py ")" /\
  (forall k n, In (k, n) shown <-> n = classes_in k classes /\ 0 < n) /\
  StronglySorted (fun a b => str_leb (fst a) (fst b) = true /\ fst a <> fst b) shown /\
  list_sum (map snd shown) = List.length classes.
Proof.
  intros cl. exists (shown cl). split; [reflexivity|]. split; [apply shown_in|]. split; [apply shown_sorted|apply shown_total].
Qed.
Print Assumptions C127_text.

(** neither the order nor anything else about the classes matters *)
Theorem C127_same : forall a b, (forall k, classes_in k a = classes_in k b) -> manager_text a = manager_text b.
Proof. intros a b H. unfold manager_text. fold (shown a) (shown b). rewrite (shown_same a b H). reflexivity. Qed.
Print Assumptions C127_same.

(** and the text tells the numbers, when no category has a comma *)
Theorem C127_tells : forall a b, (forall d, In d (map snd a) \/ In d (map snd b) -> ~ In 44%N (d_category d)) ->
  manager_text a = manager_text b -> forall k, classes_in k a = classes_in k b.
Proof. intros a b H E. apply (counts_of_shown a b). apply text_tells; auto. Qed.
Print Assumptions C127_tells.

Example C127_case : manager_text classes0 = py "NXDL_Manager(applications:1, base_classes:5)" /\ classes_in (py "base_classes") classes0 = 5
  /\ (forall d, In d (map snd classes0) -> ~ In 44%N (d_category d)).
Proof.
  split; [vm_compute; reflexivity|]. split; [vm_compute; reflexivity|].
  assert (X : Forall (fun d => existsb (N.eqb 44) (d_category d) = false) (map snd classes0)) by (repeat (constructor; [vm_compute; reflexivity|]); constructor).
  intros d H I. rewrite Forall_forall in X. apply X in H. rewrite <- not_true_iff_false in H. apply H. apply existsb_exists. exists 44%N. auto.
Qed.

(** ** C128: texts of findings and items *)
(** false: commas in a name *)
Theorem C128_refuted : exists f g, f <> g /\ finding_text f = finding_text g /\ f_addr f = Some (py "/a") /\ f_addr g = Some (py "/a, t, finding.OK")
  /\ f_test f = f_test g /\ f_status f = f_status g.
Proof.
  exists (mkF (Some (py "/a")) (py "t") OK (py "t, finding.OK, x")), (mkF (Some (py "/a, t, finding.OK")) (py "t") OK (py "x")).
  split; [intros E; apply (f_equal f_addr) in E; vm_compute in E; discriminate|]. split; [vm_compute; reflexivity|]. auto 10.
Qed.
Print Assumptions C128_refuted.

(** without commas in addresses and names of tests, different findings have different texts *)
Theorem C128_partial : forall f g a b, f_addr f = Some a -> f_addr g = Some b -> ~ In 44%N a -> ~ In 44%N b ->
  ~ In 44%N (f_test f) -> ~ In 44%N (f_test g) -> finding_text f = finding_text g -> f = g.
Proof. exact finding_text_inj. Qed.
Print Assumptions C128_partial.

Example C128_case : finding_text (mkF (Some (py "/entry")) (py "name") OK (py "valid, strict"))
  = py "finding.Finding(/entry, name, finding.OK, valid, strict)" /\ ~ In 44%N (py "/entry") /\ ~ In 44%N (py "name").
Proof.
  split; [vm_compute; reflexivity|]. split; intros H; vm_compute in H; repeat (destruct H as [H|H]; [discriminate|]); destruct H.
Qed.

(** every item of a validated file has a text *)
Theorem C128_items : forall u w v fname v' r f, dget fname w = Some (FHdf5 f) -> validate u w v fname = (v', r) ->
  forall type_text i it, listed v' i it -> exists t,
    object_type (u_env u) w type_text (it_obj it) = Ok t /\
    item_text (u_env u) w type_text it
      = Ok (py "ValidationItem(name=" ++ ostr (it_name it) ++ py ", type=" ++ t ++ py ", classpath=" ++ it_cp it ++ py ")").
Proof.
  intros u w v fname v' r f Hf Hv tt i it L. destruct (validate_trace _ _ _ _ _ _ _ Hf Hv) as [s1 [rb [log [Eb [T [HI _]]]]]].
  destruct (listed_in u w fname v' _ _ _ _ T HI L) as [it0 [H1 H2]]. apply skel_eq in H2 as [A1 [A2 [A3 [A4 [A5 A6]]]]].
  assert (X : exists t, object_type (u_env u) w tt (it_obj it) = Ok t).
  { rewrite A2. destruct (ci_origin _ _ HI _ _ H1) as [_ _ Z|? ? ? ? ? _ _ _ _ _ Z|? ? ? ? ? _ _ _ _ Z].
    - eapply node_type; eauto.
    - eapply node_type; eauto.
    - subst it0. destruct (attr_item_spec p pit v0 (Some k)) as [-> _]. cbn. eauto. }
  destruct X as [t X]. exists t. split; auto. unfold item_text. rewrite X. cbn [rbind join].
  f_equal. change (py "ValidationItem(name=") with (py "ValidationItem(" ++ py "name="). change (py ", type=") with (py ", " ++ py "type=").
  change (py ", classpath=") with (py ", " ++ py "classpath="). rewrite <- !app_assoc. reflexivity.
Qed.
Print Assumptions C128_items.

(** a group or dataset whose @target is text is shown as a link unless the text is
    empty or its own address; others are shown as what they are *)
Theorem C128_type : forall E w type_text h ob v s, obj_of w h = Some ob -> ob_kind ob <> KDatatype ->
  dget (py "target") (attrs_of w h) = Some v -> decode_byte_string E v = Ok (VStr s) ->
  exists t, object_type E w type_text (ONode h) = Ok t /\
  (t = py "NeXus link" <-> s <> [] /\ s <> h_name h) /\
  (t <> py "NeXus link" -> t = match ob_kind ob with KGroup _ => if h_isfile h then py "HDF5 file root" else py "HDF5 group" | _ => py "HDF5 dataset" end).
Proof.
  intros E w tt h ob v s Ho Hk Ht Hd. unfold object_type. rewrite Ho. unfold isNeXusLink. rewrite Ht, Hd.
  cbn [rbind]. assert (X : negb (str_eqb s []) && negb (str_eqb s (h_name h)) = true <-> s <> [] /\ s <> h_name h).
  { rewrite andb_true_iff, !negb_true_iff. split; intros [A B]; split; try (apply str_eqb_neq; auto); intros Z; subst; rewrite str_eqb_refl in *; discriminate. }
  destruct (negb (str_eqb s []) && negb (str_eqb s (h_name h))).
  - destruct (ob_kind ob); [| |congruence]; eexists; (split; [reflexivity|]); (split; [tauto|congruence]).
  - destruct (ob_kind ob); [| |congruence]; eexists; (split; [reflexivity|]); (split; [|reflexivity]); split; intros Z; try (apply X in Z; discriminate);
      exfalso; revert Z; [destruct (h_isfile h)|]; intros Z; vm_compute in Z; discriminate.
Qed.
Print Assumptions C128_type.

Example C128_item_case : item_text env0 (world_of good_file) (fun _ => []) (item_of good_file 11)
  = Ok (py "ValidationItem(name=counts, type=HDF5 dataset, classpath=/NXentry/NXdata/counts)") /\ listed (done good_file) 11 (item_of good_file 11).
Proof. split; [vm_compute; reflexivity|apply item_listed; vm_compute; reflexivity]. Qed.
