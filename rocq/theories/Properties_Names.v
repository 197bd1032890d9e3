(** * Theorems about the name checks (C01-C07, C70) *)

From Coq Require Import List NArith ZArith Bool String.
From Verif Require Import PyBase Regex H5 Findings Nxdl Core Catalog ItemName GroupChecks Validate Samples Spec_Names Spec_Run Spec_Cache
  NameFacts NameRun ClassNameRun NameSamples CacheFacts.
Import ListNotations.
Local Open Scope nat_scope.

(** the runs of the examples complete *)
Example good_file_completes : validate setup0 (world_of good_file) (new_validator classes0) fn = (done good_file, Ok tt).
Proof. vm_compute. reflexivity. Qed.
Example names_file_completes : validate setup0 (world_of names_file) (new_validator classes0) fn = (done names_file, Ok tt).
Proof. vm_compute. reflexivity. Qed.

(** ** C01: the status of an object's name *)
Theorem C01_names : forall u w v fname v', validate u w v fname = (v', Ok tt) ->
  forall i it h, listed v' i it -> it_obj it = ONode h -> it_parent it <> None ->
  (isHdf5Group w h = true \/ isHdf5Dataset w h = true) ->
  ~ In 64%N (it_cp it) -> ~ has_part (it_cp it) (py "NXcollection") ->
  exists n st comment, it_name it = Some n /\ last_component (h_name h) n /\ it_addr it = Some (h_name h)
   /\ shows v' i it (mkF (Some (h_name h)) (py "validItemName") st comment)
   /\ name_status (e_uw (u_env u)) (ctx_patterns u) n st
   /\ name_comment (e_uw (u_env u)) (ctx_patterns u) (py "valid HDF5 item name, not valid with NeXus") n comment.
Proof. exact object_names. Qed.
Print Assumptions C01_names.

(** with the patterns of the shipped schemas *)
Theorem C01_shipped : forall u, ctx_patterns u = shipped_item_patterns -> forall n,
  relaxed_name (e_uw (u_env u)) (ctx_patterns u) n <-> or_newline (identifier (e_uw (u_env u))) n.
Proof. intros u -> n. apply shipped_item_names. Qed.
Print Assumptions C01_shipped.

(** /entry/Data of the sample file *)
Example C01_case : listed (done good_file) 7 (item_of good_file 7)
  /\ (exists h, it_obj (item_of good_file 7) = ONode h /\ isHdf5Group (world_of good_file) h = true)
  /\ it_parent (item_of good_file 7) <> None
  /\ ~ In 64%N (it_cp (item_of good_file 7)) /\ ~ has_part (it_cp (item_of good_file 7)) (py "NXcollection")
  /\ it_name (item_of good_file 7) = Some (py "Data") /\ ctx_patterns setup0 = shipped_item_patterns.
Proof.
  split; [apply item_listed; vm_compute; reflexivity|]. split; [vm_compute; eexists; split; reflexivity|].
  split; [vm_compute; discriminate|]. split; [apply names_in_at; vm_compute; reflexivity|].
  split; [rewrite <- contains_has_part; vm_compute; discriminate|]. split; vm_compute; reflexivity.
Qed.

(** the three statuses exclude each other, and so do the comments *)
Theorem C01_exclusive : forall uw l n st st', name_status uw l n st -> name_status uw l n st' -> st = st'.
Proof. intros uw l n st st' H1 H2. inversion H1; inversion H2; subst; tauto. Qed.
Print Assumptions C01_exclusive.

Theorem C01_one_comment : forall uw l o n c c', name_comment uw l o n c -> name_comment uw l o n c' -> c = c'.
Proof. exact name_comment_fun. Qed.
Print Assumptions C01_one_comment.

(** ** C02: false; a trailing newline is accepted *)
Theorem C02_refuted : exists i it n comment, listed (done names_file) i it /\ it_name it = Some n
  /\ shows (done names_file) i it (mkF (it_addr it) (py "validItemName") OK comment) /\ ~ strict_name n.
Proof. exact newline_name_ok. Qed.
Print Assumptions C02_refuted.

(** names without a newline *)
Theorem C02_partial : forall u w v fname v', validate u w v fname = (v', Ok tt) ->
  forall i it h n comment, listed v' i it -> it_obj it = ONode h -> it_parent it <> None ->
  (isHdf5Group w h = true \/ isHdf5Dataset w h = true) -> ~ In 64%N (it_cp it) ->
  it_name it = Some n -> ~ In 10%N n ->
  shows v' i it (mkF (Some (h_name h)) (py "validItemName") OK comment) -> strict_name n.
Proof. exact strict_if_ok. Qed.
Print Assumptions C02_partial.

(** ** C03: false; the length is not looked at *)
Theorem C03_refuted : exists i it n comment, listed (done names_file) i it /\ it_name it = Some n /\ 63 < List.length n
  /\ shows (done names_file) i it (mkF (it_addr it) (py "validItemName") OK comment).
Proof. exact long_name_ok. Qed.
Print Assumptions C03_refuted.

Theorem C03_any_length : forall u w v fname v', validate u w v fname = (v', Ok tt) ->
  forall i it h n, listed v' i it -> it_obj it = ONode h -> it_parent it <> None ->
  (isHdf5Group w h = true \/ isHdf5Dataset w h = true) -> ~ In 64%N (it_cp it) -> ~ has_part (it_cp it) (py "NXcollection") ->
  it_name it = Some n -> strict_name n ->
  exists comment, shows v' i it (mkF (Some (h_name h)) (py "validItemName") OK comment).
Proof. exact strict_is_ok. Qed.
Print Assumptions C03_any_length.

(** ** C04: NX_class values with the shipped patterns *)
Theorem C04_class_names : forall u w v fname v', validate u w v fname = (v', Ok tt) ->
  class_patterns u = Some shipped_class_patterns ->
  forall i it x, listed v' i it -> it_obj it = OVal x -> it_name it = Some (py "NX_class") -> it_addr it <> None ->
  exists n st comment, decode_byte_string (u_env u) x = Ok (VStr n)
    /\ shows v' i it (mkF (it_addr it) (py "validItemName") st comment)
    /\ ((st = OK /\ class_name (e_uw (u_env u)) n) \/ (st = ERROR /\ ~ class_name (e_uw (u_env u)) n))
    /\ class_comment (e_uw (u_env u)) shipped_class_patterns n comment.
Proof. exact class_names. Qed.
Print Assumptions C04_class_names.

Example C04_case : listed (done good_file) 8 (item_of good_file 8) /\ it_obj (item_of good_file 8) = OVal (str "NXdata")
  /\ it_name (item_of good_file 8) = Some (py "NX_class") /\ it_addr (item_of good_file 8) <> None
  /\ class_patterns setup0 = Some shipped_class_patterns.
Proof.
  split; [apply item_listed; vm_compute; reflexivity|].
  split; [vm_compute; reflexivity|]. split; [vm_compute; reflexivity|]. split; [vm_compute; discriminate|vm_compute; reflexivity].
Qed.

(** ** C05: false; the value "entry" on the root is reported OK *)
Theorem C05_refuted : exists i it n comment, listed (done names_file) i it /\ it_obj it = OVal (VStr n) /\ it_name it = Some (py "NX_class")
  /\ ~ (exists t, n = 78%N :: 88%N :: t)
  /\ shows (done names_file) i it (mkF (it_addr it) (py "validItemName") OK comment).
Proof. exact class_without_nx_ok. Qed.
Print Assumptions C05_refuted.

(** on a group below the root such a value gets no name finding at all *)
Theorem C05_partial : forall u w v fname v', validate u w v fname = (v', Ok tt) ->
  forall q qt p pit h i it x n,
  listed v' i it -> it_obj it = OVal x -> it_name it = Some (py "NX_class") -> it_parent it = Some p ->
  listed v' p pit -> it_obj pit = ONode h -> isHdf5Group w h = true -> it_name pit <> Some [47%N] -> dget (py "NX_class") (attrs_of w h) = Some x ->
  it_parent pit = Some q -> listed v' q qt -> ~ (exists d, it_cp qt = d ++ [47%N]) ->
  decode_byte_string (u_env u) x = Ok (VStr n) -> ~ (exists t, n = 78%N :: 88%N :: t) ->
  it_addr it = None /\ dget (py "validItemName") (it_vals it) = None.
Proof. exact group_class_unchecked. Qed.
Print Assumptions C05_partial.

(** /entry/Bad of names_file *)
Example C05_case : let it := item_of names_file 9 in let pit := item_of names_file 8 in let qt := item_of names_file 2 in
  listed (done names_file) 9 it /\ it_obj it = OVal (str "entry") /\ it_name it = Some (py "NX_class") /\ it_parent it = Some 8
  /\ listed (done names_file) 8 pit
  /\ (exists h, it_obj pit = ONode h /\ isHdf5Group (world_of names_file) h = true
       /\ dget (py "NX_class") (attrs_of (world_of names_file) h) = Some (str "entry"))
  /\ it_name pit <> Some [47%N] /\ it_parent pit = Some 2 /\ listed (done names_file) 2 qt /\ it_cp qt = py "/NXentry".
Proof.
  cbv zeta. split; [apply item_listed; vm_compute; reflexivity|]. split; [vm_compute; reflexivity|]. split; [vm_compute; reflexivity|].
  split; [vm_compute; reflexivity|]. split; [apply item_listed; vm_compute; reflexivity|].
  split; [vm_compute; eexists; repeat split; reflexivity|]. split; [vm_compute; discriminate|]. split; [vm_compute; reflexivity|].
  split; [apply item_listed; vm_compute; reflexivity|vm_compute; reflexivity].
Qed.

(** ** C06: content of NXcollection *)
Theorem C06_collections : forall u w v fname v', validate u w v fname = (v', Ok tt) ->
  forall i it h, listed v' i it -> it_obj it = ONode h -> it_parent it <> None ->
  (isHdf5Group w h = true \/ isHdf5Dataset w h = true) ->
  ~ In 64%N (it_cp it) -> has_part (it_cp it) (py "NXcollection") ->
  shows v' i it (mkF (Some (h_name h)) (py "validItemName") WARN (py "NXcollection contains non-NeXus content")).
Proof. exact collection_names. Qed.
Print Assumptions C06_collections.

(** /entry/notes/any old thing *)
Example C06_case : listed (done good_file) 17 (item_of good_file 17)
  /\ (exists h, it_obj (item_of good_file 17) = ONode h /\ isHdf5Dataset (world_of good_file) h = true)
  /\ it_parent (item_of good_file 17) <> None /\ ~ In 64%N (it_cp (item_of good_file 17))
  /\ has_part (it_cp (item_of good_file 17)) (py "NXcollection").
Proof.
  split; [apply item_listed; vm_compute; reflexivity|]. split; [vm_compute; eexists; split; reflexivity|].
  split; [vm_compute; discriminate|]. split; [apply names_in_at; vm_compute; reflexivity|].
  apply contains_has_part. vm_compute. reflexivity.
Qed.

(** ** C07: the compiled patterns kept by the validator do not change any answer *)
Theorem C07_names : forall c s cl o, history c s ->
  snd (validItemName_match_key c o s) = snd (validItemName_match_key c o (fresh_state cl)).
Proof. exact name_answer_history. Qed.
Print Assumptions C07_names.

Theorem C07_class_names : forall c s cl o, history c s ->
  snd (class_match c o s) = snd (class_match c o (fresh_state cl)).
Proof. exact class_answer_history. Qed.
Print Assumptions C07_class_names.

(** the whole name check of an item: the findings it adds and its result *)
Theorem C07_check : forall c i s s', history c s -> history c s' -> same_here i s s' ->
  outcome (item_name_verify c i) s = outcome (item_name_verify c i) s'.
Proof. exact name_check_history. Qed.
Print Assumptions C07_check.

(** a state with a filled cache, and one without, that agree on an item *)
Example C07_case : let c := ctx_of good_file in let s := fst (build_address_catalog c (fresh_state classes0)) in
  let s' := fst (check_item c 6 s) in
  history c s /\ history c s' /\ st_cache s = [] /\ st_cache s' <> [] /\ same_here 13 s s'.
Proof.
  cbv zeta. split; [apply hi_build|]. split; [apply hi_item, hi_build|]. split; [vm_compute; reflexivity|]. split; [vm_compute; discriminate|].
  split; [vm_compute; reflexivity|]. intros it p H. vm_compute in H. inversion H; subst. intros E. simpl in E. inversion E; subst p. 
  vm_compute. reflexivity.
Qed.

(** ** C70: attribute names *)
Theorem C70_attribute_names : forall u w v fname v', validate u w v fname = (v', Ok tt) ->
  forall i it x, listed v' i it -> it_obj it = OVal x -> it_addr it <> None ->
  exists p pit h k, listed v' p pit /\ it_parent it = Some p /\ it_obj pit = ONode h /\ In (k, x) (attrs_of w h)
    /\ it_name it = Some k /\ it_addr it = Some (h_name h ++ ch_at :: k) /\
    if endswith (h_name h ++ ch_at :: k) (py "@NX_class")
    then exists l n st cm, class_patterns u = Some l /\ decode_byte_string (u_env u) x = Ok (VStr n)
      /\ shows v' i it (mkF (it_addr it) (py "validItemName") st cm)
      /\ ((st = OK /\ relaxed_name (e_uw (u_env u)) l n) \/ (st = ERROR /\ ~ relaxed_name (e_uw (u_env u)) l n))
      /\ class_comment (e_uw (u_env u)) l n cm
    else (linked_elsewhere (u_env u) (attrs_of w h) (h_name h) /\ dget (py "validItemName") (it_vals it) = None
          /\ (own_address v' i -> findings_for v' (it_addr it) (py "validItemName") = []))
      \/ (~ linked_elsewhere (u_env u) (attrs_of w h) (h_name h) /\ exists st cm,
          shows v' i it (mkF (it_addr it) (py "validItemName") st cm)
          /\ ((st = OK /\ (or_newline strict_name k \/ relaxed_name (e_uw (u_env u)) (ctx_patterns u) k)) \/
              (st = ERROR /\ ~ or_newline strict_name k /\ ~ relaxed_name (e_uw (u_env u)) (ctx_patterns u) k))
          /\ name_comment (e_uw (u_env u)) (ctx_patterns u) (py "no matching pattern found") k cm).
Proof. exact attribute_name_shows. Qed.
Print Assumptions C70_attribute_names.

(** attributes of non-NeXus content have no address and no name finding *)
Theorem C70_unaddressed : forall u w v fname v', validate u w v fname = (v', Ok tt) ->
  forall i it x, listed v' i it -> it_obj it = OVal x -> it_addr it = None ->
  dget (py "validItemName") (it_vals it) = None.
Proof. exact unaddressed_unchecked. Qed.
Print Assumptions C70_unaddressed.

(** x@2bad has an address, /scratch@note has none *)
Example C70_case : listed (done good_file) 14 (item_of good_file 14) /\ it_obj (item_of good_file 14) = OVal (VInt 3)
  /\ it_addr (item_of good_file 14) = Some (py "/entry/Data/x@2bad")
  /\ listed (done good_file) 19 (item_of good_file 19) /\ it_obj (item_of good_file 19) = OVal (str "not NeXus")
  /\ it_addr (item_of good_file 19) = None.
Proof.
  split; [apply item_listed; vm_compute; reflexivity|]. split; [vm_compute; reflexivity|]. split; [vm_compute; reflexivity|].
  split; [apply item_listed; vm_compute; reflexivity|]. split; vm_compute; reflexivity.
Qed.
