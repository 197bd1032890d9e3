(** * Theorems about the catalogue of a file (C08-C14) *)

From Coq Require Import List NArith ZArith Bool String Lia.
From Verif Require Import PyBase H5 Findings Nxdl Core Catalog GroupChecks Validate Samples Spec_Run Spec_Catalog
  AddressFacts CatalogEnd CatalogTerm AddrRecord NameSamples CatalogSamples.
Import ListNotations.
Local Open Scope nat_scope.

(** the conditions hold of the sample files *)
Example good_file_conditions : plain_file good_file /\ distinct_names good_file /\ no_at_names good_file.
Proof. split; [apply plainb_ok; vm_compute; reflexivity|]. split; [apply distinctb_ok; vm_compute; reflexivity|apply no_atb_ok; vm_compute; reflexivity]. Qed.
Example soft_file_conditions : plain_file soft_file /\ distinct_names soft_file /\ no_at_names soft_file.
Proof. split; [apply plainb_ok; vm_compute; reflexivity|]. split; [apply distinctb_ok; vm_compute; reflexivity|apply no_atb_ok; vm_compute; reflexivity]. Qed.
Example soft_file_completes : validate setup0 (world_of soft_file) (new_validator classes0) fn = (done soft_file, Ok tt) /\ catalogued (done soft_file) (Ok tt).
Proof. split; [vm_compute; reflexivity|left; reflexivity]. Qed.

(** ** C08: the addresses are the paths of the file *)
Theorem C08_sound : forall u w v fname v' r f, dget fname w = Some (FHdf5 f) -> validate u w v fname = (v', r) -> plain_file f ->
  forall a i, In (Some a, i) (st_addr (v_st v')) ->
  exists it p o, nth_error (st_items (v_st v')) i = Some it /\ it_addr it = Some a /\ leads f 0 p o /\ Forall link_name p /\
    ((exists h, it_obj it = ONode h /\ h_file h = fname /\ h_oid h = o /\ a = path_text p) \/
     (exists k val, it_obj it = OVal val /\ In (k, val) (attributes f o) /\ a = path_text p ++ 64%N :: k)).
Proof. exact keys_sound. Qed.
Print Assumptions C08_sound.

Theorem C08_complete : forall u w v fname v' r f, dget fname w = Some (FHdf5 f) -> validate u w v fname = (v', r) -> plain_file f ->
  catalogued v' r -> forall p o, leads f 0 p o ->
  exists i it h, listed v' i it /\ it_obj it = ONode h /\ h_oid h = o /\ h_file h = fname /\ it_addr it = Some (path_text p)
    /\ In (Some (path_text p)) (map fst (st_addr (v_st v')))
    /\ forall k val, In (k, val) (attributes f o) -> exists j jt, listed v' j jt /\ it_obj jt = OVal val /\ it_parent jt = Some i /\ it_name jt = Some k.
Proof. exact paths_catalogued. Qed.
Print Assumptions C08_complete.

Theorem C08_exact : forall u w v fname v' r f, dget fname w = Some (FHdf5 f) -> validate u w v fname = (v', r) -> catalogued v' r ->
  plain_file f -> distinct_names f -> no_at_names f ->
  forall a o, (exists i it h, In (Some a, i) (st_addr (v_st v')) /\ nth_error (st_items (v_st v')) i = Some it /\ it_obj it = ONode h /\ h_oid h = o)
    <-> exists p, leads f 0 p o /\ a = path_text p.
Proof. exact paths_exact. Qed.
Print Assumptions C08_exact.

(** /entry/there/y: through a soft link *)
Example C08_case : leads soft_file 0 [py "entry"; py "there"; py "y"] 3 /\ path_text [py "entry"; py "there"; py "y"] = py "/entry/there/y".
Proof.
  split; [|reflexivity]. eapply le_hard; [vm_compute; reflexivity|vm_compute; lia|]. eapply le_soft with (o := 2); [vm_compute; reflexivity| |].
  - change (is_abs (py "/entry/data")) with true. cbv iota. change (path_comps (py "/entry/data")) with [py "entry"; py "data"].
    eapply le_hard; [vm_compute; reflexivity|vm_compute; lia|]. eapply le_hard; [vm_compute; reflexivity|vm_compute; lia|]. constructor.
  - eapply le_hard; [vm_compute; reflexivity|vm_compute; lia|]. constructor.
Qed.

(** ** C09: class paths *)
Theorem C09_items : forall u w v fname v' r f, dget fname w = Some (FHdf5 f) -> validate u w v fname = (v', r) ->
  forall i it, listed v' i it -> item_class (u_env u) w (st_items (v_st v')) it.
Proof. exact final_item_class. Qed.
Print Assumptions C09_items.

(** from the path alone, in a file without external links *)
Theorem C09_paths : forall u w v fname v' r f, dget fname w = Some (FHdf5 f) -> validate u w v fname = (v', r) -> plain_file f ->
  forall i it h, listed v' i it -> it_obj it = ONode h ->
  exists p, it_addr it = Some (path_text p) /\ Forall link_name p /\ leads f 0 p (h_oid h) /\ class_path (u_env u) f p (it_cp it).
Proof. exact final_class_path. Qed.
Print Assumptions C09_paths.

Theorem C09_determined : forall f E p a, class_path E f p a -> forall b, class_path E f p b -> a = b.
Proof. exact class_path_fun. Qed.
Print Assumptions C09_determined.

Example C09_case : listed (done good_file) 11 (item_of good_file 11) /\ it_cp (item_of good_file 11) = py "/NXentry/NXdata/counts"
  /\ listed (done good_file) 12 (item_of good_file 12) /\ it_cp (item_of good_file 12) = py "/NXentry/NXdata/counts@units".
Proof.
  split; [apply item_listed; vm_compute; reflexivity|]. split; [vm_compute; reflexivity|].
  split; [apply item_listed; vm_compute; reflexivity|]. vm_compute; reflexivity.
Qed.

(** ** C10: non-NeXus content *)
Theorem C10_inherited : forall u w v fname v' r f, dget fname w = Some (FHdf5 f) -> validate u w v fname = (v', r) -> plain_file f ->
  forall i it h p, listed v' i it -> it_obj it = ONode h -> Forall link_name p -> it_addr it = Some (path_text p) -> it_cp it = non_nexus ->
  forall j jt h' q, listed v' j jt -> it_obj jt = ONode h' -> Forall link_name (p ++ q) -> it_addr jt = Some (path_text (p ++ q)) ->
  it_cp jt = non_nexus /\
  forall k kt val, listed v' k kt -> it_parent kt = Some j -> it_obj kt = OVal val -> it_cp kt = non_nexus /\ it_addr kt = None /\ it_vals kt = [].
Proof. exact non_nexus_all. Qed.
Print Assumptions C10_inherited.

(** for any file: an item without address has no findings, and no finding lacks an address *)
Theorem C10_no_findings : forall u w v fname v' r f, dget fname w = Some (FHdf5 f) -> validate u w v fname = (v', r) ->
  forall i it, listed v' i it -> it_addr it = None -> it_vals it = [].
Proof. exact no_addr_no_findings. Qed.
Print Assumptions C10_no_findings.

Theorem C10_addresses : forall u w v fname v' r f, dget fname w = Some (FHdf5 f) -> validate u w v fname = (v', r) ->
  Forall (fun g => f_addr g <> None) (st_find (v_st v')).
Proof. exact findings_have_addresses. Qed.
Print Assumptions C10_addresses.

(** /scratch, /scratch/deep and its attribute *)
Example C10_case : listed (done good_file) 18 (item_of good_file 18) /\ it_addr (item_of good_file 18) = Some (path_text [py "scratch"])
  /\ it_cp (item_of good_file 18) = non_nexus
  /\ listed (done good_file) 20 (item_of good_file 20) /\ it_addr (item_of good_file 20) = Some (path_text ([py "scratch"] ++ [py "deep"]))
  /\ listed (done good_file) 21 (item_of good_file 21) /\ it_parent (item_of good_file 21) = Some 20
  /\ it_obj (item_of good_file 21) = OVal (str "mm") /\ 10 < List.length (st_find (v_st (done good_file))).
Proof.
  split; [apply item_listed; vm_compute; reflexivity|]. split; [vm_compute; reflexivity|]. split; [vm_compute; reflexivity|].
  split; [apply item_listed; vm_compute; reflexivity|]. split; [vm_compute; reflexivity|]. split; [apply item_listed; vm_compute; reflexivity|].
  split; [vm_compute; reflexivity|]. split; [vm_compute; reflexivity|]. apply Nat.ltb_lt. vm_compute. reflexivity.
Qed.

(** ** C11: the two indexes *)
Theorem C11_addresses : forall u w v fname v' r f, dget fname w = Some (FHdf5 f) -> validate u w v fname = (v', r) ->
  forall a i, In (a, i) (st_addr (v_st v')) -> exists it l, nth_error (st_items (v_st v')) i = Some it
    /\ it_addr it = a /\ In (it_cp it, l) (st_cp (v_st v')) /\ In i l.
Proof. exact index_agree. Qed.
Print Assumptions C11_addresses.

Theorem C11_classpaths : forall u w v fname v' r f, dget fname w = Some (FHdf5 f) -> validate u w v fname = (v', r) ->
  forall k l i, In (k, l) (st_cp (v_st v')) -> In i l -> exists it, nth_error (st_items (v_st v')) i = Some it /\ it_cp it = k.
Proof. exact classpath_agree. Qed.
Print Assumptions C11_classpaths.

Theorem C11_unique : forall u w v fname v' r f, dget fname w = Some (FHdf5 f) -> validate u w v fname = (v', r) ->
  plain_file f -> distinct_names f -> no_at_names f -> forall i it a, listed v' i it -> it_addr it = Some a ->
  In (Some a, i) (st_addr (v_st v')) /\ forall j jt, listed v' j jt -> it_addr jt = Some a -> j = i.
Proof. exact addr_unique. Qed.
Print Assumptions C11_unique.

Example C11_case : listed (done good_file) 12 (item_of good_file 12) /\ it_addr (item_of good_file 12) = Some (py "/entry/Data/counts@units").
Proof. split; [apply item_listed; vm_compute; reflexivity|vm_compute; reflexivity]. Qed.

(** with '@' in a name the attribute b of /entry/a and the field /entry/a@b have
    the same address, and only one is found under it *)
Theorem C11_at_names_collide : exists i j it jt, i <> j /\ listed (done at_file) i it /\ listed (done at_file) j jt
  /\ it_addr it = Some (py "/entry/a@b") /\ it_addr jt = Some (py "/entry/a@b") /\ (exists x, it_obj it = OVal x) /\ (exists h, it_obj jt = ONode h).
Proof.
  exists 4, 5, (item_of at_file 4), (item_of at_file 5). split; [lia|].
  split; [apply item_listed; vm_compute; reflexivity|]. split; [apply item_listed; vm_compute; reflexivity|].
  split; [vm_compute; reflexivity|]. split; [vm_compute; reflexivity|]. split; vm_compute; eauto.
Qed.
Print Assumptions C11_at_names_collide.

(** ** C12: cataloguing completes *)
Theorem C12_completes : forall u w v fname v' r f, dget fname w = Some (FHdf5 f) -> validate u w v fname = (v', r) ->
  all_open w fname -> shallow w fname (u_reclimit u) -> described (u_env u) w fname ->
  exists s, build_address_catalog (mk_ctx u w fname) (fresh_state (st_classes (v_st v))) = (s, Ok tt)
    /\ st_addr (v_st v') = st_addr s /\ st_cp (v_st v') = st_cp s.
Proof. exact cataloguing_completes. Qed.
Print Assumptions C12_completes.

(** hard links with a rank that decreases along them *)
Theorem C12_hard_links : forall u w fname f rank cl, dget fname w = Some (FHdf5 f) -> hard_ranked f rank -> rank 0 < u_reclimit u -> described (u_env u) w fname ->
  exists s, build_address_catalog (mk_ctx u w fname) (fresh_state cl) = (s, Ok tt).
Proof. exact hard_links_complete. Qed.
Print Assumptions C12_hard_links.

Example C12_case : hard_ranked good_file (fun o => nth o [4; 3; 0; 1; 0; 0; 2; 1; 0] 0) /\ described env0 (world_of good_file) fn /\ 4 < u_reclimit setup0.
Proof.
  split; [apply rankedb_ok; vm_compute; reflexivity|]. split; [apply describedb_ok; vm_compute; reflexivity|].
  apply Nat.ltb_lt. vm_compute. reflexivity.
Qed.

(** ** C13: false; a cycle, a dangling link and a class name ending in a slash *)
Theorem C13_refuted : exists f f' f'' : h5file,
  (exists v', validate reclimit30 (world_of f) (new_validator classes0) fn = (v', Exn RecursionError)) /\
  (exists v', validate setup0 (world_of f') (new_validator classes0) fn = (v', Exn KeyError)) /\
  (exists v', validate setup0 (world_of f'') (new_validator classes0) fn = (v', Exn AttributeError)).
Proof.
  exists cyclic_file, dangling_file, slash_file.
  split; [|split]; apply outcome; vm_compute; reflexivity.
Qed.
Print Assumptions C13_refuted.

(** every cycle and every dangling link makes it fail, before the first finding *)
Theorem C13_cycles_fail : forall u w v fname v' r f, dget fname w = Some (FHdf5 f) -> validate u w v fname = (v', r) ->
  (endless w fname \/ ~ all_open w fname \/ ~ shallow w fname (u_reclimit u)) -> r <> Ok tt /\ st_find (v_st v') = [].
Proof.
  intros u w v fname v' r f Hf Hv H. assert (X : ~ catalogued v' r).
  { intros Hc. destruct (completes_needs _ _ _ _ _ _ _ Hf Hv Hc) as [A [B C]]. tauto. }
  split; [intros E; apply X; left; auto|]. destruct (st_find (v_st v')) eqn:E; auto. exfalso. apply X. right. rewrite E. discriminate.
Qed.
Print Assumptions C13_cycles_fail.

Example C13_case : endless (world_of cyclic_file) fn /\ ~ all_open (world_of dangling_file) fn.
Proof.
  split; [exact cyclic_endless|]. intros H. destruct (H (mkH fn 1 (py "/entry") false) (py "gone")) as [h Hh].
  - exists 1. eapply ch_cons with (n := py "entry"); [|constructor]. split; vm_compute; auto.
  - vm_compute. auto.
  - vm_compute in Hh. discriminate.
Qed.

(** without these the catalogue is completed *)
Theorem C13_partial : forall u w v fname v' r f, dget fname w = Some (FHdf5 f) -> validate u w v fname = (v', r) -> described (u_env u) w fname ->
  ((exists s, build_address_catalog (mk_ctx u w fname) (fresh_state (st_classes (v_st v))) = (s, Ok tt))
   <-> all_open w fname /\ shallow w fname (u_reclimit u)).
Proof.
  intros u w v fname v' r f Hf Hv Hd. split.
  - intros [s Hs]. destruct (build_ok_conditions (mk_ctx u w fname) _ _ fname eq_refl Hs) as [A [B _]]. auto.
  - intros [A B]. destruct (cataloguing_completes _ _ _ _ _ _ _ Hf Hv A B Hd) as [s [Hs _]]. eauto.
Qed.
Print Assumptions C13_partial.

(** ** C14: class paths of groups *)
Theorem C14_groups : forall u w v fname v' r f, dget fname w = Some (FHdf5 f) -> validate u w v fname = (v', r) ->
  forall i it h, listed v' i it -> it_obj it = ONode h -> (isHdf5Group w h = true \/ h = open_root fname) -> kept_name (it_cp it).
Proof. exact final_group_class. Qed.
Print Assumptions C14_groups.

Theorem C14_no_value_error : forall u w v fname v' r f, dget fname w = Some (FHdf5 f) -> validate u w v fname = (v', r) ->
  forall i it h, listed v' i it -> it_obj it = ONode h -> (isHdf5Group w h = true \/ h = open_root fname) ->
  it_cp it <> non_nexus -> group_class it <> Exn ValueError.
Proof. exact group_class_defined. Qed.
Print Assumptions C14_no_value_error.

Example C14_case : exists h, listed (done good_file) 7 (item_of good_file 7) /\ it_obj (item_of good_file 7) = ONode h
  /\ isHdf5Group (world_of good_file) h = true /\ it_cp (item_of good_file 7) = py "/NXentry/NXdata".
Proof. eexists. split; [apply item_listed; vm_compute; reflexivity|]. split; [vm_compute; reflexivity|]. split; vm_compute; reflexivity. Qed.
