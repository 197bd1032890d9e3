(** * Theorems about the attribute checks (C32-C35, C95-C97) *)

From Coq Require Import List NArith ZArith Bool String Lia.
From Verif Require Import PyBase H5 Findings Nxdl Core Catalog AttributeCheck NumberFacts Validate Samples Spec_Names Spec_Run Spec_Catalog Spec_Attributes
  NameFacts AttrRun AttrTotal AttrMore NameSamples CatalogSamples FindingSamples AttrSamples.
Import ListNotations.
Local Open Scope nat_scope.

Example attr_file_conditions : plain_file attr_file /\ is_group attr_file 0
  /\ validate setup0 (world_of attr_file) (new_validator classes0) fn = (done attr_file, Ok tt).
Proof.
  split; [apply plainb_ok; vm_compute; reflexivity|]. split; [eexists; eexists; split; reflexivity|vm_compute; reflexivity].
Qed.

(** ** C32: @target *)
Theorem C32_target : forall u w v fname v' f, validate u w v fname = (v', Ok tt) ->
  dget fname w = Some (FHdf5 f) -> plain_file f -> is_group f 0 ->
  forall i it val t, listed v' i it -> it_obj it = OVal val -> it_addr it <> None -> it_name it = Some (py "target") ->
  decode_byte_string (u_env u) val = Ok (VStr t) ->
  let good := good_target (e_uw (u_env u)) (ctx_patterns u) (leads_somewhere f 0) t in
  exists st cm, shows v' i it (mkF (it_addr it) (py "attribute value") st cm) /\ ((st = OK /\ good) \/ (st = ERROR /\ ~ good))
    /\ target_comment (e_uw (u_env u)) (ctx_patterns u) (leads_somewhere f 0) t cm.
Proof. exact plain_target. Qed.
Print Assumptions C32_target.

(** any file: existence is h5py's [path in file] *)
Theorem C32_any_file : forall u w v fname v', validate u w v fname = (v', Ok tt) ->
  forall i it val t, listed v' i it -> it_obj it = OVal val -> it_addr it <> None -> it_name it = Some (py "target") ->
  decode_byte_string (u_env u) val = Ok (VStr t) ->
  let good := good_target (e_uw (u_env u)) (ctx_patterns u) (fun a => py_in w (open_root fname) (VStr a) = Ok true) t in
  exists st cm, shows v' i it (mkF (it_addr it) (py "attribute value") st cm) /\ ((st = OK /\ good) \/ (st = ERROR /\ ~ good))
    /\ target_comment (e_uw (u_env u)) (ctx_patterns u) (fun a => py_in w (open_root fname) (VStr a) = Ok true) t cm.
Proof. exact target_shows. Qed.
Print Assumptions C32_any_file.

(** one good target and a bad one *)
Example C32_case :
  (listed (done attr_file) 8 (item_of attr_file 8) /\ it_name (item_of attr_file 8) = Some (py "target") /\ it_obj (item_of attr_file 8) = OVal (str "/entry/data/y")
   /\ own_address (done attr_file) 8 /\ option_map f_status (dget (py "attribute value") (it_vals (item_of attr_file 8))) = Some OK)
  /\ (listed (done attr_file) 11 (item_of attr_file 11) /\ it_name (item_of attr_file 11) = Some (py "target")
   /\ it_obj (item_of attr_file 11) = OVal (str "/entry/nowhere/x")
   /\ option_map f_status (dget (py "attribute value") (it_vals (item_of attr_file 11))) = Some ERROR).
Proof.
  split.
  - split; [apply item_listed; vm_compute; reflexivity|]. split; [vm_compute; reflexivity|]. split; [vm_compute; reflexivity|].
    split; [apply own_ok; vm_compute; reflexivity|vm_compute; reflexivity].
  - split; [apply item_listed; vm_compute; reflexivity|]. split; [vm_compute; reflexivity|]. split; vm_compute; reflexivity.
Qed.

(** ** C33: @signal of a group *)
Theorem C33_signal : forall u w v fname v' f, validate u w v fname = (v', Ok tt) ->
  dget fname w = Some (FHdf5 f) -> plain_file f ->
  forall i it val s p pit h, listed v' i it -> it_obj it = OVal val -> it_addr it <> None -> it_name it = Some (py "signal") ->
  it_parent it = Some p -> listed v' p pit -> it_obj pit = ONode h -> isHdf5Group w h = true -> decode_byte_string (u_env u) val = Ok (VStr s) ->
  exists st1 cm1 st2 cm2, shows v' i it (mkF (it_addr it) (py "valid name @signal=" ++ s) st1 cm1) /\ name_status (e_uw (u_env u)) (ctx_patterns u) s st1
    /\ name_comment (e_uw (u_env u)) (ctx_patterns u) (py "not a valid NeXus name") s cm1
    /\ shows v' i it (mkF (it_addr it) (py "attribute value") st2 cm2)
    /\ ((st2 = OK /\ leads_somewhere f (h_oid h) s /\ cm2 = py "found: @signal=" ++ s) \/ (st2 = ERROR /\ ~ leads_somewhere f (h_oid h) s /\ cm2 = py "not found: @signal=" ++ s))
    /\ (own_address v' i -> attribute_findings v' (it_addr it) = [mkF (it_addr it) (py "valid name @signal=" ++ s) st1 cm1; mkF (it_addr it) (py "attribute value") st2 cm2]).
Proof. exact plain_signal. Qed.
Print Assumptions C33_signal.

(** the value is a name, not a path: a child of that name; in any file *)
Theorem C33_child : forall u w v fname v', validate u w v fname = (v', Ok tt) ->
  forall i it val s p pit h, listed v' i it -> it_obj it = OVal val -> it_addr it <> None -> it_name it = Some (py "signal") ->
  it_parent it = Some p -> listed v' p pit -> it_obj pit = ONode h -> isHdf5Group w h = true -> decode_byte_string (u_env u) val = Ok (VStr s) -> link_name s ->
  exists st cm, shows v' i it (mkF (it_addr it) (py "attribute value") st cm)
    /\ ((st = OK /\ In s (map fst (links_of w h)) /\ cm = py "found: @signal=" ++ s) \/ (st = ERROR /\ ~ In s (map fst (links_of w h)) /\ cm = py "not found: @signal=" ++ s)).
Proof. exact signal_child. Qed.
Print Assumptions C33_child.

(** /entry/data@signal, OK, and /entry/other@signal, neither a good name nor there *)
Example C33_case : listed (done attr_file) 6 (item_of attr_file 6) /\ it_parent (item_of attr_file 6) = Some 3 /\ own_address (done attr_file) 6
  /\ listed (done attr_file) 3 (item_of attr_file 3) /\ it_name (item_of attr_file 6) = Some (py "signal")
  /\ map f_status (attribute_findings (done attr_file) (it_addr (item_of attr_file 6))) = [OK; OK]
  /\ listed (done attr_file) 14 (item_of attr_file 14) /\ own_address (done attr_file) 14
  /\ map f_status (attribute_findings (done attr_file) (it_addr (item_of attr_file 14))) = [ERROR; ERROR].
Proof.
  split; [apply item_listed; vm_compute; reflexivity|]. split; [vm_compute; reflexivity|]. split; [apply own_ok; vm_compute; reflexivity|].
  split; [apply item_listed; vm_compute; reflexivity|]. split; [vm_compute; reflexivity|]. split; [vm_compute; reflexivity|].
  split; [apply item_listed; vm_compute; reflexivity|]. split; [apply own_ok; vm_compute; reflexivity|vm_compute; reflexivity].
Qed.

(** ** C34: @axes of a group *)
Theorem C34_axes : forall u w v fname v' f, validate u w v fname = (v', Ok tt) ->
  dget fname w = Some (FHdf5 f) -> plain_file f ->
  forall i it val l p pit h, listed v' i it -> it_obj it = OVal val -> it_addr it <> None -> it_name it = Some (py "axes") ->
  it_parent it = Some p -> listed v' p pit -> it_obj pit = ONode h -> isHdf5Group w h = true ->
  (decode_byte_string (u_env u) val = Ok (VList l) \/ exists n, decode_byte_string (u_env u) val = Ok (VStr n) /\ l = [n]) ->
  exists fss, Forall2 (axis_findings (e_uw (u_env u)) (ctx_patterns u) (it_addr it) (leads_somewhere f (h_oid h))) l fss
    /\ (forall g, In g (List.concat fss) -> In g (st_find (v_st v')))
    /\ shows v' i it (mkF (it_addr it) (py "attribute value") TODO (py "implement"))
    /\ (own_address v' i -> attribute_findings v' (it_addr it) = List.concat fss ++ [mkF (it_addr it) (py "attribute value") TODO (py "implement")]
          /\ List.length (attribute_findings v' (it_addr it)) = 2 * List.length l + 1).
Proof. exact plain_axes. Qed.
Print Assumptions C34_axes.

Example C34_case : listed (done attr_file) 5 (item_of attr_file 5) /\ own_address (done attr_file) 5 /\ it_name (item_of attr_file 5) = Some (py "axes")
  /\ decode_byte_string env0 (VArrO [py "x"; py "Not here"]) = Ok (VList [py "x"; py "Not here"])
  /\ map f_status (attribute_findings (done attr_file) (it_addr (item_of attr_file 5))) = [OK; OK; ERROR; ERROR; TODO].
Proof.
  split; [apply item_listed; vm_compute; reflexivity|]. split; [apply own_ok; vm_compute; reflexivity|]. split; [vm_compute; reflexivity|]. split; vm_compute; reflexivity.
Qed.

(** ** C35: attribute checks can fail *)
(** numbers as @signal of a group, @axes of a field, a digit that is no decimal, an empty axis name, bytes that are not UTF-8 *)
Theorem C35_refuted :
  snd (run (with_attr "signal" (VInt 1))) = Exn TypeError
  /\ snd (run (with_field_attr "axes" (str "x"))) = Exn AttributeError
  /\ snd (run (with_field_attr "signal" (VStr [178%N]))) = Exn ValueError
  /\ snd (run (with_attr "axes" (str ""))) = Exn ValueError
  /\ snd (run (with_field_attr "signal" (VBytes [200%N]))) = Exn UnicodeDecodeError.
Proof. repeat split; vm_compute; reflexivity. Qed.
Print Assumptions C35_refuted.

(** exactly the attributes called [checkable] are checked without an exception, whatever the validator's state *)
Theorem C35_partial : forall c, Forall compiles (item_patterns c) -> is_group_obj (c_world c) (c_root c) = true ->
  forall i s it pit p h val a name, nth_error (st_items s) i = Some it -> it_parent it = Some p -> nth_error (st_items s) p = Some pit ->
  it_obj pit = ONode h -> it_obj it = OVal val -> it_addr it = Some a -> In 64%N a -> it_name it = Some name ->
  ((exists s', attribute_verify c i s = (s', Ok tt)) <-> checkable (c_env c) (c_world c) h val name).
Proof. exact attribute_check_total. Qed.
Print Assumptions C35_partial.

(** so a file with one that is not is never validated to the end *)
Theorem C35_completed_partial : forall u w v fname v', validate u w v fname = (v', Ok tt) ->
  forall i it val k p pit h, listed v' i it -> it_obj it = OVal val -> it_addr it <> None -> it_name it = Some k ->
  it_parent it = Some p -> listed v' p pit -> it_obj pit = ONode h -> checkable (u_env u) w h val k.
Proof. exact completed_checkable. Qed.
Print Assumptions C35_completed_partial.

Example C35_case : Forall compiles (item_patterns (ctx_of attr_file)) /\ is_group_obj (world_of attr_file) (open_root fn) = true
  /\ (exists it, nth_error (st_items (final attr_file)) 6 = Some it /\ it_name it = Some (py "signal") /\ it_parent it = Some 3 /\ it_addr it = Some (py "/entry/data@signal"))
  /\ checkable env0 (world_of attr_file) (mkH fn 2 (py "/entry/data") false) (str "y") (py "signal").
Proof.
  split; [vm_compute item_patterns; constructor; [apply compiles_ok; eexists; vm_compute; reflexivity|constructor]|]. split; [vm_compute; reflexivity|].
  split; [eexists; split; [vm_compute; reflexivity|]; vm_compute; auto|]. eapply ck_signal_group; vm_compute; reflexivity.
Qed.

(** ** C95: @NX_class names a class for groups *)
Theorem C95_class_value : forall u w v fname v', validate u w v fname = (v', Ok tt) ->
  forall i it val, listed v' i it -> it_obj it = OVal val -> it_addr it <> None -> it_name it = Some (py "NX_class") ->
  exists s st cm, decode_byte_string (u_env u) val = Ok (VStr s) /\ class_verdict (st_classes (v_st v)) s st cm
    /\ shows v' i it (mkF (it_addr it) (py "attribute value") st cm)
    /\ (own_address v' i -> attribute_findings v' (it_addr it) = [mkF (it_addr it) (py "attribute value") st cm]).
Proof. exact class_value. Qed.
Print Assumptions C95_class_value.

(** a base class, an application definition, contributed definitions of both kinds and an unknown class *)
Definition class_file : h5file :=
  [ grp [("entry", 1); ("app", 2); ("like", 3); ("more", 4); ("odd", 5)] [];
    grp [] [("NX_class", str "NXentry")]; grp [] [("NX_class", str "NXtest")]; grp [] [("NX_class", str "NXlike")];
    grp [] [("NX_class", str "NXmore")]; grp [] [("NX_class", str "NXodd")] ]%string.
Definition more_classes : classes := classes0 ++
  [def0 "NXlike" "contributed_definitions" [] [field0 "a" []] [(py "entry", NXG (py "entry") [] [field0 "definition" []] [] [] None)];
   def0 "NXmore" "contributed_definitions" [] [field0 "a" []] [group0 "entry"]]%string.
Example C95_case : exists v', validate setup0 (world_of class_file) (new_validator more_classes) fn = (v', Ok tt)
  /\ map (fun n => map f_status (attribute_findings v' (Some (py n)))) ["/entry@NX_class"; "/app@NX_class"; "/like@NX_class"; "/more@NX_class"; "/odd@NX_class"]%string
     = [[OK]; [ERROR]; [ERROR]; [OK]; [ERROR]].
Proof. eexists. split; [vm_compute; reflexivity|vm_compute; reflexivity]. Qed.

(** ** C96: @signal of a field *)
Theorem C96_signal_of_field : forall u w v fname v', validate u w v fname = (v', Ok tt) ->
  forall i it val p pit h, listed v' i it -> it_obj it = OVal val -> it_addr it <> None -> it_name it = Some (py "signal") ->
  it_parent it = Some p -> listed v' p pit -> it_obj pit = ONode h -> isHdf5Dataset w h = true ->
  exists o st cm, decode_byte_string (u_env u) val = Ok o
    /\ ((st = OK /\ is_one (u_env u) o /\ cm = py "found plottable data marker") \/ (st = NOTE /\ ~ is_one (u_env u) o /\ cm = py "@signal=" ++ py_str o))
    /\ shows v' i it (mkF (it_addr it) (py "attribute value") st cm)
    /\ (own_address v' i -> attribute_findings v' (it_addr it) = [mkF (it_addr it) (py "attribute value") st cm]).
Proof. exact signal_field. Qed.
Print Assumptions C96_signal_of_field.

(** 1 as a number and as text; 2; text *)
Example C96_case : map (fun x => map f_status (attribute_findings (done (with_field_attr "signal" x)) (Some (py "/entry/x@signal")))) [VInt 1; str "1"; VInt 2; str "one"]
    = [[OK]; [OK]; [NOTE]; [NOTE]]
  /\ (forall x, In x [VInt 1; str "1"; VInt 2; str "one"] -> snd (validate setup0 (world_of (with_field_attr "signal" x)) (new_validator classes0) fn) = Ok tt)
  /\ is_one env0 (VInt 1) /\ is_one env0 (str "1").
Proof.
  split; [vm_compute; reflexivity|]. split; [|split; (split; [apply isdigit_text|apply int_value]; vm_compute; reflexivity)].
  intros x [<-|[<-|[<-|[<-|[]]]]]; vm_compute; reflexivity.
Qed.

(** ** C97: the value of any other attribute is not judged *)
Theorem C97_todo : forall u w v fname v', validate u w v fname = (v', Ok tt) ->
  forall i it val name p pit h, listed v' i it -> it_obj it = OVal val -> it_addr it <> None -> it_name it = Some name ->
  it_parent it = Some p -> listed v' p pit -> it_obj pit = ONode h -> unchecked w h name ->
  shows v' i it (mkF (it_addr it) (py "attribute value") TODO (py "implement"))
  /\ (own_address v' i -> attribute_findings v' (it_addr it) = [mkF (it_addr it) (py "attribute value") TODO (py "implement")]).
Proof. exact unchecked_todo. Qed.
Print Assumptions C97_todo.

Example C97_case : map f_status (attribute_findings (done (with_field_attr "units" (str "mm"))) (Some (py "/entry/x@units"))) = [TODO]
  /\ snd (validate setup0 (world_of (with_field_attr "units" (str "mm"))) (new_validator classes0) fn) = Ok tt
  /\ unchecked (world_of (with_field_attr "units" (str "mm"))) (mkH fn 2 (py "/entry/x") false) (py "units").
Proof. split; [vm_compute; reflexivity|]. split; [vm_compute; reflexivity|]. left. intros H. repeat (destruct H as [H|H]; [discriminate|]). exact H. Qed.
