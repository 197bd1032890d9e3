(** * Theorems about the exceptions of a validation (C141) *)

From Coq Require Import List NArith ZArith Bool String Lia.
From Verif Require Import PyBase Regex Utf8 H5 Findings Nxdl Core Catalog Validate Samples Spec_Errors Raises.
Import ListNotations.
Open Scope string_scope.
Open Scope list_scope.

(** ** C141: the exceptions validate() can end with.  With patterns that compile, it
    raises FileNotFound when there is no such file, HDF5_Open_Error when the file is
    there but is not HDF5, and in an HDF5 file only the exceptions listed in Spec_Errors:
    no error of a pattern, of the operating system, or exit of the program. *)
Theorem C141_errors : forall u w v p e, patterns_compile (u_patterns u) -> snd (validate u w v p) = Exn e ->
  (e = FileNotFound /\ dget p w = None)
  \/ (e = HDF5_Open_Error /\ dget p w = Some FOther)
  \/ (failure e /\ exists objects, dget p w = Some (FHdf5 objects)).
Proof. exact validate_raises. Qed.
Print Assumptions C141_errors.

(** a number as target attribute of the root group has no length: TypeError, before any finding *)
Theorem C141_target : forall u w v p objs n,
  dget p w = Some (FHdf5 objs) -> is_group_obj w (open_root p) = true -> dget (py "target") (attrs_of w (open_root p)) = Some (VInt n) -> (0 < u_reclimit u)%nat ->
  snd (validate u w v p) = Exn TypeError /\ st_find (v_st (fst (validate u w v p))) = [].
Proof.
  intros u w v p objs n D G T L. unfold validate. rewrite D.
  assert (X : validate_open (mk_ctx u w p) (fresh_state (st_classes (v_st v))) = (fresh_state (st_classes (v_st v)), Exn TypeError)).
  { unfold validate_open, build_address_catalog, bind. destruct (u_reclimit u) as [|f] eqn:R; [lia|]. unfold mk_ctx. rewrite R.
    cbn [c_reclimit group_address_catalog c_root]. unfold bind, get_subject. cbn [c_env c_world]. unfold bind, ret, lift, node_item. cbn [h_name open_root].
    unfold identify_object_type, isNeXusLink. rewrite T. unfold is_group_obj in G. destruct (obj_of w (open_root p)) as [o|]; [|discriminate G].
    destruct (ob_kind o); [reflexivity|discriminate G|discriminate G]. }
  rewrite X. split; reflexivity.
Qed.
Print Assumptions C141_target.

(** the patterns of NXDL compile, and each of the exceptions happens *)
Definition entry_with (attrs : list (string * pyval)) (more : dict link) (rest : list h5obj) : h5file :=
  [ grp [("entry", 1%nat)] []; mkObj (KGroup more) (ats (("NX_class", str "NXentry") :: attrs)) ] ++ rest.
Fixpoint chain (n : nat) (k : nat) : list h5obj :=
  match n with O => [grp [] []] | S m => grp [("g", S k)] [] :: chain m (S k) end.
Definition shallow : setup := mkSetup env0 pats0 20 (Some 0%Z).

Example C141_case :
  patterns_compile (u_patterns setup0)
  /\ snd (run (entry_with [] [(py "lost", LSoft (py "/nowhere"))] [])) = Exn KeyError
  /\ snd (run (entry_with [("target", VInt 7)] [] [])) = Exn TypeError
  /\ snd (run (entry_with [("title", VBytes [255%N])] [] [])) = Exn UnicodeDecodeError
  /\ snd (run (entry_with [] [(py "a", LSoft (py "/entry/b")); (py "b", LSoft (py "/entry/a"))] [])) = Exn RuntimeError
  /\ snd (validate shallow (world_of (chain 30 0)) (new_validator classes0) fn) = Exn RecursionError
  /\ snd (validate setup0 (world_of good_file) (new_validator classes0) (py "other.nxs")) = Exn FileNotFound
  /\ snd (validate setup0 [(fn, FOther)] (new_validator classes0) fn) = Exn HDF5_Open_Error
  /\ snd (run good_file) = Ok tt.
Proof.
  split.
  { split.
    - intros name l p I J. cbn [u_patterns setup0 pats0 In] in I.
      repeat (destruct I as [I|I]; [injection I as <- <-; cbn [In] in J; repeat (destruct J as [<-|J]; [eexists; vm_compute; reflexivity|]); destruct J|]). destruct I.
    - intros l I ->. cbn [u_patterns setup0 pats0 In] in I. decompose [or] I; first [discriminate|contradiction]. }
  repeat split; vm_compute; reflexivity.
Qed.

(** a pattern that is no regular expression is the other way to fail (the model says
    Unsupported for Python's re.error, and for what it does not parse) *)
Example C141_needed :
  snd (validate (mkSetup env0 [(py "validNXClassName", [py "[z-a]"])] 900 (Some 0%Z)) (world_of (entry_with [] [(py "Bad", LHard 2)] [ds (VInt 1) []])) (new_validator classes0) fn) = Exn Unsupported.
Proof. vm_compute. reflexivity. Qed.
