(** * Theorems about copies of files (C125) *)

From Coq Require Import List NArith ZArith Bool String Lia.
From Verif Require Import PyBase PyFacts Utf8 H5 Findings Nxdl Core Validate H5Tree Samples Spec_Copy CopyFacts.
Import ListNotations.

(** ** C125: what is found in a file depends on nothing but the content of the file and
    of the files its external links lead to; not on its name, nor on where it lies *)
Theorem C125_validate : forall u w p w' p' v v1 r1 v2 r2, same_content w p w' p' ->
  validate u w v p = (v1, r1) -> validate u w' v p' = (v2, r2) ->
  r1 = r2 /\ same_results v1 v2.
Proof. exact validate_same. Qed.
Print Assumptions C125_validate.

(** a copy next to the original: whatever links there are *)
Theorem C125_copy : forall u w p p' v v1 r1 v2 r2, dget p w = dget p' w ->
  validate u w v p = (v1, r1) -> validate u w v p' = (v2, r2) ->
  r1 = r2 /\ same_results v1 v2.
Proof. intros u w p p' v v1 r1 v2 r2 H. apply validate_same. split; [exact H|reflexivity]. Qed.
Print Assumptions C125_copy.

(** files that the file does not link to may come, go or change *)
Theorem C125_others : forall u w p q x v v1 r1 v2 r2, q <> p -> ~ linked w p q ->
  validate u w v p = (v1, r1) -> validate u (dset q x w) v p = (v2, r2) ->
  r1 = r2 /\ same_results v1 v2.
Proof.
  intros u w p q x v v1 r1 v2 r2 Hq Hl. apply validate_same. split.
  - symmetry. apply dget_dset_other. congruence.
  - intros f L. symmetry. apply dget_dset_other. intros ->. contradiction.
Qed.
Print Assumptions C125_others.

(** is it a NeXus file *)
Theorem C125_nexus : forall E w p w' p', same_content w p w' p' -> isNeXusFile E w p = isNeXusFile E w' p'.
Proof. exact nexus_same. Qed.
Print Assumptions C125_nexus.

(** the tree: the same lines, but for the name of the file at the beginning of the first;
    [d] and [d'] are what h5py gives of the datasets of the two files *)
Theorem C125_tree : forall E up w p w' p' d d' fuel attrs, same_content w p w' p' ->
  (forall f g o n b, (f = p /\ g = p') \/ (f = g /\ linked w p f) -> d (mkH f o n b) = d' (mkH g o n b)) ->
  exists r : res (option (pystr * list pystr)),
    (dor t <- new_tree E w p ; tree_report E up w d fuel t attrs) = rmap (option_map (fun x => (p ++ fst x) :: snd x)) r
    /\ (dor t <- new_tree E w' p' ; tree_report E up w' d' fuel t attrs) = rmap (option_map (fun x => (p' ++ fst x) :: snd x)) r.
Proof. exact tree_same. Qed.
Print Assumptions C125_tree.

(** a file with an external link, its copy on another machine, which has the linked file
    and others *)
Definition linking : h5file :=
  match good_file with
  | r :: rest => mkObj (KGroup [(py "entry", LHard 1); (py "far", LExt (py "lib.h5") (py "/box"))]) (ob_attrs r) :: rest
  | [] => []
  end.
Definition lib_file : h5file := [grp [("box", 1)] []; grp [("x", 2)] [("NX_class", str "NXdata")]; ds (str "y") []].
Definition here : world := [(py "/data/a.nxs", FHdf5 linking); (py "lib.h5", FHdf5 lib_file)].
Definition there : world := [(py "notes.txt", FOther); (py "lib.h5", FHdf5 lib_file); (py "/tmp/copy of a.nxs", FHdf5 linking)].

Example C125_case :
  same_content here (py "/data/a.nxs") there (py "/tmp/copy of a.nxs")
  /\ linked here (py "/data/a.nxs") (py "lib.h5")
  /\ snd (validate setup0 here (new_validator classes0) (py "/data/a.nxs")) = Ok tt
  /\ 20 < List.length (st_find (v_st (fst (validate setup0 here (new_validator classes0) (py "/data/a.nxs")))))
  /\ isNeXusFile env0 here (py "/data/a.nxs") = Ok (Some true).
Proof.
  split.
  - split; [reflexivity|]. intros f L. apply linked_target in L. vm_compute in L. destruct L as [<-|[]]. vm_compute. reflexivity.
  - split; [|split; [vm_compute; reflexivity|split; [vm_compute; Lia.lia|vm_compute; reflexivity]]].
    eapply linked_direct with (objects := linking); [reflexivity|left; reflexivity|reflexivity|right; left; reflexivity].
Qed.

(** and one where another file changes *)
Example C125_others_case : ~ linked here (py "/data/a.nxs") (py "notes.txt").
Proof. intros L. apply linked_target in L. vm_compute in L. destruct L as [L|[]]. discriminate L. Qed.
