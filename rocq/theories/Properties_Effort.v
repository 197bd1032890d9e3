(** * Theorems about how much there is to do in a validation (C126) *)

From Coq Require Import List NArith ZArith Bool String Lia.
From Verif Require Import PyBase H5 Findings Nxdl Core Validate Samples Spec_Run Spec_Catalog NameSamples CatalogSamples Spec_Effort EffortFacts.
Import ListNotations.
Local Open Scope nat_scope.

(** false: small files can need any amount of time and memory.  In a file of k + 1
    groups, each with two links to the next one, at least 2 ^ k items get listed,
    within any recursion limit above k. *)
Theorem C126_refuted : forall u v fname k, k < u_reclimit u -> exists f,
  List.length f = S k /\ (forall o, List.length (members f o) <= 2 /\ attributes f o = []) /\ file_size f = S k /\
  forall v' r, validate u [(fname, FHdf5 f)] v fname = (v', r) -> 2 ^ k <= items_listed v'.
Proof.
  intros u v fname k Hk. exists (ladder k). split; [apply ladder_len|]. split; [|split].
  - intros o. rewrite ladder_members, ladder_attributes. split; auto. destruct (o <? k); simpl; lia.
  - unfold file_size. rewrite ladder_len. rewrite (map_ext (weight (ladder k)) (fun _ => 1)) by (intros; unfold weight; rewrite ladder_attributes; reflexivity).
    rewrite <- (seq_length (S k) 0) at 2. induction (seq 0 (S k)); simpl; congruence.
  - intros v' r. apply ladder_effort. auto.
Qed.
Print Assumptions C126_refuted.

(** 16 objects, more than 65000 items: never validated here *)
Example C126_refuted_case : 15 < u_reclimit setup0.
Proof. apply Nat.ltb_lt. vm_compute. reflexivity. Qed.

(** exactly: each object and its attributes once for each way to it *)
Theorem C126_ways : forall u w v fname v' r f, dget fname w = Some (FHdf5 f) -> validate u w v fname = (v', r) -> catalogued v' r ->
  plain_file f -> distinct_names f ->
  exists P, all_ways f P /\ items_listed v' = list_sum (map (fun x => weight f (snd x)) P).
Proof. exact effort. Qed.
Print Assumptions C126_ways.

(** with one way to each object no more than there are objects and attributes *)
Theorem C126_partial : forall u w v fname v' r f, dget fname w = Some (FHdf5 f) -> validate u w v fname = (v', r) -> catalogued v' r ->
  f <> [] -> plain_file f -> distinct_names f -> one_way f -> items_listed v' <= file_size f.
Proof.
  intros u w v fname v' r f Hf Hv Hc Hne Hp Hd H1. destruct (effort _ _ _ _ _ _ _ Hf Hv Hc Hp Hd) as [P [W ->]]. apply ways_bound; auto.
Qed.
Print Assumptions C126_partial.

(** as in a file without second links *)
Theorem C126_tree : forall f, once_linked f -> one_way f.
Proof. exact once_one_way. Qed.
Print Assumptions C126_tree.

Local Open Scope string_scope.
Local Open Scope list_scope.

(** good_file has two links to the title, which is listed twice; without the second one *)
Definition once_file : h5file :=
  [ grp [("entry", 1); ("scratch", 6)] [("default", str "entry"); ("file_name", str "good.nxs")];
    grp [("title", 2); ("Data", 3)] [("NX_class", str "NXentry"); ("default", str "Data")];
    ds (str "hello") [];
    grp [("counts", 4); ("x", 5)] [("NX_class", str "NXdata"); ("signal", str "counts"); ("axes", VArrO [py "x"])];
    ds (VArrNum [py "1"; py "2"]) [("units", str "counts")];
    ds (VArrNum [py "0"; py "1"]) [("2bad", VInt 3)];
    grp [("deep", 7)] [("note", str "not NeXus")];
    ds (VInt 3) [("units", str "mm")] ].

Example C126_case : once_linked once_file /\ plain_file once_file /\ distinct_names once_file
  /\ validate setup0 (world_of once_file) (new_validator classes0) fn = (done once_file, Ok tt)
  /\ items_listed (done once_file) = 19 /\ file_size once_file = 19
  /\ plain_file good_file /\ distinct_names good_file /\ items_listed (done good_file) = 22 /\ file_size good_file = 21.
Proof.
  split; [apply onceb_ok; vm_compute; reflexivity|]. split; [apply plainb_ok; vm_compute; reflexivity|]. split; [apply distinctb_ok; vm_compute; reflexivity|].
  split; [vm_compute; reflexivity|]. split; [vm_compute; reflexivity|]. split; [vm_compute; reflexivity|].
  split; [apply plainb_ok; vm_compute; reflexivity|]. split; [apply distinctb_ok; vm_compute; reflexivity|]. split; vm_compute; reflexivity.
Qed.
