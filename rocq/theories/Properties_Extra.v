(** * Theorems about the values of attributes that no check looks at (C143) *)

From Coq Require Import List NArith ZArith Bool String Lia.
From Verif Require Import PyBase PyFacts Utf8 H5 Findings Nxdl Core Validate Samples Spec_Copy Spec_Extra ExtraFacts.
Import ListNotations.

(** ** C143: the attributes a lab adds for itself do not change the verdict.  Two files
    that differ only in the values of extra attributes, that is, of attributes other than
    NX_class, target, signal, axes and default, and, on groups, other than those the NXDL
    definitions declare, give the same findings in the same order, the same outcome and
    the same catalogue.  Both values only have to be readable. *)
Theorem C143_extra : forall u w w' v fname v1 r1 v2 r2,
  same_but_extra (u_env u) (st_classes (v_st v)) w w' -> root_group w fname ->
  validate u w v fname = (v1, r1) -> validate u w' v fname = (v2, r2) ->
  r1 = r2 /\ same_results v1 v2.
Proof. exact validate_extra. Qed.
Print Assumptions C143_extra.

(** is it a NeXus file *)
Theorem C143_nexus : forall E cl w w' fname, same_but_extra E cl w w' -> isNeXusFile E w fname = isNeXusFile E w' fname.
Proof. exact nexus_extra. Qed.
Print Assumptions C143_nexus.

(** a file whose field and groups carry attributes of their own *)
Definition lab_file (units : pyval) (operator note : pyval) (file_name : string) : h5file :=
  [ grp [("entry", 1)] [("default", str "entry"); ("file_name", str file_name); ("operator", operator)];
    grp [("title", 2); ("Data", 3)] [("NX_class", str "NXentry"); ("default", str "Data"); ("note", note)];
    ds (str "hello") [("note", note)];
    grp [("counts", 4)] [("NX_class", str "NXdata"); ("signal", str "counts")];
    ds (VArrNum [py "1"; py "2"]) [("units", units); ("file_name", operator)] ]%string.
Definition lab1 : h5file := lab_file (str "counts") (str "first") (VInt 3) "a.nxs".
Definition lab2 : h5file := lab_file (VBytes [109%N; 109%N]) (VArrO [py "x"; py "y"]) (str "see log book") "a.nxs".
Definition lab3 : h5file := lab_file (str "counts") (str "first") (VInt 3) "b.nxs".
Definition lab4 : h5file := lab_file (str "counts") (VBytes [255%N]) (VInt 3) "a.nxs".

Lemma not_read : forall n, ~ In ch_at n -> ~ In n (map py ["NX_class"; "target"; "signal"; "axes"; "default"]%string) -> ~ read_anyway n.
Proof.
  intros n H1 H2 R. destruct R; try (apply H2; cbn; tauto); apply H1; apply in_or_app; right; left; reflexivity.
Qed.
Lemma not_declared : forall n, ~ In n (map py ["default"; "file_name"; "signal"; "axes"]%string) -> ~ declared classes0 n.
Proof.
  intros n H (c & d & spec & I & J). apply H. cbn in I.
  repeat (destruct I as [I|I]; [injection I as <- <-; cbn in J; repeat (destruct J as [J|J]; [injection J as <- _; cbn; tauto|]); destruct J|]). destruct I.
Qed.
Ltac not_in := intros X; vm_compute in X; intuition discriminate.

Example C143_case :
  same_but_extra (u_env setup0) classes0 (world_of lab1) (world_of lab2) /\ root_group (world_of lab1) fn
  /\ lab1 <> lab2
  /\ 20 < List.length (st_find (v_st (fst (run lab1)))) /\ snd (run lab1) = Ok tt
  /\ st_find (v_st (fst (run lab1))) = st_find (v_st (fst (run lab2))) /\ snd (run lab2) = Ok tt.
Proof.
  split.
  { intros q. unfold world_of, dget. cbn [aget]. destruct (str_eqb q fn); constructor.
    repeat (first [apply Forall2_cons | apply Forall2_nil | apply object_extra | apply attribute_same]);
      (apply attribute_extra; [split; [apply not_read; not_in|first [exact I | apply not_declared; not_in]]|eexists; vm_compute; reflexivity|eexists; vm_compute; reflexivity]). }
  split.
  { intros f H. unfold world_of, dget in H. cbn [aget] in H. rewrite str_eqb_refl in H. injection H as <-. repeat eexists. }
  split; [discriminate|]. split; [vm_compute; lia|]. split; [vm_compute; reflexivity|]. split; vm_compute; reflexivity.
Qed.

(** what a definition declares for a group does matter: NXroot declares file_name, so its
    value is part of a finding *)
Example C143_declared : st_find (v_st (fst (run lab1))) <> st_find (v_st (fst (run lab3))).
Proof. intros X. apply (f_equal (fun l => existsb (fun g => str_eqb (f_comment g) (py "TODO: need to validate: @file_name = b.nxs")) l)) in X. vm_compute in X. discriminate. Qed.

(** and a value that cannot be read ends the validation *)
Example C143_unreadable : snd (run lab4) = Exn UnicodeDecodeError.
Proof. vm_compute. reflexivity. Qed.
