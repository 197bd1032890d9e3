(** * Theorems about the NXDL classes a validation uses (C140) *)

From Coq Require Import List NArith ZArith Bool String Lia.
From Verif Require Import PyBase PyFacts Utf8 H5 Findings Nxdl Core Validate Samples Spec_Copy Spec_Classes ClassUse PathFacts Properties_Data.
Import ListNotations.

(** ** C140: a validation uses only the definitions of the classes that the file names by
    an NX_class attribute or a definition field, and those of NXroot and NXentry.  With
    two file sets that agree on these, the outcome, the findings and the items are the
    same, whatever else the file sets hold. *)
Theorem C140_named : forall u w p cl cl', same_definitions (u_env u) w p cl cl' ->
  same_but_classes (fst (validate u w (new_validator cl) p)) (fst (validate u w (new_validator cl') p))
  /\ snd (validate u w (new_validator cl) p) = snd (validate u w (new_validator cl') p).
Proof.
  intros u w p cl cl' H. destruct (validate_use u w (new_validator cl) (new_validator cl') p H) as (A & B & _); [repeat split|]. split; assumption.
Qed.
Print Assumptions C140_named.

(** so it does with validators that have been used before *)
Theorem C140_again : forall u w v v' p,
  same_definitions (u_env u) w p (st_classes (v_st v)) (st_classes (v_st v')) -> same_but_classes v v' ->
  same_but_classes (fst (validate u w v p)) (fst (validate u w v' p)) /\ snd (validate u w v p) = snd (validate u w v' p)
  /\ same_definitions (u_env u) w p (st_classes (v_st (fst (validate u w v p)))) (st_classes (v_st (fst (validate u w v' p)))).
Proof. exact validate_use. Qed.
Print Assumptions C140_again.

(** a class the file does not name can be added, or its definition replaced *)
Theorem C140_added : forall u w p cl n d, ~ names_class (u_env u) w p n -> n <> py "NXroot" -> n <> py "NXentry" ->
  same_but_classes (fst (validate u w (new_validator cl) p)) (fst (validate u w (new_validator (dset n d cl)) p))
  /\ snd (validate u w (new_validator cl) p) = snd (validate u w (new_validator (dset n d cl)) p).
Proof.
  intros u w p cl n d H R En. apply C140_named. intros m U. symmetry. apply dget_dset_other. intros <-. tauto.
Qed.
Print Assumptions C140_added.

(** the names in the file of Properties_Data: NXentry, NXdata and NXtest *)
Lemma monday_names : forall n, names_class env0 (world_of monday) fn n -> n = py "NXentry" \/ n = py "NXdata" \/ n = py "NXtest".
Proof.
  intros n H. destruct H as [f objs o v n P F I A D|g h v v0 d P G V V0 D].
  - unfold world_of, dget in F. cbn [aget] in F. destruct (str_eqb f fn); [|discriminate F]. injection F as <-.
    cbn [monday app_entry In] in I.
    repeat (destruct I as [<-|I]; [cbn in A; repeat (destruct A as [A|A]; [first [discriminate A|injection A as <-; vm_compute in D; injection D as <-; tauto]|]); destruct A|]). destruct I.
  - change (resolve max_nlinks (world_of monday) (mkH (h_file g) (h_oid g) (h_name g) false) [py "definition"] = Ok h) in G.
    destruct g as [hf oid nm b]. cbn [h_file h_oid h_name] in G. destruct (str_eqb hf fn) eqn:Ef.
    + apply str_eqb_eq in Ef. subst hf.
      do 6 (destruct oid as [|oid];
        [first [rewrite resolve_none in G by reflexivity; discriminate G
               |erewrite resolve_hard in G by reflexivity; injection G as <-; vm_compute in V; injection V as <-; vm_compute in V0; injection V0 as <-; vm_compute in D; injection D as <-; right; right; reflexivity]|]).
      rewrite resolve_none in G; [discriminate G|]. unfold links_of, obj_of, get_obj, world_of. cbn. destruct oid; reflexivity.
    + rewrite resolve_none in G; [discriminate G|]. unfold links_of, obj_of, get_obj, world_of, dget. cbn [aget h_file]. rewrite Ef. reflexivity.
Qed.

(** another file set: NXdetector is an application definition without groups, which would
    end the run with an error if it were used, and NXcollection is missing *)
Definition strange : pystr * nxdef := def0 "NXdetector" "applications" [] [] [].
Definition classes1 : classes :=
  dset (py "NXdetector") (snd strange) (List.filter (fun c => negb (str_eqb (fst c) (py "NXcollection"))) classes0).

Example C140_case :
  same_definitions env0 (world_of monday) fn classes0 classes1
  /\ classes0 <> classes1
  /\ 20 < List.length (st_find (v_st (fst (validate setup0 (world_of monday) (new_validator classes1) fn))))
  /\ st_find (v_st (fst (run monday))) = st_find (v_st (fst (validate setup0 (world_of monday) (new_validator classes1) fn)))
  /\ snd (run monday) = Ok tt.
Proof.
  split.
  { intros n [H|[-> | ->]]; [|vm_compute; reflexivity|vm_compute; reflexivity].
    apply monday_names in H. destruct H as [-> | [-> | ->]]; vm_compute; reflexivity. }
  split; [intros X; apply (f_equal (@List.length _)) in X; vm_compute in X; discriminate X|].
  split; [vm_compute; lia|]. split; vm_compute; reflexivity.
Qed.

Example C140_added_case : ~ names_class env0 (world_of monday) fn (py "NXdetector") /\ dget (py "NXdetector") classes0 <> Some (snd strange).
Proof.
  split; [|vm_compute; discriminate]. intros H. apply monday_names in H. destruct H as [H | [H | H]]; vm_compute in H; discriminate H.
Qed.

(** the definitions of classes the file does name count: without NXdata it has an unknown class *)
Example C140_needed :
  st_find (v_st (fst (run monday)))
  <> st_find (v_st (fst (validate setup0 (world_of monday) (new_validator (List.filter (fun c => negb (str_eqb (fst c) (py "NXdata"))) classes0)) fn))).
Proof.
  intros X. apply (f_equal (fun l => existsb (fun g => str_eqb (f_comment g) (py "unknown NeXus base class: NXdata")) l)) in X. vm_compute in X. discriminate.
Qed.
