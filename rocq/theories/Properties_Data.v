(** * Theorems about the data in the fields of a file (C137) *)

From Coq Require Import List NArith ZArith Bool String Lia.
From Verif Require Import PyBase PyFacts Utf8 H5 Findings Nxdl Core Validate Samples Spec_AppDef Spec_Copy Spec_Data CopyFacts DataFacts PathFacts.
Import ListNotations.

(** ** C137: validation judges the structure of a file, not the data in its fields.  Two
    files that differ in data only give the very same validator, findings, items and
    outcome; only fields named "definition" and fields for which a definition lists the
    allowed values have to keep theirs. *)
Theorem C137_data : forall u w w' v fname, same_but_data w w' ->
  (forall n, read_by (st_classes (v_st v)) n -> kept w w' n) ->
  validate u w v fname = validate u w' v fname.
Proof. exact validate_data. Qed.
Print Assumptions C137_data.

(** without an application definition, no data matter at all: if a validation, however it
    ended, has listed no definition of an entry or subentry, then all data may differ *)
Theorem C137_no_definition : forall u w w' v fname v1 r1, same_but_data w w' ->
  validate u w v fname = (v1, r1) -> definition_items v1 = [] ->
  validate u w' v fname = (v1, r1).
Proof. exact validate_no_definition. Qed.
Print Assumptions C137_no_definition.

(** is it a NeXus file *)
Theorem C137_nexus : forall E w w' fname, same_but_data w w' -> isNeXusFile E w fname = isNeXusFile E w' fname.
Proof.
  intros E w w' p H. unfold isNeXusFile. pose proof (H p) as D. destruct D as [| |f f' Hf]; try reflexivity.
  rewrite (links_same w w' _ (same_but_files _ _ H) _ _ (hrel_refl (open_root p))).
  rewrite (any_entry_same w w' _ (same_but_files _ _ H) (no_link w) E _ _ _ (hrel_refl (open_root p))). reflexivity.
Qed.
Print Assumptions C137_nexus.

(** an entry with an application definition; a run with other counts and another title;
    one with another definition *)
Definition app_entry (title definition : string) (counts : list pystr) : h5file :=
  [ grp [("entry", 1)] [("default", str "entry")];
    grp [("title", 2); ("definition", 3); ("Data", 4)] [("NX_class", str "NXentry"); ("default", str "Data")];
    ds (str title) [];
    ds (str definition) [];
    grp [("counts", 5)] [("NX_class", str "NXdata"); ("signal", str "counts")];
    ds (VArrNum counts) [("units", str "counts")] ]%string.
Definition monday : h5file := app_entry "first" "NXtest" [py "1"; py "2"].
Definition tuesday : h5file := app_entry "second" "NXtest" [py "7"].
Definition friday : h5file := app_entry "second" "NXother" [py "7"].

Lemma app_entry_data : forall t d c t' d' c', same_but_data (world_of (app_entry t d c)) (world_of (app_entry t' d' c')).
Proof.
  intros t d c t' d' c' p. unfold world_of, dget. cbn [aget]. destruct (str_eqb p fn); constructor.
  repeat constructor; intros X; exact X.
Qed.


Lemma monday_kept : kept (world_of monday) (world_of tuesday) (py "definition").
Proof.
  intros h o G. change (resolve max_nlinks (world_of monday) (mkH (h_file h) (h_oid h) (h_name h) false) [py "definition"] = Ok o) in G.
  destruct h as [hf oid nm b]. cbn [h_file h_oid h_name] in G. destruct (str_eqb hf fn) eqn:Ef.
  - apply str_eqb_eq in Ef. subst hf. do 6 (destruct oid as [|oid];
      [first [rewrite resolve_none in G by reflexivity; discriminate G|erewrite resolve_hard in G by reflexivity; injection G as <-; reflexivity]|]).
    rewrite resolve_none in G; [discriminate G|]. unfold links_of, obj_of, get_obj, world_of. cbn. destruct oid; reflexivity.
  - rewrite resolve_none in G; [discriminate G|]. unfold links_of, obj_of, get_obj, world_of, dget. cbn [aget h_file]. rewrite Ef. reflexivity.
Qed.

Example C137_case :
  same_but_data (world_of monday) (world_of tuesday)
  /\ (forall n, read_by classes0 n -> kept (world_of monday) (world_of tuesday) n)
  /\ monday <> tuesday
  /\ definition_items (fst (run monday)) <> []
  /\ 20 < List.length (st_find (v_st (fst (run monday))))
  /\ run monday = run tuesday /\ snd (run monday) = Ok tt.
Proof.
  split; [apply app_entry_data|]. split.
  { intros n R. assert (n = py "definition") as En; [|rewrite En; exact monday_kept].
    destruct R as [|c d k g n spec D G F N1]; [reflexivity|]. apply dget_In in D. cbn in D.
    repeat (destruct D as [D|D]; [injection D as <- <-; cbn in G; repeat (destruct G as [G|G]; [injection G as <- <-; cbn in F; repeat (destruct F as [F|F]; [injection F as <- <-; cbn in N1; first [reflexivity|exfalso; apply N1; reflexivity]|]); destruct F|]); destruct G|]). destruct D. }
  split; [discriminate|]. split; [vm_compute; discriminate|]. split; [vm_compute; lia|]. split; vm_compute; reflexivity.
Qed.

(** a definition must keep its value: it is what the file is compared with *)
Example C137_needed : same_but_data (world_of tuesday) (world_of friday) /\ st_find (v_st (fst (run tuesday))) <> st_find (v_st (fst (run friday))).
Proof. split; [apply app_entry_data|]. intros X. apply (f_equal (fun l => existsb (fun g => str_eqb (f_comment g) (py "NXother: unrecognized NXDL specification")) l)) in X. vm_compute in X. discriminate. Qed.

(** a file without definitions, and another one with data of the same kinds *)
Definition nodef_file (x : pyval) : h5file :=
  [ grp [("entry", 1)] []; grp [("x", 2)] [("NX_class", str "NXentry")]; ds x [("units", str "mm")] ]%string.
Example C137_no_definition_case :
  same_but_data (world_of (nodef_file (VInt 3))) (world_of (nodef_file (str "three")))
  /\ definition_items (fst (run (nodef_file (VInt 3)))) = [] /\ snd (run (nodef_file (VInt 3))) = Ok tt
  /\ isNeXusFile env0 (world_of (nodef_file (VInt 3))) fn = Ok (Some true).
Proof.
  split; [|repeat split; vm_compute; reflexivity]. intros p. unfold world_of, dget. cbn [aget]. destruct (str_eqb p fn); constructor. repeat constructor; intros X; exact X.
Qed.
