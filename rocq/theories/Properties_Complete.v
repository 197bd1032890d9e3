(** * C129: files that are validated to the end *)

From Coq Require Import List NArith ZArith Bool String Lia.
From Verif Require Import PyBase PyFacts Regex H5 Findings Nxdl Core Catalog AttributeCheck NumberFacts Validate Spec_Run Spec_Catalog Spec_Attributes AttrTotal Spec_AppDef Spec_Complete
  PathFacts CatalogTerm CatalogRun CompleteFacts Samples CatalogSamples.
Import ListNotations.
Open Scope string_scope.
Open Scope list_scope.

(** C129: the validation of a file that is [ready] (an acyclic HDF5 file whose links
    lead somewhere, whose attributes and definition fields are of the kinds the
    checks take, and a file set with sound definitions) returns. *)
Theorem C129_completes : forall u w v fname f, ready u w fname f (st_classes (v_st v)) -> snd (validate u w v fname) = Ok tt.
Proof.
  intros u w v fname f R. unfold validate. rewrite (rd_file _ _ _ _ _ R). destruct (ready_builds _ _ _ _ _ R) as [s1 B].
  destruct (open_goes _ _ _ _ _ R _ B) as [s [a G]]. rewrite G. destruct a. reflexivity.
Qed.
Print Assumptions C129_completes.

(** ** A case: an entry with a default plot, a definition, notes and non-NeXus content *)
Definition ready_file : h5file :=
  [ (* 0 *) grp [("entry", 1); ("scratch", 7)] [("default", str "entry"); ("file_name", str "good.nxs")];
    (* 1 *) grp [("title", 2); ("definition", 9); ("Data", 3); ("notes", 6)] [("NX_class", str "NXentry"); ("default", str "Data")];
    (* 2 *) ds (str "hello") [];
    (* 3 *) grp [("counts", 4); ("x", 5)] [("NX_class", str "NXdata"); ("signal", str "counts"); ("axes", VArrO [py "x"])];
    (* 4 *) ds (VArrNum [py "1"; py "2"]) [("units", str "counts")];
    (* 5 *) ds (VArrNum [py "0"; py "1"]) [("2bad", VInt 3)];
    (* 6 *) grp [("any old thing", 2)] [("NX_class", str "NXcollection")];
    (* 7 *) grp [("deep", 8)] [("note", str "not NeXus")];
    (* 8 *) ds (VInt 3) [("units", str "mm"); ("signal", VInt 1)];
    (* 9 *) ds (str "NXtest") [] ].

Definition handle_at (o : nat) (name : string) (root : bool) : handle := mkH fn o (py name) root.
Definition ready_handles : list handle :=
  [open_root fn; handle_at 1 "/entry" false; handle_at 2 "/entry/title" false; handle_at 9 "/entry/definition" false; handle_at 3 "/entry/Data" false;
   handle_at 4 "/entry/Data/counts" false; handle_at 5 "/entry/Data/x" false; handle_at 6 "/entry/notes" false; handle_at 2 "/entry/notes/any old thing" false;
   handle_at 7 "/scratch" false; handle_at 8 "/scratch/deep" false].

Lemma ready_reach : forall h, reachable (world_of ready_file) fn h -> In h ready_handles.
Proof.
  intros h [k K]. assert (G : forall g, In g ready_handles -> forall j t, chain (world_of ready_file) j g t -> In t ready_handles).
  { intros g Hg j t C. induction C as [x|j g n x t [M1 M2] C IH]; auto. apply IH. clear IH C.
    unfold ready_handles in Hg. cbn [In] in Hg. repeat (destruct Hg as [Hg|Hg]; [subst g|]); try contradiction; vm_compute in M1;
      repeat (destruct M1 as [M1|M1]; [subst n; vm_compute in M2; injection M2 as <-; vm_compute; tauto|]); contradiction. }
  eapply G; [|exact K]. left. reflexivity.
Qed.

Ltac case_handle H := apply ready_reach in H; unfold ready_handles in H; cbn [In] in H; repeat (destruct H as [H|H]; [subst|]); try contradiction.
Ltac case_in H := vm_compute in H; repeat (destruct H as [H|H]; [injection H as <- <-|]); try contradiction.

Lemma class_is : forall E w h s t, nexus_class E (attrs_of w h) s -> (exists v, dget (py "NX_class") (attrs_of w h) = Some v /\ decode_byte_string E v = Ok (VStr t)) -> s = t.
Proof. intros E w h s t [v [x [A [B ->]]]] [v' [C D]]. congruence. Qed.
Lemma class_not : forall E w h s, nexus_class E (attrs_of w h) s -> dget (py "NX_class") (attrs_of w h) = None -> False.
Proof. intros E w h s [v [x [A _]]] B. congruence. Qed.

Lemma no_enums : forall cls d k spec, dget cls classes0 = Some d -> dget k (d_attrs d) = Some spec -> na_enums spec = [].
Proof.
  intros cls d k spec H1 H2. apply dget_In in H1. apply dget_In in H2. unfold classes0 in H1. cbn [In] in H1.
  repeat (destruct H1 as [H1|H1]; [injection H1 as <- <-; vm_compute in H2; repeat (destruct H2 as [H2|H2]; [injection H2 as <- <-; reflexivity|]); contradiction|]). contradiction.
Qed.

Example C129_case : ready setup0 (world_of ready_file) fn ready_file classes0 /\ snd (validate setup0 (world_of ready_file) (new_validator classes0) fn) = Ok tt.
Proof.
  assert (R : ready setup0 (world_of ready_file) fn ready_file classes0).
  { assert (OS : all_open (world_of ready_file) fn /\ shallow (world_of ready_file) fn 900).
    { apply (hard_conditions (world_of ready_file) fn ready_file (fun o => nth o [4; 3; 0; 1; 0; 0; 2; 1; 0; 0] 0)); [reflexivity|apply rankedb_ok; vm_compute; reflexivity|simpl; lia]. }
    constructor.
    - reflexivity.
    - eexists. eexists. split; reflexivity.
    - apply plainb_ok. vm_compute. reflexivity.
    - apply distinctb_ok. vm_compute. reflexivity.
    - apply no_atb_ok. vm_compute. reflexivity.
    - apply OS.
    - apply OS.
    - split; [vm_compute ctx_patterns; repeat (apply Forall_cons; [apply compiles_ok; eexists; vm_compute; reflexivity|]); apply Forall_nil|]. eexists. split; [reflexivity|]. split; [discriminate|]. repeat (apply Forall_cons; [apply compiles_ok; eexists; vm_compute; reflexivity|]); apply Forall_nil.
    - split; [|eexists; eexists; split; reflexivity]. intros n d Hd. apply dget_In in Hd. unfold classes0 in Hd. cbn [In] in Hd.
      repeat (destruct Hd as [Hd|Hd]; [injection Hd as <- <-; split; [cbn; auto|]; split; [vm_compute; intuition discriminate|];
        intros n g a Hg; vm_compute in Hg; repeat (destruct Hg as [Hg|Hg]; [injection Hg as <- <-; discriminate|]); contradiction|]). contradiction.
    - intros h k v Hr Hin. case_handle Hr; case_in Hin.
      all: constructor; [vm_compute; intuition discriminate|eexists; vm_compute; reflexivity| | |intros cls d spec X1 X2 X3 X4 X5; destruct X5; exact (no_enums _ _ _ _ X3 X4)|].
      all: try (intros X Y; first [eexists; vm_compute; reflexivity|vm_compute in X; discriminate|destruct Y; discriminate]; fail).
      all: try (intros X Y Z s Hs; first [discriminate Y|vm_compute in X; discriminate|vm_compute in Hs; injection Hs as <-; apply link_nameb_ok; reflexivity]; fail).
      all: first [eapply ck_class; vm_compute; reflexivity|eapply ck_signal_group; vm_compute; reflexivity|apply ck_generic; vm_compute; intuition discriminate|idtac].
      + eapply ck_axes; [vm_compute; reflexivity|vm_compute; reflexivity|]. intros n [<-|[]]. split; [reflexivity|]. right. eexists. vm_compute. reflexivity.
      + eapply ck_signal_field; [reflexivity|vm_compute; reflexivity|]. intros [_ X]. apply (X 1%Z). apply NumberFacts.int_value. vm_compute. reflexivity.
    - intros h s Hr Hc. case_handle Hr; try (exfalso; eapply class_not; [exact Hc|reflexivity]);
        (eapply class_is in Hc; [|eexists; split; [vm_compute; reflexivity|vm_compute; reflexivity]]); subst s; vm_compute; intuition discriminate.
    - intros g n h Hr [M1 M2] _. case_handle Hr; vm_compute in M1; repeat (destruct M1 as [M1|M1]; [subst n; discriminate|]); contradiction.
    - intros g h Hr Hc [M1 M2] _. case_handle Hr; try (exfalso; vm_compute in M1; repeat (destruct M1 as [M1|M1]; [discriminate|]); contradiction).
      exists (py "NXtest"). split.
      + split; [reflexivity|]. eexists. exists (VStr (py "NXtest")). split; [vm_compute; reflexivity|]. split; [|reflexivity]. eexists. eexists. eexists. split; [vm_compute; reflexivity|]. split; [reflexivity|]. split; [apply fe_one; exact I|vm_compute; reflexivity].
      + right. eexists. eexists. eexists. eexists. split; [reflexivity|]. split; [reflexivity|]. intros field spec Hin. vm_compute in Hin. destruct Hin as [Hin|[Hin|[]]]; injection Hin as <- <-.
        * split; [apply link_nameb_ok; reflexivity|]. intros X. destruct (X eq_refl).
        * split; [apply link_nameb_ok; reflexivity|]. intros _. eexists. eexists. split; [vm_compute; reflexivity|]. split; [eexists; eexists; eexists; split; [vm_compute; reflexivity|split; [reflexivity|split; [apply fe_one; exact I|vm_compute; reflexivity]]]|].
          left. eexists. split; [reflexivity|]. left. reflexivity. }
  split; [exact R|]. exact (C129_completes setup0 (world_of ready_file) (new_validator classes0) fn ready_file R).
Qed.
