(** * Theorems about how a tree view reads (C131) *)

From Coq Require Import List NArith ZArith Bool String Lia.
From Verif Require Import PyBase PyFacts Utf8 H5 H5Tree Spec_Tree Spec_TreeMembers Spec_TreeText TreeFacts TreeEnd TreeMembers TreeText Properties_Tree Properties_TreeMembers.
Import ListNotations.
Open Scope string_scope.
Open Scope list_scope.

(** The report is the texts of its lines, and each has the form of what it shows. *)
Theorem C131_text : forall E up w ds fuel t show ls, tree_lines E up w ds fuel t show = Ok (Some ls) ->
  exists texts, tree_report E up w ds fuel t show = Ok (Some texts) /\ Forall2 reads ls texts.
Proof.
  intros E up w ds fuel t show ls H. exists (map text_of ls). split; [unfold tree_report; rewrite H; reflexivity|].
  clear H. induction ls; constructor; auto. apply reads_text.
Qed.
Print Assumptions C131_text.

(** The line of a dataset shows its type, shape and value, for every kind of dataset. *)
Theorem C131_dataset : forall E up w ds fuel t show file ls,
  t_filename t = Some file -> tree_lines E up w ds fuel t show = Ok (Some ls) -> distinct_names E w file (title_of t file) ->
  forall h n d l0 suffix inside, block_at E w ls (open_root file) (title_of t file) h n d l0 suffix inside ->
  forall name l v, leads_to w h name v -> dget name (links_of w h) = Some l -> in_full E w (t_nexus t) v -> isHdf5Dataset w v = true ->
  has_shape (ds v) ->
  exists text own, shown_field E (t_nexus t) up (t_items t) (S d) (ds v) text own
    /\ shown_with E inside (S d) (BField name text) own show (attrs_of w v ++ link_attributes l).
Proof.
  intros E up w ds fuel t show file ls Hf H Hn h n d l0 suffix inside Hb name l v Hv Hl Hi Hd W.
  destruct (located _ _ _ _ _ _ _ _ _ Hf H Hn _ _ _ _ _ _ Hb _ _ Hl) as [Hin [s Hs]].
  destruct (dataset_reads _ _ _ _ _ _ _ _ _ _ _ _ _ Hv Hl Hi Hd W Hs) as (text & own & al & He & Ho & Ha).
  exists text, own. split; [exact Ho|]. eapply member_is; [exact Hin| |eauto]. intros s' Hs'. exists al. split; [congruence|exact Ha].
Qed.
Print Assumptions C131_dataset.

(** The forms leave no choice. *)
Theorem C131_one : (forall l a b, reads l a -> reads l b -> a = b)
  /\ forall E nexus up m d v t1 o1 t2 o2, shown_field E nexus up m d v t1 o1 -> shown_field E nexus up m d v t2 o2 -> t1 = t2 /\ o1 = o2.
Proof. split; [exact reads_fun|exact field_fun]. Qed.
Print Assumptions C131_one.

(** In the sample of C60: a list of seven numbers of which five may be shown, and two texts. *)
Example C131_case : (exists ls, tree_lines envT upT wT dsT 10 tT true = Ok (Some ls)) /\ distinct_names envT wT (py "f.h5") (title_of tT (py "f.h5")) /\
  leads_to wT entryT (py "data") (mkH (py "f.h5") 3 (py "/entry/data") false) /\
  in_full envT wT true (mkH (py "f.h5") 3 (py "/entry/data") false) /\ has_shape (dsT (mkH (py "f.h5") 3 (py "/entry/data") false)) /\
  shown_field envT true upT 5 2 (dsT (mkH (py "f.h5") 3 (py "/entry/data") false)) (py "NX_INT64[7] = [10, 11, 12, '...', 16]") [] /\
  shown_field envT true upT 5 2 (DBytesArr [py "ab"; py "cde"]) (py "NX_CHAR[2,3] = [""ab"", ""cde""]") [].
Proof.
  split; [eexists; vm_compute; reflexivity|]. split; [exact namesT|]. split; [eapply (lt_hard _ _ _ _ 3); vm_compute; reflexivity|].
  split; [apply if_none; vm_compute; reflexivity|]. split; [vm_compute; auto 20|]. split.
  - exists (py "NX_INT64"), (py "[7]"), (py " = [10, 11, 12, '...', 16]"). split; [exists (py "int64"); split; [constructor|vm_compute; reflexivity]|].
    split; [|split; [vm_compute; reflexivity|apply (ss_dims [7]); discriminate]].
    apply (sv_flat envT 5 2 (py "int64") 7 (array1 elsT) (py "[10, 11, 12, '...', 16]")); [discriminate|reflexivity|].
    apply (at_flat 5 elsT [py "10"; py "11"; py "12"; py "'...'"; py "16"]). right.
    exists [py "10"; py "11"; py "12"], [py "13"; py "14"; py "15"], (py "16"). split; [reflexivity|]. split; [vm_compute; lia|]. split; reflexivity.
  - exists (py "NX_CHAR[2,3]"), [], (py " = [""ab"", ""cde""]"). split; [eexists; split; [constructor|vm_compute; reflexivity]|].
    split; [|split; [reflexivity|reflexivity]].
    apply (sv_texts envT 5 2 [py "ab"; py "cde"] [py "ab"; py "cde"]); [simpl; lia|]. repeat constructor; vm_compute; reflexivity.
Qed.
