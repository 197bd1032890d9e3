(** * C145: what the tree view without attributes depends on *)

From Coq Require Import List NArith ZArith Bool String Lia Permutation.
From Verif Require Import PyBase PyFacts Utf8 H5 Catalog H5Tree Spec_Tree Properties_Tree Spec_Bare BareFacts.
Import ListNotations.

(** Without attributes, the report depends on nothing but the names and links, @NX_class,
    @target, and what is shown of the datasets: it is the same, or fails the same way, for
    files whose other attributes differ. *)
Theorem C145_report : forall E up w w' ds fuel t, same_skeletons w w' ->
  tree_report E up w ds fuel t false = tree_report E up w' ds fuel t false.
Proof.
  intros E up w w' ds fuel t H. unfold tree_report, tree_lines. destruct (t_filename t) as [file|]; [|reflexivity].
  pose proof (file_same _ _ H file) as X. destruct (dget file w) as [s|], (dget file w') as [s'|]; try tauto.
  destruct X as [f f' R|]; [|reflexivity]. rewrite (plain_group _ _ H). reflexivity.
Qed.
Print Assumptions C145_report.

(** Both are announced as NeXus data files or neither is. *)
Theorem C145_title : forall E w w' file t t', same_skeletons w w' ->
  new_tree E w file = Ok t -> new_tree E w' file = Ok t' -> t = t'.
Proof.
  intros E w w' file t t' H A B. unfold new_tree in *. pose proof (file_same _ _ H file) as X.
  destruct (dget file w) as [s|], (dget file w') as [s'|]; try tauto; [|congruence].
  destruct (isNeXusFile E w file) as [a|e] eqn:IA; [|discriminate A]. destruct (isNeXusFile E w' file) as [b|e] eqn:IB; [|discriminate B].
  cbn [rbind] in A, B. assert (Q : a = b) by (eapply nexus_two; [exact H|exact IA|exact IB]). subst b. congruence.
Qed.
Print Assumptions C145_title.

(** the sample of the tree view with other attributes, one of which cannot be shown *)
Definition wBare : world := [(py "f.h5", FHdf5
    [ mkObj (KGroup [(py "entry", LHard 1)]) [(py "creator", VStr (py "me"))];
      mkObj (KGroup [(py "again", LHard 6); (py "y", LHard 4); (py "alias", LSoft (py "/entry/data")); (py "box", LHard 7);
                     (py "ext", LExt (py "gone.h5") (py "/x")); (py "zoo", LHard 2); (py "data", LHard 3)])
            [(py "note", VBytes [255%N]); (py "NX_class", VStr (py "NXentry"))];
      mkObj (KGroup [(py "one", LHard 5)]) [(py "NX_class", VStr (py "NXdata"))];
      mkObj (KDataset (VArrNum [])) [];
      mkObj (KDataset (VInt 8)) [];
      mkObj (KDataset (VInt 9)) [(py "units", VStr (py "m"))];
      mkObj (KDataset (VInt 7)) [(py "target", VStr (py "/entry/y")); (py "units", VStr (py "m"))];
      mkObj (KGroup []) [] ])].

Example C145_case : same_skeletons wT wBare /\ new_tree envT wBare (py "f.h5") = Ok tT /\
  tree_report envT upT wBare dsT 10 tT false = Ok (Some
   [py "f.h5 : NeXus data file";
    py "  entry:NXentry";
    py "    again --> /entry/y";
    py "    alias: --> /entry/data";
    py "    data:NX_INT64[7] = [10, 11, 12, '...', 16]";
    py "    ext: missing external file";
    py "    y:NX_INT64[] = ";
    py "    box";
    py "    zoo:NXdata";
    py "      one:NX_INT64 = 7"]) /\
  tree_report envT upT wBare dsT 10 tT true = Exn UnicodeDecodeError.
Proof.
  split; [|split; [vm_compute; reflexivity|split; vm_compute; reflexivity]].
  constructor; [|constructor]. split; [reflexivity|]. apply sf_hdf5.
  assert (N1 : forall (n : pystr) (l : link), NoDup (map fst [(n, l)])) by (intros; constructor; [intros []|constructor]).
  constructor; [split; [reflexivity|split; [reflexivity|split; [apply N1|apply Permutation_refl]]]|].
  constructor; [split; [reflexivity|split; [reflexivity|]]|].
  { cbn [ob_kind]. split; [cbn [map fst]; repeat (constructor; [cbn; intuition discriminate|]); constructor|].
    apply NoDup_Permutation; [repeat (constructor; [cbn; intuition discriminate|]); constructor|repeat (constructor; [cbn; intuition discriminate|]); constructor|].
    intros x. cbn [In]. tauto. }
  constructor; [split; [reflexivity|split; [reflexivity|split; [apply N1|apply Permutation_refl]]]|].
  repeat (constructor; [split; [reflexivity|split; [reflexivity|first [exact I|split; constructor]]]|]). constructor.
Qed.

(** @NX_class and @target do matter. *)
Definition two_groups (c t : pystr) : world := [(py "f.h5", FHdf5
    [ mkObj (KGroup [(py "a", LHard 1); (py "b", LHard 2)]) [];
      mkObj (KGroup []) [(py "NX_class", VStr c)]; mkObj (KGroup []) [(py "target", VStr t)] ])].
Example C145_matters :
  tree_report envT upT (two_groups (py "NXdata") (py "/b")) dsT 10 tT false = Ok (Some [py "f.h5 : NeXus data file"; py "  a:NXdata"; py "  b"]) /\
  tree_report envT upT (two_groups (py "NXlog") (py "/b")) dsT 10 tT false = Ok (Some [py "f.h5 : NeXus data file"; py "  a:NXlog"; py "  b"]) /\
  tree_report envT upT (two_groups (py "NXdata") (py "/a")) dsT 10 tT false = Ok (Some [py "f.h5 : NeXus data file"; py "  b --> /a"; py "  a:NXdata"]).
Proof. split; [vm_compute; reflexivity|]. split; vm_compute; reflexivity. Qed.
