(** * C144: the tree view and the order of members and attributes *)

From Coq Require Import List NArith ZArith Bool String Lia Permutation.
From Verif Require Import PyBase PyFacts Utf8 H5 Catalog H5Tree Spec_Tree Properties_Tree Spec_Catalog Spec_Order CatalogSamples OrderWorld Spec_TreeOrder TreeOrderFacts.
Import ListNotations.

(** Without attributes, the report of a file is the same, or fails the same way, in whatever
    order the members and attributes are listed in the file and in the files its links lead to. *)
Theorem C144_members : forall E up w w' ds fuel t, reordered_files w w' ->
  tree_report E up w ds fuel t false = tree_report E up w' ds fuel t false.
Proof.
  intros E up w w' ds fuel t H. unfold tree_report, tree_lines. destruct (t_filename t) as [file|]; [|reflexivity].
  pose proof (file_same _ _ H file) as X. destruct (dget file w) as [s|], (dget file w') as [s'|]; try tauto.
  destruct X as [f f' D R|]; [|reflexivity]. rewrite (plain_group _ _ H). reflexivity.
Qed.
Print Assumptions C144_members.

(** With attributes, it is the same but for the order of the attribute lines of each item. *)
Theorem C144_attributes : forall E up w w' ds fuel t show ls, reordered_files w w' ->
  tree_lines E up w ds fuel t show = Ok (Some ls) ->
  exists ls', tree_lines E up w' ds fuel t show = Ok (Some ls') /\ same_but_attributes ls ls'.
Proof.
  intros E up w w' ds fuel t show ls H T. unfold tree_lines in *. destruct (t_filename t) as [file|]; [|discriminate T].
  pose proof (file_same _ _ H file) as X. destruct (dget file w) as [s|], (dget file w') as [s'|]; try tauto; [|discriminate T].
  destruct X as [f f' D R|]; [|discriminate T].
  destruct (render_group E up w ds (t_nexus t) (t_items t) show fuel (open_root file) (file ++ (if t_nexus t then py " : NeXus data file" else [])) 0 (LHard 0)) as [r|e] eqn:G; [|discriminate T].
  cbn [rbind] in T. injection T as <-. destruct (group_out _ _ H _ _ _ _ _ _ _ _ _ _ _ _ G) as (r' & -> & S). exists r'. split; [reflexivity|exact S].
Qed.
Print Assumptions C144_attributes.

(** Both files are announced as NeXus data files, or neither is, unless looking for an
    NXentry group fails in one of them. *)
Theorem C144_title : forall E w w' file t t', reordered_files w w' ->
  new_tree E w file = Ok t -> new_tree E w' file = Ok t' -> t = t'.
Proof.
  intros E w w' file t t' H A B. unfold new_tree in *. pose proof (file_same _ _ H file) as X.
  destruct (dget file w) as [s|], (dget file w') as [s'|]; try tauto; [|congruence].
  destruct (isNeXusFile E w file) as [a|e] eqn:IA; [|discriminate A]. destruct (isNeXusFile E w' file) as [b|e] eqn:IB; [|discriminate B].
  cbn [rbind] in A, B. assert (Q : a = b) by (eapply nexus_two; [exact H|exact IA|exact IB]). subst b. congruence.
Qed.
Print Assumptions C144_title.

(** the sample of the tree view with its members and attributes in another order *)
Definition wT' : world := [(py "f.h5", FHdf5
    [ mkObj (KGroup [(py "entry", LHard 1)]) [];
      mkObj (KGroup [(py "again", LHard 6); (py "y", LHard 4); (py "alias", LSoft (py "/entry/data")); (py "box", LHard 7);
                     (py "ext", LExt (py "gone.h5") (py "/x")); (py "zoo", LHard 2); (py "data", LHard 3)])
            [(py "NX_class", VStr (py "NXentry"))];
      mkObj (KGroup [(py "one", LHard 5)]) [(py "signal", VStr (py "one")); (py "NX_class", VStr (py "NXdata"))];
      mkObj (KDataset (VArrNum [])) [(py "units", VBytes (py "mm"))];
      mkObj (KDataset (VInt 7)) [];
      mkObj (KDataset (VInt 7)) [];
      mkObj (KDataset (VInt 7)) [(py "target", VStr (py "/entry/y"))];
      mkObj (KGroup []) [] ])].

Lemma wT_reordered : reordered_files wT wT'.
Proof.
  constructor; [|constructor]. split; [reflexivity|]. apply rc_hdf5.
  - apply distinctb_ok. vm_compute. reflexivity.
  - constructor; [|constructor; [|constructor; [|repeat (constructor; [split; [apply Permutation_refl|first [apply Permutation_refl|reflexivity]]|]); constructor]]].
    + split; apply Permutation_refl.
    + split; [apply Permutation_refl|]. cbn [ob_kind].
      apply (NoDup_Permutation); [repeat (constructor; [cbn; intuition discriminate|]); constructor|repeat (constructor; [cbn; intuition discriminate|]); constructor|].
      intros x. cbn [In]. tauto.
    + split; [apply perm_swap|apply Permutation_refl].
Qed.

(** The two samples: the same report, with the attributes of "zoo" the other way round. *)
Example C144_case : reordered_files wT wT' /\ new_tree envT wT (py "f.h5") = Ok tT /\ new_tree envT wT' (py "f.h5") = Ok tT /\
  tree_report envT upT wT' dsT 10 tT true = Ok (Some
   [py "f.h5 : NeXus data file";
    py "  entry:NXentry";
    py "    @NX_class = ""NXentry""";
    py "    again --> /entry/y";
    py "    alias: --> /entry/data";
    py "    data:NX_INT64[7] = [10, 11, 12, '...', 16]";
    py "      @units = ""mm""";
    py "    ext: missing external file";
    py "      @file = ""gone.h5""";
    py "      @path = ""/x""";
    py "    y:NX_INT64[] = ";
    py "    box";
    py "    zoo:NXdata";
    py "      @signal = ""one""";
    py "      @NX_class = ""NXdata""";
    py "      one:NX_INT64 = 7"]).
Proof. split; [exact wT_reordered|]. split; [vm_compute; reflexivity|]. split; vm_compute; reflexivity. Qed.

(** An @NX_class that cannot be decoded, before or after an NXentry group: only the first file
    cannot be opened, so C144_title needs both files to open. *)
Definition bad_first : world := [(py "f.h5", FHdf5
    [ mkObj (KGroup [(py "a", LHard 1); (py "b", LHard 2)]) [];
      mkObj (KGroup []) [(py "NX_class", VBytes [255%N])]; mkObj (KGroup []) [(py "NX_class", VStr (py "NXentry"))] ])].
Definition bad_last : world := [(py "f.h5", FHdf5
    [ mkObj (KGroup [(py "b", LHard 2); (py "a", LHard 1)]) [];
      mkObj (KGroup []) [(py "NX_class", VBytes [255%N])]; mkObj (KGroup []) [(py "NX_class", VStr (py "NXentry"))] ])].
Example C144_opening : reordered_files bad_first bad_last /\ new_tree envT bad_first (py "f.h5") = Exn UnicodeDecodeError /\ new_tree envT bad_last (py "f.h5") = Ok tT.
Proof.
  split; [|split; vm_compute; reflexivity]. constructor; [|constructor]. split; [reflexivity|]. apply rc_hdf5.
  - apply distinctb_ok. vm_compute. reflexivity.
  - constructor; [split; [apply Permutation_refl|apply perm_swap]|repeat (constructor; [split; apply Permutation_refl|]); constructor].
Qed.
