(** * What the tree view shows of each member of a group: C104 *)

From Coq Require Import List NArith ZArith Bool String Permutation Lia.
From Verif Require Import PyBase PyFacts Utf8 H5 Catalog H5Tree Spec_Tree Spec_TreeMembers TreeFacts TreeEnd TreeMembers Properties_Tree.
Import ListNotations.
Open Scope string_scope.
Open Scope list_scope.

(** Every group has its block of lines in the report. *)
Theorem C104_blocks : forall E up w ds fuel t show file ls,
  t_filename t = Some file -> tree_lines E up w ds fuel t show = Ok (Some ls) -> distinct_names E w file (title_of t file) ->
  forall h n d, below E w (open_root file) (title_of t file) h n d ->
  exists l suffix inside, block_at E w ls (open_root file) (title_of t file) h n d l suffix inside.
Proof. intros E up w ds fuel t show file ls Hf H Hn. apply (lines_inv _ _ _ _ _ _ _ _ _ Hf) in H. eapply block_exists; eauto. Qed.
Print Assumptions C104_blocks.

(** It begins with the name and the class of the group, then come the attributes,
    then, if the group was found through an external link, its file and path, and
    then lines of other things. *)
Theorem C104_group : forall E up w ds fuel t show file ls,
  t_filename t = Some file -> tree_lines E up w ds fuel t show = Ok (Some ls) -> distinct_names E w file (title_of t file) ->
  forall h n d l suffix inside, block_at E w ls (open_root file) (title_of t file) h n d l suffix inside ->
  class_text E (dget (py "NX_class") (attrs_of w h)) suffix /\
  exists al rest, inside = al ++ rest /\ attribute_lines E d show (attrs_of w h ++ link_attributes l) al /\
    match rest with [] => True | x :: _ => ~ (attribute_line x = true /\ ln_depth x = S d) end.
Proof.
  intros E up w ds fuel t show file ls Hf H Hn h n d l suffix inside Hb. apply (lines_inv _ _ _ _ _ _ _ _ _ Hf) in H.
  destruct (block_group _ _ _ _ _ _ _ _ _ _ _ H Hn _ _ _ _ _ _ Hb) as (_ & k & Hr). eapply group_attributes; eauto.
Qed.
Print Assumptions C104_group.

Section Members.
  Context (E : env) (up : pystr -> pystr) (w : world) (ds : handle -> dsview) (fuel : nat) (t : treeview) (show : bool)
    (file : pystr) (ls : list line)
    (Hf : t_filename t = Some file) (H : tree_lines E up w ds fuel t show = Ok (Some ls))
    (Hn : distinct_names E w file (title_of t file))
    (h : handle) (n : pystr) (d : nat) (l0 : link) (suffix : pystr) (inside : list line)
    (Hb : block_at E w ls (open_root file) (title_of t file) h n d l0 suffix inside).

  Lemma located : forall name l, dget name (links_of w h) = Some l ->
    in_now E up w ds (t_nexus t) (t_items t) show h d name l inside /\
    exists s, render_member E up w ds (t_nexus t) (t_items t) show h (S d) (name, l) = Ok s.
  Proof.
    intros name l Hl. pose proof (lines_inv _ _ _ _ _ _ _ _ _ Hf H) as Hg.
    destruct (block_group _ _ _ _ _ _ _ _ _ _ _ Hg Hn _ _ _ _ _ _ Hb) as (_ & k & Hr). eapply members_located; eauto.
  Qed.
End Members.

(** A member that is a soft link is shown as [name: --> path]. *)
Theorem C104_soft : forall E up w ds fuel t show file ls,
  t_filename t = Some file -> tree_lines E up w ds fuel t show = Ok (Some ls) -> distinct_names E w file (title_of t file) ->
  forall h n d l0 suffix inside, block_at E w ls (open_root file) (title_of t file) h n d l0 suffix inside ->
  forall name p, dget name (links_of w h) = Some (LSoft p) -> shown_with E inside (S d) (BSoft name p) [] show [].
Proof.
  intros E up w ds fuel t show file ls Hf H Hn h n d l0 suffix inside Hb name p Hl.
  destruct (located _ _ _ _ _ _ _ _ _ Hf H Hn _ _ _ _ _ _ Hb _ _ Hl) as [Hin Hs].
  eapply member_is; [exact Hin| |exact Hs]. intros s Hm. eapply soft_is; eauto.
Qed.
Print Assumptions C104_soft.

(** An external link to a file that is not there is shown as such, with the file and
    the path of the link. *)
Theorem C104_missing : forall E up w ds fuel t show file ls,
  t_filename t = Some file -> tree_lines E up w ds fuel t show = Ok (Some ls) -> distinct_names E w file (title_of t file) ->
  forall h n d l0 suffix inside, block_at E w ls (open_root file) (title_of t file) h n d l0 suffix inside ->
  forall name f p, dget name (links_of w h) = Some (LExt f p) -> dget f w = None ->
  shown_with E inside (S d) (BMissing name) [] show [(py "file", VStr f); (py "path", VStr p)].
Proof.
  intros E up w ds fuel t show file ls Hf H Hn h n d l0 suffix inside Hb name f p Hl Hm.
  destruct (located _ _ _ _ _ _ _ _ _ Hf H Hn _ _ _ _ _ _ Hb _ _ Hl) as [Hin Hs].
  eapply member_is; [exact Hin| |exact Hs]. intros s Hx. eapply missing_is in Hx; [exact Hx|exact Hm].
Qed.
Print Assumptions C104_missing.

(** A member that has its place elsewhere, as its target says, is shown as a link to
    that place, without attributes. *)
Theorem C104_link : forall E up w ds fuel t show file ls,
  t_filename t = Some file -> tree_lines E up w ds fuel t show = Ok (Some ls) -> distinct_names E w file (title_of t file) ->
  forall h n d l0 suffix inside, block_at E w ls (open_root file) (title_of t file) h n d l0 suffix inside ->
  forall name v a, leads_to w h name v -> as_link E w (t_nexus t) v a -> a <> [] ->
  shown_with E inside (S d) (BLink name a) [] show [].
Proof.
  intros E up w ds fuel t show file ls Hf H Hn h n d l0 suffix inside Hb name v a Hv Ha Hne.
  assert (Hl : exists l, dget name (links_of w h) = Some l) by (destruct Hv; eauto). destruct Hl as [l Hl].
  destruct (located _ _ _ _ _ _ _ _ _ Hf H Hn _ _ _ _ _ _ Hb _ _ Hl) as [Hin Hs].
  eapply member_is; [exact Hin| |exact Hs]. intros s Hx. eapply link_is in Hx; [|exact Hv|exact Hl|exact Ha].
  destruct a; [congruence|exact Hx].
Qed.
Print Assumptions C104_link.

(** A dataset that has its place here is shown with its value and attributes. *)
Theorem C104_dataset : forall E up w ds fuel t show file ls,
  t_filename t = Some file -> tree_lines E up w ds fuel t show = Ok (Some ls) -> distinct_names E w file (title_of t file) ->
  forall h n d l0 suffix inside, block_at E w ls (open_root file) (title_of t file) h n d l0 suffix inside ->
  forall name l v, leads_to w h name v -> dget name (links_of w h) = Some l -> in_full E w (t_nexus t) v -> isHdf5Dataset w v = true ->
  exists text own, array_lines (S d) own /\ shown_with E inside (S d) (BField name text) own show (attrs_of w v ++ link_attributes l).
Proof.
  intros E up w ds fuel t show file ls Hf H Hn h n d l0 suffix inside Hb name l v Hv Hl Hi Hd.
  destruct (located _ _ _ _ _ _ _ _ _ Hf H Hn _ _ _ _ _ _ Hb _ _ Hl) as [Hin [s Hs]].
  destruct (dataset_is _ _ _ _ _ _ _ _ _ _ _ _ _ Hv Hl Hi Hd Hs) as (text & own & al & He & Ho & Ha).
  exists text, own. split; [exact Ho|]. eapply member_is; [exact Hin| |eauto]. intros s' Hs'. exists al. split; [congruence|exact Ha].
Qed.
Print Assumptions C104_dataset.

(** A group that has its place here is shown with everything in it: it has a block of
    lines. *)
Theorem C104_groups : forall E up w ds fuel t show file ls,
  t_filename t = Some file -> tree_lines E up w ds fuel t show = Ok (Some ls) -> distinct_names E w file (title_of t file) ->
  forall h n d l0 suffix inside, block_at E w ls (open_root file) (title_of t file) h n d l0 suffix inside ->
  forall name l v, leads_to w h name v -> dget name (links_of w h) = Some l -> in_full E w (t_nexus t) v -> is_group_obj w v = true ->
  exists suffix' inside', block_of inside (S d) name suffix' inside' /\
    block_at E w ls (open_root file) (title_of t file) v name (S d) l suffix' inside'.
Proof.
  intros E up w ds fuel t show file ls Hf H Hn h n d l0 suffix inside Hb name l v Hv Hl Hi Hd.
  pose proof (group_is _ _ _ _ _ _ _ Hv Hl Hi Hd) as Hsub. pose proof (lines_inv _ _ _ _ _ _ _ _ _ Hf H) as Hg.
  destruct (block_group _ _ _ _ _ _ _ _ _ _ _ Hg Hn _ _ _ _ _ _ Hb) as (_ & k & Hr).
  destruct (subs_located _ _ _ _ _ _ _ _ _ _ _ _ _ _ Hr _ _ _ Hl Hsub) as (k2 & sf & ins & _ & Hbl).
  exists sf, ins. split; [exact Hbl|]. eapply ba_sub; eauto.
Qed.
Print Assumptions C104_groups.

(** The lines that introduce members are those of the members, each once. *)
Theorem C104_once : forall E up w ds fuel t show file ls,
  t_filename t = Some file -> tree_lines E up w ds fuel t show = Ok (Some ls) -> distinct_names E w file (title_of t file) ->
  forall h n d l0 suffix inside, block_at E w ls (open_root file) (title_of t file) h n d l0 suffix inside ->
  Permutation (introduced (S d) inside) (dkeys (links_of w h)).
Proof.
  intros E up w ds fuel t show file ls Hf H Hn h n d l0 suffix inside Hb. pose proof (lines_inv _ _ _ _ _ _ _ _ _ Hf H) as Hg.
  destruct (block_group _ _ _ _ _ _ _ _ _ _ _ Hg Hn _ _ _ _ _ _ Hb) as (Hbel & k & Hr).
  destruct (group_members _ _ _ _ _ _ _ _ _ _ _ _ _ Hr (Hn _ _ _ Hbel)) as (sx & ix & fields & groups & He & _ & Hi & Hp & _).
  injection He as <- <-. rewrite Hi. exact Hp.
Qed.
Print Assumptions C104_once.

(** ** A case: the sample file of C60, and one with targets *)
Definition entryT : handle := mkH (py "f.h5") 1 (py "/entry") false.

Example C104_case : t_filename tT = Some (py "f.h5") /\ distinct_names envT wT (py "f.h5") (title_of tT (py "f.h5")) /\
  (exists ls, tree_lines envT upT wT dsT 10 tT true = Ok (Some ls)) /\
  below envT wT (open_root (py "f.h5")) (title_of tT (py "f.h5")) entryT (py "entry") 1 /\
  dget (py "alias") (links_of wT entryT) = Some (LSoft (py "/entry/data")) /\
  dget (py "ext") (links_of wT entryT) = Some (LExt (py "gone.h5") (py "/x")) /\ dget (py "gone.h5") wT = None /\
  leads_to wT entryT (py "again") (mkH (py "f.h5") 6 (py "/entry/again") false) /\
  as_link envT wT true (mkH (py "f.h5") 6 (py "/entry/again") false) (py "/entry/y") /\
  leads_to wT entryT (py "data") (mkH (py "f.h5") 3 (py "/entry/data") false) /\
  in_full envT wT true (mkH (py "f.h5") 3 (py "/entry/data") false) /\
  leads_to wT entryT (py "zoo") (mkH (py "f.h5") 2 (py "/entry/zoo") false) /\
  in_full envT wT true (mkH (py "f.h5") 2 (py "/entry/zoo") false).
Proof.
  split; [reflexivity|]. split; [exact namesT|]. split; [eexists; vm_compute; reflexivity|]. split; [exact belowT_entry|].
  split; [vm_compute; reflexivity|]. split; [vm_compute; reflexivity|]. split; [vm_compute; reflexivity|].
  split; [eapply (lt_hard _ _ _ _ 6); vm_compute; reflexivity|].
  split. { eapply al_other; [vm_compute; reflexivity|constructor|vm_compute; discriminate|left; discriminate]. }
  split; [eapply (lt_hard _ _ _ _ 3); vm_compute; reflexivity|]. split; [apply if_none; vm_compute; reflexivity|].
  split; [eapply (lt_hard _ _ _ _ 2); vm_compute; reflexivity|apply if_none; vm_compute; reflexivity].
Qed.

(** the original of a link has its own address as target: it is shown in full *)
Definition wOwn : world :=
  [(py "o.h5", FHdf5 [ mkObj (KGroup [(py "a", LHard 1); (py "b", LHard 2)]) [];
                       mkObj (KDataset (VInt 7)) [(py "target", VStr (py "/a"))];
                       mkObj (KDataset (VInt 7)) [(py "target", VBytes (py "/a"))] ])].
Example C104_own : in_full envT wOwn true (mkH (py "o.h5") 1 (py "/a") false) /\
  as_link envT wOwn true (mkH (py "o.h5") 2 (py "/b") false) (py "/a") /\
  tree_report envT upT wOwn (fun _ => DObject [] (py "7")) 10 (mkTree (Some (py "o.h5")) true 5) true = Ok (Some
    [py "o.h5 : NeXus data file"; py "  a:NX_CHAR = 7"; py "    @target = ""/a"""; py "  b --> /a"]).
Proof.
  split; [eapply if_own; [vm_compute; reflexivity|constructor]|]. split; [|vm_compute; reflexivity].
  eapply al_other; [vm_compute; reflexivity| |vm_compute; discriminate|left; discriminate]. constructor. vm_compute. reflexivity.
Qed.

(** * C105: punx tree prints this report *)
From Verif Require Import Cache Install Cli Spec_Cli CliFacts.

(** For an HDF5 file, [punx tree] prints the lines of the report of the file, made
    with the number of items and the choice about attributes that the command line
    asks for, and of a view that takes the file for a NeXus file if it is one; if
    there is no such report, it fails with the error of the report. *)
Theorem C105_printed : forall rj E up k w ds fuel xml transform p a b, ~ is_nxdl (ta_infile a) -> is_hdf5 w (ta_infile a) ->
  isNeXusFile E w (ta_infile a) = Ok (Some b) ->
  let view := mkTree (Some (ta_infile a)) b (ta_items a) in
  match tree_lines E up w ds fuel view (ta_attributes a) with
  | Ok (Some ls) => func_tree rj E up k w ds fuel xml transform p a = ([Printed (map text_of ls)], Ok tt)
  | Ok None => False
  | Exn e => func_tree rj E up k w ds fuel xml transform p a = ([], Exn (match e with HDF5_Open_Error => SystemExit 1 | _ => e end))
  end.
Proof.
  intros rj E up k w ds fuel xml transform p a b NX [h D] N view. unfold func_tree.
  destruct (endswith (ta_infile a) (py ".nxdl.xml")) eqn:X; [apply not_nxdl in X; contradiction|].
  unfold new_tree. rewrite D, N. cbn [rbind t_filename t_nexus].
  replace (match b with true => true | false => false end) with b by (destruct b; reflexivity). fold view.
  unfold tree_report. destruct (tree_lines E up w ds fuel view (ta_attributes a)) as [[ls|]|e] eqn:T; cbn [rmap rbind option_map].
  - reflexivity.
  - unfold tree_lines in T. cbn [view t_filename] in T. rewrite D in T.
    match type of T with rbind ?x _ = _ => destruct x; discriminate end.
  - destruct e; reflexivity.
Qed.
Print Assumptions C105_printed.

(** So without the attributes it prints the same lines but for those of attributes. *)
Theorem C105_attributes : forall rj E up k w ds fuel xml transform p file items ls, ~ is_nxdl file -> is_hdf5 w file ->
  func_tree rj E up k w ds fuel xml transform p (mkTA file true items) = ([Printed ls], Ok tt) ->
  exists lines, ls = map text_of lines /\
    func_tree rj E up k w ds fuel xml transform p (mkTA file false items)
    = ([Printed (map text_of (filter (fun l => negb (attribute_line l)) lines))], Ok tt).
Proof.
  intros rj E up k w ds fuel xml transform p file items ls NX HD H.
  assert (N : exists b, isNeXusFile E w file = Ok (Some b)).
  { destruct (isNeXusFile E w file) as [[b|]|e] eqn:N; [eauto| |].
    - exfalso. unfold isNeXusFile in N. destruct HD as [h D]. rewrite D in N. match type of N with rbind ?x _ = _ => destruct x; discriminate | _ => idtac end.
      repeat match type of N with match ?x with _ => _ end = _ => destruct x; try discriminate | rmap _ ?x = _ => destruct x; discriminate end.
    - exfalso. unfold func_tree in H. cbn [ta_infile ta_items ta_attributes] in H.
      destruct (endswith file (py ".nxdl.xml")) eqn:X; [apply not_nxdl in X; contradiction|].
      unfold new_tree in H. destruct HD as [h D]. rewrite D, N in H. cbn [rbind] in H. destruct e; discriminate. }
  destruct N as [b N].
  pose proof (C105_printed rj E up k w ds fuel xml transform p (mkTA file true items) b NX HD N) as P1.
  pose proof (C105_printed rj E up k w ds fuel xml transform p (mkTA file false items) b NX HD N) as P2.
  cbn [ta_infile ta_items ta_attributes] in P1, P2. cbv zeta in P1, P2.
  destruct (tree_lines E up w ds fuel (mkTree (Some file) b items) true) as [[lines|]|e] eqn:T1; [|contradiction|].
  - rewrite P1 in H. injection H as <-. exists lines. split; [reflexivity|].
    destruct (C62_attributes _ _ _ _ _ _ _ T1) as [_ T2]. unfold tree_report in T2.
    destruct (tree_lines E up w ds fuel (mkTree (Some file) b items) false) as [[l2|]|e]; cbn [rmap rbind option_map] in T2; try discriminate.
    rewrite P2. congruence.
  - rewrite P1 in H. destruct e; discriminate.
Qed.
Print Assumptions C105_attributes.

Example C105_case : ~ is_nxdl (py "f.h5") /\ is_hdf5 wT (py "f.h5") /\ isNeXusFile envT wT (py "f.h5") = Ok (Some true) /\
  forall rj k xml transform p, func_tree rj envT upT k wT dsT 10 xml transform p (mkTA (py "f.h5") false 3) = ([Printed
   [py "f.h5 : NeXus data file";
    py "  entry:NXentry";
    py "    again --> /entry/y";
    py "    alias: --> /entry/data";
    py "    data:NX_INT64[7] = [10, '...', 16]";
    py "    ext: missing external file";
    py "    y:NX_INT64[] = ";
    py "    box";
    py "    zoo:NXdata";
    py "      one:NX_INT64 = 7"]], Ok tt).
Proof.
  split; [intros H; apply not_nxdl in H; vm_compute in H; discriminate H|]. split; [eexists; vm_compute; reflexivity|].
  split; [vm_compute; reflexivity|]. intros. vm_compute. reflexivity.
Qed.
