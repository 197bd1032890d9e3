(** * The tree view of data files: C60-C62, C80, C81 *)

From Coq Require Import List NArith ZArith Bool String Sorting Permutation Lia.
From Verif Require Import PyBase PyFacts Utf8 H5 Catalog H5Tree Spec_Tree TreeFacts TreeEnd.
Import ListNotations.
Open Scope string_scope.
Open Scope list_scope.

(** ** A sample file *)
Definition envT : env := mkEnv (fun _ => false) (fun _ => false) (fun _ => None) (fun c => N.eqb c 160) EncUtf8.
Definition upT (s : pystr) : pystr := map (fun c => if (97 <=? c)%N && (c <=? 122)%N then (c - 32)%N else c) s.
Definition wT : world :=
  [(py "f.h5", FHdf5
    [ mkObj (KGroup [(py "entry", LHard 1)]) [];
      mkObj (KGroup [(py "zoo", LHard 2); (py "data", LHard 3); (py "alias", LSoft (py "/entry/data"));
                     (py "ext", LExt (py "gone.h5") (py "/x")); (py "y", LHard 4); (py "box", LHard 7); (py "again", LHard 6)])
            [(py "NX_class", VStr (py "NXentry"))];
      mkObj (KGroup [(py "one", LHard 5)]) [(py "NX_class", VStr (py "NXdata")); (py "signal", VStr (py "one"))];
      mkObj (KDataset (VArrNum [])) [(py "units", VBytes (py "mm"))];
      mkObj (KDataset (VInt 7)) [];
      mkObj (KDataset (VInt 7)) [];
      mkObj (KDataset (VInt 7)) [(py "target", VStr (py "/entry/y"))];
      mkObj (KGroup []) [] ])].
Definition elsT : list (pystr * pystr) := map (fun i => (str_nat i, str_nat i)) [10; 11; 12; 13; 14; 15; 16].
Definition dsT (h : handle) : dsview :=
  match h_oid h with
  | 3 => DOther (py "int64") [7] (array1 elsT)
  | 4 => DOther (py "int64") [] (NVal (py "7") (py "7"))
  | 5 => DOther (py "int64") [1] (NArr [NVal (py "7") (py "7")])
  | _ => DOther (py "int64") [2; 2] (NArr [NArr [NVal (py "1") (py "1"); NVal (py "2") (py "2")];
                                          NArr [NVal (py "3") (py "3"); NVal (py "4") (py "4")]])
  end.
Definition tT : treeview := mkTree (Some (py "f.h5")) true 5.

Example tree_sample : new_tree envT wT (py "f.h5") = Ok tT /\
  tree_report envT upT wT dsT 10 tT true = Ok (Some
   [py "f.h5 : NeXus data file";
    py "  entry:NXentry";
    py "    @NX_class = ""NXentry""";
    py "    again --> /entry/y";
    py "    alias: --> /entry/data";
    py "    data:NX_INT64[7] = [10, 11, 12, '...', 16]";
    py "      @units = ""mm""";
    py "    ext: missing external file";
    py "      @file = ""gone.h5""";
    py "      @path = ""/x""";
    py "    y:NX_INT64[] = ";
    py "    box";
    py "    zoo:NXdata";
    py "      @NX_class = ""NXdata""";
    py "      @signal = ""one""";
    py "      one:NX_INT64 = 7"]).
Proof. split; vm_compute; reflexivity. Qed.

Lemma rootT : open_root (py "f.h5") = mkH (py "f.h5") 0 slash true.
Proof. reflexivity. Qed.

(** the groups of the sample *)
Lemma belowT : forall h n d, below envT wT (open_root (py "f.h5")) (title_of tT (py "f.h5")) h n d ->
  (h = open_root (py "f.h5") /\ d = 0) \/ (h = mkH (py "f.h5") 1 (py "/entry") false /\ d = 1) \/
  (h = mkH (py "f.h5") 2 (py "/entry/zoo") false /\ d = 2) \/ (h = mkH (py "f.h5") 7 (py "/entry/box") false /\ d = 2).
Proof.
  intros h n d Hb. induction Hb as [|h n d name v Hb IH Hsub]; [left; auto|].
  destruct IH as [[-> ->]|[[-> ->]|[[-> ->]|[-> ->]]]].
  - assert (Hn : name = py "entry").
    { destruct Hsub as [o Hl _ _ _|f p Hl _ _ _ _]; apply dget_In in Hl; cbn in Hl; destruct Hl as [Hl|[]]; injection Hl; auto. }
    subst name. destruct Hsub as [o _ Hv _ _|f p Hl _ _ _ _]; [|vm_compute in Hl; discriminate Hl].
    vm_compute in Hv. injection Hv as <-. right. left. auto.
  - right. right.
    assert (Hn : name = py "zoo" \/ name = py "box").
    { destruct Hsub as [o Hl Hv Hg Hnx|f p Hl Hf _ _ _].
      - apply dget_In in Hl. cbn [links_of obj_of get_obj h_file h_oid] in Hl.
        change (In (name, LHard o) [(py "zoo", LHard 2); (py "data", LHard 3); (py "alias", LSoft (py "/entry/data"));
                     (py "ext", LExt (py "gone.h5") (py "/x")); (py "y", LHard 4); (py "box", LHard 7); (py "again", LHard 6)]) in Hl.
        cbn [In] in Hl.
        destruct Hl as [Hl|[Hl|[Hl|[Hl|[Hl|[Hl|[Hl|[]]]]]]]]; try discriminate Hl; injection Hl as <- <-;
          first [left; reflexivity | right; reflexivity
                | exfalso; vm_compute in Hv; injection Hv as <-; vm_compute in Hg; discriminate Hg].
      - exfalso. apply dget_In in Hl.
        change (In (name, LExt f p) [(py "zoo", LHard 2); (py "data", LHard 3); (py "alias", LSoft (py "/entry/data"));
                     (py "ext", LExt (py "gone.h5") (py "/x")); (py "y", LHard 4); (py "box", LHard 7); (py "again", LHard 6)]) in Hl.
        cbn [In] in Hl.
        destruct Hl as [Hl|[Hl|[Hl|[Hl|[Hl|[Hl|[Hl|[]]]]]]]]; try discriminate Hl.
        injection Hl as <- <- <-. vm_compute in Hf. discriminate Hf. }
    destruct Hn as [-> | ->]; destruct Hsub as [o _ Hv _ _|f p Hl _ _ _ _]; try (vm_compute in Hl; discriminate Hl);
      vm_compute in Hv; injection Hv as <-; auto.
  - exfalso. destruct Hsub as [o Hl Hv Hg _|f p Hl _ _ _ _]; apply dget_In in Hl; cbn in Hl; destruct Hl as [Hl|[]]; [|discriminate Hl].
    injection Hl as <- <-. vm_compute in Hv. injection Hv as <-. vm_compute in Hg. discriminate Hg.
  - exfalso. destruct Hsub as [o Hl _ _ _|f p Hl _ _ _ _]; vm_compute in Hl; discriminate Hl.
Qed.

Lemma namesT : distinct_names envT wT (py "f.h5") (title_of tT (py "f.h5")).
Proof.
  intros h n d Hb. apply belowT in Hb as [[-> _]|[[-> _]|[[-> _]|[-> _]]]];
    unfold dkeys; repeat constructor; cbn; intuition discriminate.
Qed.
Lemma belowT_entry : below envT wT (open_root (py "f.h5")) (title_of tT (py "f.h5")) (mkH (py "f.h5") 1 (py "/entry") false) (py "entry") 1.
Proof. eapply bl_sub; [apply bl_root|]. eapply (sub_hard _ _ _ _ _ 1); [..|apply marked_iff]; vm_compute; reflexivity. Qed.

(** ** C60: previews of arrays *)

(** In a report, the line of a one-dimensional numeric array with other than one
    element reads [name:type[n] = [...]] with the preview between the brackets. *)
Theorem C60_line : forall E up w ds fuel t show file ls,
  t_filename t = Some file -> tree_lines E up w ds fuel t show = Ok (Some ls) ->
  distinct_names E w file (title_of t file) -> (2 < t_items t)%Z ->
  forall h n d name v dt els, below E w (open_root file) (title_of t file) h n d -> plain_dataset w h name v ->
  ds v = DOther dt [List.length els] (array1 els) -> List.length els <> 1 ->
  exists r, preview (Z.to_nat (t_items t)) (py "'...'") (map snd els) r /\
    In (mkLine (S d) (BField name (type_text t up dt ++ py "[" ++ str_nat (List.length els) ++ py "] = [" ++ join (py ", ") r ++ py "]"))) ls.
Proof.
  intros E up w ds fuel t show file ls Hf H Hn Hm h n d name v dt els Hb [[o Hl] Hv Hk Ht] Hds Hlen.
  destruct (report_dataset _ _ _ _ _ _ _ _ _ Hf H Hn h n d name o v Hb Hl Hv Hk Ht) as (s & Hs & Hin).
  assert (Hfit : fits [List.length els] (array1 els)).
  { simpl. rewrite map_length. split; auto. apply Forall_map. apply Forall_forall. simpl. auto. }
  destruct (render_nd_text (t_items t) Hm [List.length els] (array1 els) (indent (S (S d)) ++ py "  ")) as (x & Hx & Hax); [discriminate|exact Hfit|].
  assert (Hr : exists r, preview (Z.to_nat (t_items t)) (py "'...'") (map snd els) r /\ x = py "[" ++ join (py ", ") r ++ py "]").
  { inversion Hax as [els' r ind Hp He1 He2|? ? ? ? ? ? [Hc|Hc]|? ? ? ? ? Hc]; subst; try (simpl in Hc; lia).
    exists r. split; auto. assert (map snd els' = map snd els); [|congruence].
    unfold array1 in *. match goal with H : map _ els' = map _ els |- _ => rename H into Hmm end.
    clear - Hmm. revert els Hmm. induction els' as [|a l IH]; intros [|b l2] Hmm; simpl in *; try discriminate; auto.
    injection Hmm as H1 H2 H3. f_equal; auto. }
  destruct Hr as (r & Hp & ->). exists r. split; auto. apply Hin.
  unfold dataset_lines in Hs. rewrite Hds in Hs. cbn [render_type rbind] in Hs.
  unfold render_array in Hs.
  assert (Hgt : (t_items t >? 2)%Z = true) by (apply Z.gtb_lt; lia). rewrite Hgt in Hs. rewrite Hx in Hs. cbn [rbind] in Hs.
  change (Nat.ltb (List.length [List.length els]) 2) with true in Hs. cbn iota in Hs.
  assert (Hs' : Ok [mkLine (S d) (BField name (nx_type up (t_nexus t) dt ++ render_shape [List.length els] ++ py " = " ++ (py "[" ++ join (py ", ") r ++ py "]")))] = Ok s).
  { destruct (List.length els) as [|[|k]]; [exact Hs|congruence|exact Hs]. }
  assert (Hsh : render_shape [List.length els] = py "[" ++ str_nat (List.length els) ++ py "]").
  { unfold render_shape. destruct (List.length els) as [|[|k]]; [reflexivity|congruence|reflexivity]. }
  rewrite Hsh in Hs'. injection Hs' as <-. left. unfold type_text, nx_type. rewrite <- !app_assoc. reflexivity.
Qed.
Print Assumptions C60_line.

Example C60_line_sample : t_filename tT = Some (py "f.h5") /\
  (exists ls, tree_lines envT upT wT dsT 10 tT true = Ok (Some ls)) /\
  distinct_names envT wT (py "f.h5") (title_of tT (py "f.h5")) /\
  below envT wT (open_root (py "f.h5")) (title_of tT (py "f.h5")) (mkH (py "f.h5") 1 (py "/entry") false) (py "entry") 1 /\
  plain_dataset wT (mkH (py "f.h5") 1 (py "/entry") false) (py "data") (mkH (py "f.h5") 3 (py "/entry/data") false) /\
  dsT (mkH (py "f.h5") 3 (py "/entry/data") false) = DOther (py "int64") [List.length elsT] (array1 elsT) /\ List.length elsT = 7.
Proof.
  split; [reflexivity|]. split; [eexists; vm_compute; reflexivity|]. split; [exact namesT|]. split; [exact belowT_entry|].
  split; [|split; reflexivity]. split; try (vm_compute; reflexivity). exists 3. vm_compute. reflexivity.
Qed.

(** What a preview is: at most [m] entries; all the elements if they are not more
    than [m]; otherwise a prefix of [m - 2] elements, the ellipsis and the last. *)
Theorem C60_size : forall m ell l r, 2 < m -> preview m ell l r ->
  List.length r <= m /\ (List.length l <= m -> r = l) /\
  (m < List.length l -> exists final, r = firstn (m - 2) l ++ [ell; final] /\ exists a, l = a ++ [final]).
Proof.
  intros m ell l r Hm [[Hl ->]|(first & mid & fin & -> & Hlen & Hf & ->)].
  - split; [exact Hl|]. split; [auto|lia].
  - rewrite !app_length in *. cbn [List.length] in *. split; [lia|]. split; [lia|]. intros _.
    exists fin. split.
    + f_equal. replace (m - 2) with (List.length first + 0) by lia. rewrite firstn_app_2. simpl. rewrite app_nil_r. reflexivity.
    + exists (first ++ mid). rewrite app_assoc. reflexivity.
Qed.
Print Assumptions C60_size.

Example C60_size_sample : preview 5 (py "'...'") (map snd elsT) [py "10"; py "11"; py "12"; py "'...'"; py "16"].
Proof.
  right. exists [py "10"; py "11"; py "12"], [py "13"; py "14"; py "15"], (py "16"). repeat split; simpl; lia.
Qed.

(** Arrays of two or more dimensions have a line of their own, with a preview of
    rows that are themselves previews. *)
Theorem C60_nested : forall E up w ds fuel t show file ls,
  t_filename t = Some file -> tree_lines E up w ds fuel t show = Ok (Some ls) ->
  distinct_names E w file (title_of t file) -> (2 < t_items t)%Z ->
  forall h n d name v dt shape a, below E w (open_root file) (title_of t file) h n d -> plain_dataset w h name v ->
  ds v = DOther dt shape a -> fits shape a -> 2 <= List.length shape ->
  exists text, array_text (Z.to_nat (t_items t)) shape a (indent (d + 3)) text /\
    In (mkLine (S (S d)) (BArray text)) ls.
Proof.
  intros E up w ds fuel t show file ls Hf H Hn Hm h n d name v dt shape a Hb [[o Hl] Hv Hk Ht] Hds Hfit Hlen.
  destruct (report_dataset _ _ _ _ _ _ _ _ _ Hf H Hn h n d name o v Hb Hl Hv Hk Ht) as (s & Hs & Hin).
  assert (Hind : indent (S (S d)) ++ py "  " = indent (d + 3)).
  { unfold indent. change (py "  ") with (repeat 32%N 2). rewrite <- repeat_app. f_equal. lia. }
  destruct (render_nd_text (t_items t) Hm shape a (indent (S (S d)) ++ py "  ")) as (x & Hx & Hax).
  { intros ->. simpl in Hlen. lia. } { exact Hfit. }
  rewrite Hind in Hax. exists x. split; auto. apply Hin. unfold dataset_lines in Hs. rewrite Hds in Hs. cbn [render_type rbind] in Hs.
  assert (Hgt : (t_items t >? 2)%Z = true) by (apply Z.gtb_lt; lia).
  destruct shape as [|n1 [|n2 shape]]; [simpl in Hlen; lia|simpl in Hlen; lia|].
  unfold render_array in Hs. rewrite Hx, Hgt in Hs. cbn [rbind] in Hs.
  change (Nat.ltb (List.length (n1 :: n2 :: shape)) 2) with false in Hs. cbn iota in Hs.
  destruct n1 as [|[|n1]]; injection Hs as <-; right; left; reflexivity.
Qed.
Print Assumptions C60_nested.

Definition wT2 : world := [(py "g.h5", FHdf5 [mkObj (KGroup [(py "img", LHard 1)]) []; mkObj (KDataset (VArrNum [])) []])].
Definition tT2 : treeview := mkTree (Some (py "g.h5")) false 5.
Example C60_nested_sample :
  tree_report envT upT wT2 dsT 10 tT2 true = Ok (Some
    [py "g.h5"; py "  img:int64[2,2] = __array";
     py "    __array = [" ++ [ch_nl] ++ py "        [1, 2]" ++ [ch_nl] ++ py "        [3, 4]" ++ [ch_nl] ++ py "      ]"]) /\
  plain_dataset wT2 (open_root (py "g.h5")) (py "img") (mkH (py "g.h5") 1 (py "/img") false) /\
  distinct_names envT wT2 (py "g.h5") (title_of tT2 (py "g.h5")).
Proof.
  split; [vm_compute; reflexivity|]. split.
  - split; try (vm_compute; reflexivity). exists 1. vm_compute. reflexivity.
  - intros h n d Hb. assert (h = open_root (py "g.h5")) as ->; [|unfold dkeys; repeat constructor; cbn; intuition discriminate].
    induction Hb as [|h n d name v Hb IH Hsub]; [auto|]. exfalso. subst h.
    destruct Hsub as [o Hl Hv Hg _|f p Hl _ _ _ _]; apply dget_In in Hl; cbn in Hl; destruct Hl as [Hl|[]]; [|discriminate Hl].
    injection Hl as <- <-. vm_compute in Hv. injection Hv as <-. vm_compute in Hg. discriminate Hg.
Qed.

(** ** C61: members of groups *)

(** A line that introduces a member starts with two spaces per level and the name. *)
Theorem C61_text : forall l n, introduces (ln_body l) = Some n ->
  exists rest, text_of l = repeat 32%N (2 * ln_depth l) ++ n ++ rest.
Proof.
  intros [d b] n H. unfold text_of, indent. destruct b; simpl in H; try discriminate; injection H as ->; simpl; eexists; reflexivity.
Qed.
Print Assumptions C61_text.

(** In a report, every group that is shown has one block of lines: its own line and
    below it deeper lines only.  Of these, the lines one step deeper introduce
    every member of the group exactly once: first, in name order, those that are
    not shown as groups, then, in name order, the groups. *)
Theorem C61_members : forall E up w ds fuel t show file ls,
  t_filename t = Some file -> tree_lines E up w ds fuel t show = Ok (Some ls) ->
  distinct_names E w file (title_of t file) ->
  forall h n d, below E w (open_root file) (title_of t file) h n d ->
  exists suffix inside fields groups, block_of ls d n suffix inside /\
    introduced (S d) inside = fields ++ groups /\ Permutation (fields ++ groups) (dkeys (links_of w h)) /\
    in_name_order fields /\ in_name_order groups /\
    (forall x, In x groups -> exists v, subgroup E w h x v) /\ (forall x v, In x fields -> ~ subgroup E w h x v).
Proof. intros. eapply report_members; eauto. Qed.
Print Assumptions C61_members.

Example C61_sample : exists ls, tree_lines envT upT wT dsT 10 tT true = Ok (Some ls) /\
  introduced 2 ls = [py "again"; py "alias"; py "data"; py "ext"; py "y"; py "box"; py "zoo"].
Proof. eexists. split; vm_compute; reflexivity. Qed.

(** ** C62: without attributes *)
Theorem C62_attributes : forall E up w ds fuel t ls,
  tree_lines E up w ds fuel t true = Ok (Some ls) ->
  tree_report E up w ds fuel t true = Ok (Some (map text_of ls)) /\
  tree_report E up w ds fuel t false = Ok (Some (map text_of (filter (fun l => negb (attribute_line l)) ls))).
Proof.
  intros E up w ds fuel t ls H. split; [unfold tree_report; rewrite H; reflexivity|].
  unfold tree_report, tree_lines in *. destruct (t_filename t) as [file|]; [|discriminate].
  destruct (dget file w) as [[f|]|]; try discriminate.
  match type of H with rbind ?x _ = _ => destruct x as [l|] eqn:Eg; [|discriminate] end. cbn [rbind] in H. injection H as <-.
  apply group_strip in Eg. rewrite Eg. reflexivity.
Qed.
Print Assumptions C62_attributes.

(** and an attribute line is a line of the form @name = value *)
Theorem C62_lines : forall l, attribute_line l = true -> exists n v, text_of l = indent (ln_depth l) ++ py "@" ++ n ++ py " = " ++ v.
Proof. intros [d []] H; try discriminate. eexists _, _. reflexivity. Qed.
Print Assumptions C62_lines.

Example C62_sample : exists ls, tree_lines envT upT wT dsT 10 tT true = Ok (Some ls) /\ List.length ls = 16 /\
  tree_report envT upT wT dsT 10 tT false = Ok (Some
   [py "f.h5 : NeXus data file";
    py "  entry:NXentry";
    py "    again --> /entry/y";
    py "    alias: --> /entry/data";
    py "    data:NX_INT64[7] = [10, 11, 12, '...', 16]";
    py "    ext: missing external file";
    py "    y:NX_INT64[] = ";
    py "    box";
    py "    zoo:NXdata";
    py "      one:NX_INT64 = 7"]).
Proof. eexists. split; [vm_compute; reflexivity|]. split; [reflexivity|]. vm_compute. reflexivity. Qed.

(** ** C80: single values *)
Definition shows_single (only : dsview -> Prop) : Prop := forall E up w ds fuel t show file ls,
  t_filename t = Some file -> tree_lines E up w ds fuel t show = Ok (Some ls) ->
  distinct_names E w file (title_of t file) ->
  forall h n d name v s, below E w (open_root file) (title_of t file) h n d -> plain_dataset w h name v ->
  single_value E (ds v) s -> only (ds v) ->
  exists text, In (mkLine (S d) (BField name (text ++ py " = " ++ s))) ls.

(** The property, that the line of a dataset with a single value shows it, is
    false: a numeric scalar is shown without its value. *)
Theorem C80_refuted : ~ shows_single (fun _ => True).
Proof.
  intros H. destruct (tree_lines envT upT wT dsT 10 tT true) as [[ls|]|] eqn:El; [|vm_compute in El; discriminate El|vm_compute in El; discriminate El].
  assert (Hno : forallb (fun l => match ln_body l with BField n t => negb (str_eqb n (py "y") && endswith t (py "7")) | _ => true end) ls = true).
  { vm_compute in El. injection El as <-. vm_compute. reflexivity. }
  destruct (H envT upT wT dsT 10 tT true (py "f.h5") ls eq_refl El namesT
    (mkH (py "f.h5") 1 (py "/entry") false) (py "entry") 1 (py "y") (mkH (py "f.h5") 4 (py "/entry/y") false) (py "7") belowT_entry) as [text Hin].
  - split; try (vm_compute; reflexivity). exists 4. vm_compute. reflexivity.
  - constructor.
  - exact I.
  - rewrite forallb_forall in Hno. specialize (Hno _ Hin). cbn [ln_body] in Hno. rewrite str_eqb_refl in Hno.
    assert (He : endswith (text ++ py " = " ++ py "7") (py "7") = true) by (apply endswith_spec; exists (text ++ py " = "); rewrite app_assoc; reflexivity).
    rewrite He in Hno. discriminate Hno.
Qed.
Print Assumptions C80_refuted.

(** It holds for text and for arrays with one element. *)
Theorem C80_partial : shows_single (fun view => match view with DOther _ [] _ => False | _ => True end).
Proof.
  intros E up w ds fuel t show file ls Hf H Hn h n d name v s Hb [[o Hl] Hv Hk Ht] Hsv Honly.
  destruct (report_dataset _ _ _ _ _ _ _ _ _ Hf H Hn h n d name o v Hb Hl Hv Hk Ht) as (x & Hx & Hin).
  unfold dataset_lines in Hx. inversion Hsv as [b s' Hs He Es|s' He Es|dt s' r He Es|dt s' r He Es]; rewrite <- He in *; try subst s'.
  - cbn [render_type rbind] in Hx. rewrite Hs in Hx. cbn [rbind] in Hx. injection Hx as <-.
    eexists. apply Hin. left. reflexivity.
  - cbn [render_type rbind] in Hx. injection Hx as <-. eexists. apply Hin. left. reflexivity.
  - destruct Honly.
  - cbn [render_type rbind nd_item nth_error nd_str] in Hx. injection Hx as <-. exists (nx_type up (t_nexus t) dt). apply Hin. left. reflexivity.
Qed.
Print Assumptions C80_partial.

Example C80_partial_sample :
  plain_dataset wT (mkH (py "f.h5") 2 (py "/entry/zoo") false) (py "one") (mkH (py "f.h5") 5 (py "/entry/zoo/one") false) /\
  single_value envT (dsT (mkH (py "f.h5") 5 (py "/entry/zoo/one") false)) (py "7").
Proof. split; [|constructor]. split; try (vm_compute; reflexivity). exists 5. vm_compute. reflexivity. Qed.

(** ** C81: which files can be shown *)

(** The property, that report() returns lines for every HDF5 file, is false: of a
    group that is a member of itself it never returns, whatever the recursion limit. *)
Definition wLoop : world := [(py "loop.h5", FHdf5 [mkObj (KGroup [(py "g", LHard 0)]) []])].
Theorem C81_refuted : forall fuel ds show, new_tree envT wLoop (py "loop.h5") = Ok (mkTree (Some (py "loop.h5")) false 5) /\
  tree_report envT upT wLoop ds fuel (mkTree (Some (py "loop.h5")) false 5) show = Exn RecursionError.
Proof.
  intros fuel ds show. split; [vm_compute; reflexivity|]. unfold tree_report, tree_lines. cbn [t_filename t_nexus t_items].
  change (dget (py "loop.h5") wLoop) with (Some (FHdf5 [mkObj (KGroup [(py "g", LHard 0)]) []])). cbn iota.
  assert (H : forall fuel nm b title d md, render_group envT upT wLoop ds false 5 show fuel (mkH (py "loop.h5") 0 nm b) title d md = Exn RecursionError).
  { clear fuel. induction fuel as [|fuel IH]; intros nm b title d md; [reflexivity|]. cbn [render_group].
    change (class_suffix envT wLoop (mkH (py "loop.h5") 0 nm b)) with (@Ok pystr []). cbn [rbind].
    assert (Ha : exists a, render_attributes envT wLoop show (mkH (py "loop.h5") 0 nm b) d (link_extra md) = Ok a).
    { unfold render_attributes. destruct show; [|eauto]. destruct md; cbn; eauto. }
    destruct Ha as [a ->]. cbn [rbind].
    change (sorted_items (links_of wLoop (mkH (py "loop.h5") 0 nm b))) with [(py "g", LHard 0)]. cbn [traverse].
    assert (Hm : render_member envT upT wLoop ds false 5 show (mkH (py "loop.h5") 0 nm b) (S d) (py "g", LHard 0)
                 = Ok (Later (mkH (py "loop.h5") 0 (child_path nm (py "g")) false) (py "g") (LHard 0))) by reflexivity.
    rewrite Hm. cbn [rbind map later_of List.concat app traverse fst snd]. rewrite IH. reflexivity. }
  unfold open_root. rewrite H. reflexivity.
Qed.
Print Assumptions C81_refuted.

(** It holds for files whose groups can be shown one by one and are nested less
    deep than the recursion limit. *)
Theorem C81_partial : forall E up w ds fuel t show file f,
  t_filename t = Some file -> dget file w = Some (FHdf5 f) ->
  (forall h n d, below E w (open_root file) (title_of t file) h n d -> showable_group E w ds h /\ d < fuel) ->
  exists text, tree_report E up w ds fuel t show = Ok (Some text).
Proof.
  intros E up w ds fuel t show file f Hf Hw H.
  destruct (group_total E up w ds (t_nexus t) (t_items t) show (open_root file) (title_of t file) fuel
    (fun h n d Hb => proj1 (H h n d Hb)) fuel (fun h n d Hb => proj2 (H h n d Hb)) (open_root file) (title_of t file) 0 (LHard 0)) as [ls Hls];
    [apply bl_root|lia|].
  exists (map text_of ls). unfold tree_report, tree_lines. rewrite Hf, Hw. unfold title_of in Hls. rewrite Hls. reflexivity.
Qed.
Print Assumptions C81_partial.

Example C81_partial_sample : forall h n d, below envT wT (open_root (py "f.h5")) (title_of tT (py "f.h5")) h n d ->
  showable_group envT wT dsT h /\ d < 10.
Proof.
  intros h n d Hb. pose proof (namesT h n d Hb) as Hn.
  apply belowT in Hb as [[-> ->]|[[-> ->]|[[-> ->]|[-> ->]]]]; (split; [|lia]); (split; [vm_compute; auto| |exact Hn|]);
    try (repeat constructor; simpl; eexists; (split; [reflexivity|discriminate])).
  - intros name l Hl. apply dget_In in Hl. change (In (name, l) [(py "entry", LHard 1)]) in Hl. destruct Hl as [Hl|[]]. injection Hl as <- <-.
    eexists. split; [vm_compute; reflexivity|]. split; [exists false; apply marked_iff; vm_compute; reflexivity|]. split; [|left; vm_compute; reflexivity].
    repeat constructor; simpl; eexists; (split; [reflexivity|discriminate]).
  - intros name l Hl. apply dget_In in Hl. change (In (name, l) [(py "zoo", LHard 2); (py "data", LHard 3); (py "alias", LSoft (py "/entry/data"));
                     (py "ext", LExt (py "gone.h5") (py "/x")); (py "y", LHard 4); (py "box", LHard 7); (py "again", LHard 6)]) in Hl.
    destruct Hl as [Hl|[Hl|[Hl|[Hl|[Hl|[Hl|[Hl|[]]]]]]]]; injection Hl as <- <-; try exact I;
      try (intros Hc; vm_compute in Hc; discriminate Hc);
      (eexists; split; [vm_compute; reflexivity|]; split; [eexists; apply marked_iff; vm_compute; reflexivity|];
       split; [repeat constructor; simpl; eexists; (split; [reflexivity|discriminate])|]).
    + left. vm_compute. reflexivity.
    + right. split; [vm_compute; reflexivity|]. vm_compute. split; [reflexivity|]. repeat constructor.
    + right. split; [vm_compute; reflexivity|]. vm_compute. exact I.
    + left. vm_compute. reflexivity.
    + right. split; [vm_compute; reflexivity|]. vm_compute. split; [reflexivity|]. repeat constructor.
  - intros name l Hl. apply dget_In in Hl. change (In (name, l) [(py "one", LHard 5)]) in Hl. destruct Hl as [Hl|[]]. injection Hl as <- <-.
    eexists. split; [vm_compute; reflexivity|]. split; [exists false; apply marked_iff; vm_compute; reflexivity|]. split; [constructor|].
    right. split; [vm_compute; reflexivity|]. vm_compute. split; [reflexivity|]. repeat constructor.
  - intros name l Hl. vm_compute in Hl. discriminate Hl.
Qed.
