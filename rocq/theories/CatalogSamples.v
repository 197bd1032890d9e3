(** * Catalogues of concrete files, and the properties as stated *)

From Coq Require Import List NArith ZArith Bool String Lia.
From Verif Require Import PyBase PyFacts H5 Findings Nxdl Core Catalog GroupChecks Validate Trace Samples CatalogFacts Spec_Run Spec_Catalog
  PathFacts CatalogRun AddressFacts CatalogEnd CatalogTerm AddrRecord NameSamples.
Import ListNotations.

(** ** Files *)
(** a group that contains itself under the name "again" *)
Definition cyclic_file : h5file :=
  [ grp [("entry"%string, 1)] [];
    grp [("again"%string, 1)] [("NX_class"%string, str "NXentry")] ].

(** a soft link whose target is missing *)
Definition dangling_file : h5file :=
  [ grp [("entry"%string, 1)] [];
    mkObj (KGroup [(py "gone", LSoft (py "/nowhere"))]) (ats [("NX_class"%string, str "NXentry")]) ].

(** soft links, absolute and relative, and a shared object *)
Definition soft_file : h5file :=
  [ grp [("entry"%string, 1)] [];
    mkObj (KGroup [(py "data", LHard 2); (py "there", LSoft (py "/entry/data")); (py "here", LSoft (py "data/x"))]) (ats [("NX_class"%string, str "NXentry")]);
    grp [("x"%string, 3); ("y"%string, 3)] [("NX_class"%string, str "NXdata")];
    ds (VInt 1) [("units"%string, str "mm")] ].

(** a field called "a@b" beside a field "a" with an attribute "b" *)
Definition at_file : h5file :=
  [ grp [("entry"%string, 1)] [];
    grp [("a"%string, 2); ("a@b"%string, 3)] [("NX_class"%string, str "NXentry")];
    ds (VInt 1) [("b"%string, VInt 7)];
    ds (VInt 2) [] ].

(** a class path that ends in a slash *)
Definition slash_file : h5file :=
  [ grp [("entry"%string, 1)] [];
    grp [("sub"%string, 2)] [("NX_class"%string, str "NXentry/")];
    grp [] [("NX_class"%string, str "NXdata")] ].

Definition reclimit30 : setup := mkSetup env0 pats0 30 (Some 0%Z).

(** ** Deciding the conditions for concrete files *)
Definition all_members (f : h5file) : list (pystr * link) := flat_map (fun ob => match ob_kind ob with KGroup l => l | _ => [] end) f.

Lemma members_all : forall f o n l, In (n, l) (members f o) -> In (n, l) (all_members f).
Proof.
  intros f o n l H. unfold members in H. destruct (nth_error f o) as [ob|] eqn:E; [|destruct H].
  apply in_flat_map. exists ob. split; [eapply nth_error_In; eauto|]. destruct (ob_kind ob); auto.
Qed.

Definition link_nameb (n : pystr) : bool := negb (str_eqb n []) && negb (has_char 47%N n) && negb (str_eqb n [46%N]).
Lemma link_nameb_ok : forall n, link_nameb n = true -> link_name n.
Proof.
  intros n H. unfold link_nameb in H. apply andb_true_iff in H as [H H3]. apply andb_true_iff in H as [H1 H2].
  rewrite negb_true_iff in *. apply str_eqb_neq in H1. apply has_char_false in H2. apply str_eqb_neq in H3. split; auto.
Qed.

Definition plainb (f : h5file) : bool :=
  forallb (fun nl => link_nameb (fst nl) && match snd nl with LExt _ _ => false | _ => true end) (all_members f).
Lemma plainb_ok : forall f, plainb f = true -> plain_file f.
Proof.
  intros f H o n l Hin. apply members_all in Hin. unfold plainb in H. rewrite forallb_forall in H. apply H in Hin. simpl in Hin.
  apply andb_true_iff in Hin as [H1 H2]. split; [apply link_nameb_ok; auto|]. intros file path ->. discriminate.
Qed.

Definition no_atb (f : h5file) : bool := forallb (fun nl => negb (has_char 64%N (fst nl))) (all_members f).
Lemma no_atb_ok : forall f, no_atb f = true -> no_at_names f.
Proof.
  intros f H o n l Hin. apply members_all in Hin. unfold no_atb in H. rewrite forallb_forall in H. apply H in Hin. simpl in Hin.
  rewrite negb_true_iff in Hin. apply has_char_false. auto.
Qed.

Fixpoint nodupb (l : list pystr) : bool := match l with [] => true | x :: l' => negb (existsb (str_eqb x) l') && nodupb l' end.
Lemma nodupb_ok : forall l, nodupb l = true -> NoDup l.
Proof.
  induction l as [|x l IH]; intros H; [constructor|]. simpl in H. apply andb_true_iff in H as [H1 H2]. constructor; auto.
  rewrite negb_true_iff in H1. intros Hin. assert (X : existsb (str_eqb x) l = true) by (apply existsb_exists; exists x; split; auto; apply str_eqb_refl).
  congruence.
Qed.

Definition distinctb (f : h5file) : bool :=
  forallb (fun ob => nodupb (map fst (ob_attrs ob)) && match ob_kind ob with KGroup l => nodupb (map fst l) | _ => true end) f.
Lemma distinctb_ok : forall f, distinctb f = true -> distinct_names f.
Proof.
  intros f H o. unfold distinctb in H. rewrite forallb_forall in H. unfold members, attributes.
  destruct (nth_error f o) as [ob|] eqn:E; [|split; constructor]. apply nth_error_In in E. apply H in E.
  apply andb_true_iff in E as [H1 H2]. split; [|apply nodupb_ok; auto]. destruct (ob_kind ob); [apply nodupb_ok; auto|constructor|constructor].
Qed.

Definition rankedb (f : h5file) (rank : nat -> nat) : bool :=
  forallb (fun o => forallb (fun nl => link_nameb (fst nl) && match snd nl with LHard o' => (o' <? List.length f)%nat && (rank o' <? rank o)%nat | _ => false end) (members f o))
    (seq 0 (List.length f)).
Lemma rankedb_ok : forall f rank, rankedb f rank = true -> hard_ranked f rank.
Proof.
  intros f rank H o n l Hin. unfold rankedb in H. rewrite forallb_forall in H.
  assert (Ho : In o (seq 0 (List.length f))).
  { unfold members in Hin. destruct (nth_error f o) as [ob|] eqn:E; [|destruct Hin]. apply in_seq. simpl. split; [lia|]. apply nth_error_Some. congruence. }
  apply H in Ho. rewrite forallb_forall in Ho. apply Ho in Hin. cbn [fst snd] in Hin. apply andb_true_iff in Hin as [H1 H2]. split; [apply link_nameb_ok; auto|].
  destruct l as [o'| |]; try discriminate. apply andb_true_iff in H2 as [H2 H3]. apply Nat.ltb_lt in H2. apply Nat.ltb_lt in H3. eauto.
Qed.

Definition textsb (E : env) (v : pyval) : bool := match decode_byte_string E v with Ok (VStr _) | Ok (VList _) => true | _ => false end.
Definition describedb (E : env) (f : h5file) : bool :=
  forallb (fun ob => forallb (fun kv => if str_eqb (fst kv) (py "NX_class") || str_eqb (fst kv) (py "target") then textsb E (snd kv) else true) (ob_attrs ob)) f.

Definition one_file (w : world) : Prop := exists fname f, w = [(fname, FHdf5 f)].

Lemma describedb_ok : forall E f file, describedb E f = true -> described E [(file, FHdf5 f)] file.
Proof.
  intros E f file H h k v _ Hk Hn. unfold describedb in H. rewrite forallb_forall in H.
  unfold attrs_of, obj_of, get_obj in Hk. destruct (dget (h_file h) [(file, FHdf5 f)]) as [[f'| ]| ] eqn:Ef; try (destruct Hk; fail).
  assert (f' = f). { unfold dget in Ef. simpl in Ef. destruct (str_eqb (h_file h) file); congruence. } subst f'.
  destruct (nth_error f (h_oid h)) as [ob|] eqn:Eo; [|destruct Hk]. apply nth_error_In in Eo. apply H in Eo.
  rewrite forallb_forall in Eo. apply Eo in Hk. cbn [fst snd] in Hk.
  assert (X : str_eqb k (py "NX_class") || str_eqb k (py "target") = true) by (destruct Hn as [-> | ->]; [rewrite str_eqb_refl; auto|rewrite (str_eqb_refl (py "target")); apply orb_true_r]).
  rewrite X in Hk. unfold textsb in Hk. unfold texts. destruct (decode_byte_string E v) as [[]|]; try discriminate; eauto.
Qed.

(** ** The catalogue of paths, exactly *)
Lemma paths_exact : forall u w v fname v' r f, dget fname w = Some (FHdf5 f) -> validate u w v fname = (v', r) -> catalogued v' r ->
  plain_file f -> distinct_names f -> no_at_names f ->
  forall a o, (exists i it h, In (Some a, i) (st_addr (v_st v')) /\ nth_error (st_items (v_st v')) i = Some it /\ it_obj it = ONode h /\ h_oid h = o)
    <-> exists p, leads f 0 p o /\ a = path_text p.
Proof.
  intros u w v fname v' r f Hf Hv Hc Hp Hd Hn a o. split.
  - intros [i [it [h [H1 [H2 [H3 H4]]]]]]. destruct (keys_sound _ _ _ _ _ _ _ Hf Hv Hp _ _ H1) as [it' [p [o' [K1 [K2 [K3 [K4 K5]]]]]]].
    assert (it' = it) by congruence. subst it'. destruct K5 as [[h' [B1 [B2 [B3 B4]]]]|[k [val [B1 _]]]]; [|congruence].
    exists p. split; auto. assert (h' = h) by congruence. subst. auto.
  - intros [p [H1 ->]]. destruct (paths_catalogued _ _ _ _ _ _ _ Hf Hv Hp Hc _ _ H1) as [i [it [h [L [Ho [Hoid [_ [Ha _]]]]]]]].
    destruct (addr_unique _ _ _ _ _ _ _ Hf Hv Hp Hd Hn _ _ _ L Ha) as [Hin _].
    exists i, it, h. split; auto. split; [apply L|]. auto.
Qed.

(** ** Completing *)
Lemma cataloguing_completes : forall u w v fname v' r f, dget fname w = Some (FHdf5 f) -> validate u w v fname = (v', r) ->
  all_open w fname -> shallow w fname (u_reclimit u) -> described (u_env u) w fname ->
  exists s, build_address_catalog (mk_ctx u w fname) (fresh_state (st_classes (v_st v))) = (s, Ok tt)
    /\ st_addr (v_st v') = st_addr s /\ st_cp (v_st v') = st_cp s.
Proof.
  intros u w v fname v' r f Hf Hv H1 H2 H3. destruct (validate_trace _ _ _ _ _ _ _ Hf Hv) as [s1 [rb [log [Eb [T _]]]]].
  destruct (build_completes (mk_ctx u w fname) fname eq_refl H1 H3 (st_classes (v_st v)) H2) as [s Hs].
  exists s. split; auto. rewrite Hs in Eb. inversion Eb; subst. split; [apply (tr_addr _ _ _ T)|apply (tr_cp _ _ _ T)].
Qed.

Lemma hard_links_complete : forall u w fname f rank cl, dget fname w = Some (FHdf5 f) -> hard_ranked f rank -> rank 0 < u_reclimit u -> described (u_env u) w fname ->
  exists s, build_address_catalog (mk_ctx u w fname) (fresh_state cl) = (s, Ok tt).
Proof.
  intros u w fname f rank cl Hf Hr Hl Hd. destruct (hard_conditions w fname f rank Hf Hr (u_reclimit u) Hl) as [A B].
  apply (build_completes (mk_ctx u w fname) fname eq_refl A Hd cl B).
Qed.

Lemma completes_needs : forall u w v fname v' r f, dget fname w = Some (FHdf5 f) -> validate u w v fname = (v', r) -> catalogued v' r ->
  all_open w fname /\ shallow w fname (u_reclimit u) /\ ~ endless w fname.
Proof.
  intros u w v fname v' r f Hf Hv Hc. destruct (validate_trace _ _ _ _ _ _ _ Hf Hv) as [s1 [rb [log [Eb [T _]]]]].
  pose proof (catalogued_ok _ _ _ _ _ _ _ Hf Hv _ _ Eb Hc) as ->.
  apply (build_ok_conditions (mk_ctx u w fname) _ _ fname eq_refl Eb).
Qed.

(** a cycle: a group with a member (of any name) that is one of the groups it is in *)
Lemma chain_trans : forall w k g h, chain w k g h -> forall k' h', chain w k' h h' -> chain w (k + k') g h'.
Proof. induction 1; intros; simpl; auto. econstructor; eauto. Qed.

Lemma cyclic_endless : endless (world_of cyclic_file) fn.
Proof.
  assert (Z : forall k p, exists h, chain (world_of cyclic_file) k (mkH fn 1 p false) h).
  { induction k as [|k IH]; intros p; [eexists; constructor|].
    destruct (IH (child_path p (py "again"))) as [h Hh]. exists h. eapply ch_cons with (n := py "again"); [|exact Hh]. split; [vm_compute; auto|reflexivity]. }
  intros [|k]; [eexists; constructor|].
  destruct (Z k (py "/entry")) as [h Hh]. exists h. eapply ch_cons with (n := py "entry"); [|exact Hh]. split; vm_compute; auto.
Qed.

(** ** Class paths of groups *)
Lemma group_class_defined : forall u w v fname v' r f, dget fname w = Some (FHdf5 f) -> validate u w v fname = (v', r) ->
  forall i it h, listed v' i it -> it_obj it = ONode h -> (isHdf5Group w h = true \/ h = open_root fname) ->
  it_cp it <> non_nexus -> group_class it <> Exn ValueError.
Proof.
  intros u w v fname v' r f Hf Hv i it h L Ho Hg Hn. unfold group_class.
  destruct (final_group_class _ _ _ _ _ _ _ Hf Hv _ _ _ L Ho Hg) as [H|[[t H]|H]]; [| |contradiction].
  - rewrite H. discriminate.
  - destruct (startswith (it_cp it) (py "/NX")) eqn:E.
    + unfold need_text. destruct (it_nxclass it); discriminate.
    + exfalso. assert (X : startswith (it_cp it) (py "/NX") = true) by (apply startswith_spec; exists t; auto). congruence.
Qed.

(** ** Non-NeXus content *)
Lemma non_nexus_all : forall u w v fname v' r f, dget fname w = Some (FHdf5 f) -> validate u w v fname = (v', r) -> plain_file f ->
  forall i it h p, listed v' i it -> it_obj it = ONode h -> Forall link_name p -> it_addr it = Some (path_text p) -> it_cp it = non_nexus ->
  forall j jt h' q, listed v' j jt -> it_obj jt = ONode h' -> Forall link_name (p ++ q) -> it_addr jt = Some (path_text (p ++ q)) ->
  it_cp jt = non_nexus /\
  forall k kt val, listed v' k kt -> it_parent kt = Some j -> it_obj kt = OVal val -> it_cp kt = non_nexus /\ it_addr kt = None /\ it_vals kt = [].
Proof.
  intros u w v fname v' r f Hf Hv Hp i it h p L Ho Hn Ha Hc j jt h' q Lj Hj Hq Hb.
  destruct (final_non_nexus _ _ _ _ _ _ _ Hf Hv Hp _ _ _ _ L Ho Hn Ha Hc _ _ _ _ Lj Hj Hq Hb) as [A B]. split; auto.
  intros k kt val Lk Hk Hkv. destruct (B k kt Lk Hk (ex_intro _ _ Hkv)) as [C D]. split; auto. split; auto.
  eapply no_addr_no_findings; eauto.
Qed.

Lemma outcome : forall u w v fname e, snd (validate u w v fname) = Exn e -> exists v', validate u w v fname = (v', Exn e).
Proof. intros u w v fname e H. exists (fst (validate u w v fname)). rewrite <- H. apply surjective_pairing. Qed.
