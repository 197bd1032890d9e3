(** * Facts about the program with the files of its caches *)

From Coq Require Import List NArith ZArith Bool String Lia Permutation.
From Verif Require Import PyBase PyFacts H5 Nxdl NxdlLoad NxdlFacts SchemaMgr NxdlSchema Core Validate Cache Spec_FileSets CacheSetFacts
  Install Spec_Install InstallFacts InstallEnd InstallSafe InfoFile Spec_Info InfoFacts Session Cli CliFacts Spec_Cli Main Whole
  Spec_Nxdl Spec_Session Spec_Whole.
Import ListNotations.
Open Scope string_scope.
Open Scope list_scope.

(** ** Paths *)
Lemma below_self : forall d, below d d = Some [].
Proof. intros d. unfold below. rewrite str_eqb_refl. reflexivity. Qed.

Lemma below_join : forall d q, q <> [] -> Forall (fun w => ~ In 47%N w) q -> below d (d ++ py "/" ++ join (py "/") q) = Some q.
Proof.
  intros d q Nq F. unfold below. destruct (str_eqb_spec (d ++ py "/" ++ join (py "/") q) d) as [E | _].
  { apply (f_equal (@List.length N)) in E. rewrite !app_length in E. change (List.length (py "/")) with 1 in E. lia. }
  assert (Sw : startswith (d ++ py "/" ++ join (py "/") q) (d ++ [ch_slash]) = true).
  { apply startswith_spec. exists (join (py "/") q). rewrite <- app_assoc. reflexivity. }
  rewrite Sw. f_equal.
  replace (skipn (S (List.length d)) (d ++ py "/" ++ join (py "/") q)) with (join (py "/") q).
  - apply InstallFacts.split_join; auto.
  - clear. induction d; [reflexivity|]. exact IHd.
Qed.

Lemma below_one : forall d n, ~ In 47%N n -> below d (d ++ py "/" ++ n) = Some [n].
Proof. intros d n H. apply (below_join d [n]); [discriminate | repeat constructor; exact H]. Qed.
Lemma below_two : forall d a b, ~ In 47%N a -> ~ In 47%N b -> below d (d ++ py "/" ++ a ++ py "/" ++ b) = Some [a; b].
Proof. intros d a b A B. apply (below_join d [a; b]); [discriminate | repeat constructor; auto]. Qed.

(** a path that does not end in a slash *)
Definition open_ended (p : pystr) : Prop := p <> [] /\ ~ exists a, p = a ++ py "/".
Lemma join_plain : forall p b, open_ended p -> path_join p b = p ++ py "/" ++ b.
Proof.
  intros p b [N S]. unfold path_join. destruct (str_eqb_spec p []) as [-> | _]; [congruence|].
  destruct (endswith p [ch_slash]) eqn:E; [|reflexivity]. apply endswith_spec in E. destruct S. exact E.
Qed.
Lemma open_ended_below : forall d n, n <> [] -> ~ In 47%N n -> open_ended (d ++ py "/" ++ n).
Proof.
  intros d n N S. split; [destruct d; discriminate|]. intros (a & E).
  rewrite app_assoc in E. destruct (exists_last N) as (n' & c & ->). rewrite app_assoc in E.
  apply app_inj_tail in E as [_ E]. apply S. apply in_or_app. right. left. exact E.
Qed.

(** ** New paths *)
Lemma tput_new : forall p t e e', tput p t e = Some e' -> (t = TDir [] \/ exists c, t = TFile c) ->
  forall q u, tget q e' = Some u -> tget q e <> None \/ q = p.
Proof.
  induction p as [|n p IH]; intros t e e' T L q u G; [discriminate|]. destruct q as [|m q]; [left; discriminate|].
  destruct p as [|n' p'].
  - cbn [tput] in T. injection T as <-. rewrite tget_cons, dget_dset in G. destruct (str_eqb_spec m n) as [-> | Nm].
    + destruct q as [|x q]; [auto|]. destruct L as [-> | (c & ->)]; discriminate.
    + left. rewrite tget_cons. rewrite G. discriminate.
  - rewrite tput_cons in T by discriminate. destruct (dget n e) as [[c|e1]|] eqn:D; try discriminate.
    destruct (tput (n' :: p') t e1) as [e2|] eqn:T2; [|discriminate]. injection T as <-.
    rewrite tget_cons, dget_dset in G. rewrite tget_cons. destruct (str_eqb_spec m n) as [-> | Nm]; [|left; rewrite G; discriminate].
    rewrite D. destruct q as [|x q]; [left; discriminate|]. cbn [tsub] in *. destruct (IH _ _ _ T2 L _ _ G) as [X | ->]; auto.
Qed.

Section New.
  Variables (z : archive) (top name : pystr) (e : entries).
  Hypothesis PA : plain_archive z top name.

  Definition on_the_way (p : list pystr) : Prop :=
    exists m rest, In m (z_members z) /\ definition_file top (m_name m) /\ destination m (p ++ rest).
  Definition new_only (a b : entries) : Prop := forall p t, tget p b = Some t -> tget p a <> None \/ on_the_way p.

  Lemma new_refl : forall a, new_only a a.
  Proof. intros a p t G. left. rewrite G. discriminate. Qed.
  Lemma new_trans : forall a b c, new_only a b -> new_only b c -> new_only a c.
  Proof. intros a b c H1 H2 p t G. destruct (H2 p t G) as [X | X]; auto. destruct (tget p b) as [u|] eqn:B; [|congruence]. eauto. Qed.

  Lemma extracted_new : forall e1, extracted z top e e1 -> new_only e e1.
  Proof.
    intros e1 (l & c & X).
    assert (K : keeps new_only (extract_all z top 0 (z_members z))).
    { apply keeps_extract_all; [apply new_refl | apply new_trans|]. intros m I D. apply (extr z top name PA) in D. split.
      - intros q x a b E _ T _ p t G. destruct (tput_new _ _ _ _ T (or_introl eq_refl) _ _ G) as [Y | ->]; auto.
        right. exists m, x. split; auto. split; auto. apply destination_spec. exact E.
      - intros c' a b _ T _ p t G. destruct (tput_new _ _ _ _ T (or_intror (ex_intro _ c' eq_refl)) _ _ G) as [Y | ->]; auto.
        right. exists m, []. split; auto. split; auto. apply destination_spec. rewrite app_nil_r. reflexivity. }
    specialize (K e). rewrite X in K. apply K.
  Qed.

  Lemma installed_new : forall s, installed z top name e s -> dget top e = None -> exists es, dget name s = Some (TDir es)
    /\ forall p t, tget p es = Some t -> p = [] \/ p = [INFO_FILE_NAME] \/ on_the_way (top :: p).
  Proof.
    intros s [e1 text e2 e3 t s' X Z W D GT GN ->] NT. rewrite (e3_top z top name PA _ _ D) in GT.
    destruct W as (sub & G & Di & ->). rewrite dget_dset_same in GT. injection GT as <-.
    eexists. split; [apply dget_dset_same|]. intros p t G'. destruct p as [|x p]; [auto|]. right.
    rewrite tget_cons, dget_dset in G'. destruct (str_eqb_spec x INFO_FILE_NAME) as [-> | N].
    - left. destruct p; [reflexivity | discriminate].
    - right. destruct (extracted_new _ X (top :: x :: p) t) as [Y | Y]; auto.
      + rewrite tget_cons, G. cbn [tsub]. rewrite tget_cons. exact G'.
      + rewrite tget_cons, NT in Y. congruence.
  Qed.
End New.

(** ** The files of an installed file set *)
Lemma tget_app : forall p q e sub, tget p e = Some (TDir sub) -> tget (p ++ q) e = tget q sub.
Proof.
  induction p as [|n p IH]; intros q e sub G; [cbn [tget] in G; injection G as <-; reflexivity|].
  change ((n :: p) ++ q) with (n :: (p ++ q)). rewrite tget_cons in *. destruct (dget n e) as [t|]; [|discriminate].
  destruct p as [|m p].
  - cbn [tsub app] in *. injection G as ->. destruct q; reflexivity.
  - destruct t as [c|e']; [discriminate|]. cbn [tsub] in G. exact (IH q e' sub G).
Qed.

Lemma listed_get : forall n (es : entries), In n (map fst es) -> exists t, dget n es = Some t.
Proof. intros n es I. destruct (dget n es) as [t|] eqn:G; [eauto|]. apply dget_None in G. contradiction. Qed.

Lemma destination_safe : forall m p c, destination m p -> In c p -> safe_name c.
Proof. intros m p c D I. apply destination_spec in D. pose proof (safe_parts_safe (m_name m)) as F. rewrite D in F. rewrite Forall_forall in F. auto. Qed.

Section Files.
  Variables (L : lxml) (z : archive) (top path : pystr) (es : entries) (nx ty : option (list lnode)) (text : pystr).
  Hypothesis T : tidy_archive z top.
  Hypothesis P : open_ended path.
  Hypothesis N : forall p t, tget p es = Some t -> p = [] \/ p = [INFO_FILE_NAME] \/ on_the_way z top (top :: p).
  Hypothesis F : forall p c, file_at p es = Some c <-> p = [py "__github_info__.json"] /\ c = text \/ provides z top (top :: p) c.

  Let D := files_of L es path nx ty.

  (** what is listed *)
  Lemma listed : forall p names n, sd_ls D p = Some (FSDir names) -> In n names ->
    n = INFO_FILE_NAME \/ exists q, on_the_way z top (top :: q ++ [n]).
  Proof.
    intros p names n H I. unfold D, files_of in H. cbn [sd_ls] in H. destruct (below path p) as [q|]; [|discriminate].
    destruct (tget q es) as [[c|sub]|] eqn:G; cbn [option_map node_of] in H; try discriminate. injection H as <-.
    destruct (listed_get _ _ I) as (t & Gt).
    assert (G' : tget (q ++ [n]) es = Some t). { rewrite (tget_app _ _ _ _ G), tget_cons, Gt. reflexivity. }
    destruct (N _ _ G') as [X | [X | X]].
    - apply app_eq_nil in X as [_ X]. discriminate.
    - apply (app_inj_tail q []) in X as [_ ->]. auto.
    - right. exists q. exact X.
  Qed.

  Lemma files_ordinary : ordinary_names D.
  Proof.
    split.
    - intros p names n H I. destruct (listed _ _ _ H I) as [-> | (q & m & rest & Im & Dm & Em)].
      + vm_compute. intuition discriminate.
      + apply (destination_safe _ _ n Em). right. apply in_or_app. left. apply in_or_app. right. left. reflexivity.
    - intros p names base H I. destruct (listed _ _ _ H I) as [E | (q & m & rest & Im & Dm & Em)].
      + exfalso. assert (X : endswith INFO_FILE_NAME (py ".nxdl.xml") = true) by (apply endswith_spec; exists base; symmetry; exact E).
        vm_compute in X. discriminate.
      + apply (ta_names _ _ T m _ _ Im Dm Em). right. apply in_or_app. left. apply in_or_app. right. left. reflexivity.
  Qed.

  Lemma ls_category : forall cat, ~ In 47%N cat -> sd_ls D (path_join path cat) = option_map node_of (tget [cat] es).
  Proof. intros cat S. rewrite join_plain by exact P. unfold D, files_of. cbn [sd_ls]. rewrite below_one by exact S. reflexivity. Qed.

  Lemma category_plain : forall cat, In cat categories -> ~ In 47%N cat.
  Proof. intros cat I. destruct I as [<- | [<- | [<- | []]]]; vm_compute; intuition discriminate. Qed.
  Lemma category_joins : forall cat, In cat categories -> open_ended (path_join path cat) /\ path_join path cat = path ++ py "/" ++ cat.
  Proof.
    intros cat I. rewrite join_plain by exact P. split; auto.
    apply open_ended_below; [|apply category_plain, I]. destruct I as [<- | [<- | [<- | []]]]; discriminate.
  Qed.

  Lemma file_class : forall cat cls data root, In cat categories -> provides z top [top; cat; cls ++ py ".nxdl.xml"] data -> lx_nxdl L data = Some root ->
    defines (sd_ls D) path cat cls /\ sd_content D (class_file path cat cls) = Some root.
  Proof.
    intros cat cls data root I Hp R. assert (A : file_at [cat; cls ++ py ".nxdl.xml"] es = Some data) by (apply F; auto).
    assert (S : safe_name (cls ++ py ".nxdl.xml")).
    { destruct Hp as (a & m & b & _ & _ & Dm & _). apply (destination_safe _ _ _ Dm). simpl. auto. }
    destruct (category_joins cat I) as [O J]. unfold file_at in A. rewrite tget_cons in A. destruct (dget cat es) as [[c|sub]|] eqn:G; try discriminate.
    cbn [tsub] in A. rewrite tget_cons in A. destruct (dget (cls ++ py ".nxdl.xml") sub) as [t|] eqn:G2; [|discriminate]. cbn [tsub] in A.
    split.
    - exists (map fst sub), cls. split.
      + rewrite ls_category by (apply category_plain, I). rewrite tget_cons, G. reflexivity.
      + split; [|reflexivity]. apply dget_In in G2. apply (in_map fst) in G2. exact G2.
    - unfold class_file. rewrite join_plain by exact O. rewrite J, <- !app_assoc.
      unfold D, files_of. cbn [sd_content]. rewrite below_two; [|apply category_plain, I | apply S].
      rewrite tget_cons, G. cbn [tsub]. rewrite tget_cons, G2. cbn [tsub]. destruct t as [c|]; [|discriminate]. injection A as ->. exact R.
  Qed.

  Lemma no_class : forall cat cls, In cat categories -> (forall m rest, In m (z_members z) -> definition_file top (m_name m) ->
      ~ destination m (top :: cat :: (cls ++ py ".nxdl.xml") :: rest)) -> ~ defines (sd_ls D) path cat cls.
  Proof.
    intros cat cls I H (names & base & A & B & C). unfold class_file in C. apply path_join_inj in C. rewrite <- C in B. clear C base.
    rewrite ls_category in A by (apply category_plain, I). rewrite tget_cons in A. destruct (dget cat es) as [[c|sub]|] eqn:G; try discriminate.
    cbn [tsub option_map node_of] in A. injection A as <-. destruct (listed_get _ _ B) as (t & Gt).
    destruct (N [cat; cls ++ py ".nxdl.xml"] t) as [X | [X | (m & rest & Im & Dm & Em)]]; try discriminate.
    - rewrite tget_cons, G. cbn [tsub]. rewrite tget_cons, Gt. reflexivity.
    - exact (H _ _ Im Dm Em).
  Qed.

  Lemma installed_class : forall cat cls data root, archive_nxdl z top cat cls data -> lx_nxdl L data = Some root -> class_nxdl D path cat cls root.
  Proof.
    intros cat cls data root (early & late & E & Hp & H) R.
    assert (I : In cat categories) by (change categories with [py "base_classes"; py "applications"; py "contributed_definitions"]; rewrite E; apply in_or_app; right; left; reflexivity).
    destruct (file_class cat cls data root I Hp R) as [A B]. exists early, late. split; [exact E|]. split; [exact A|]. split; [|exact B].
    intros c Ic. apply no_class; [|intros m rest; apply (H c m rest Ic)].
    change categories with [py "base_classes"; py "applications"; py "contributed_definitions"]. rewrite E. apply in_or_app. right. right. exact Ic.
  Qed.

  Lemma installed_no_class : forall cls, no_archive_nxdl z top cls -> no_class_nxdl D path cls.
  Proof. intros cls H c Ic. apply no_class; [exact Ic|]. intros m rest. apply (H c m rest Ic). Qed.
End Files.

(** ** Entries keep having names of their own *)
Definition once (a b : entries) : Prop := NoDup (map fst a) -> NoDup (map fst b).
Lemma once_refl : forall a, once a a.
Proof. intros a H. exact H. Qed.
Lemma once_trans : forall a b c, once a b -> once b c -> once a c.
Proof. unfold once. auto. Qed.

Lemma tput_once : forall p t e e', tput p t e = Some e' -> once e e'.
Proof.
  intros p t e e' T H. destruct p as [|n [|m p]]; [discriminate | injection T as <-; apply dset_NoDup; exact H|].
  rewrite tput_cons in T by discriminate. destruct (dget n e) as [[c|e1]|]; try discriminate. destruct (tput (m :: p) t e1); [|discriminate].
  injection T as <-. apply dset_NoDup. exact H.
Qed.

Lemma dremove_NoDup : forall {V} n (d : dict V), NoDup (map fst d) -> NoDup (map fst (dremove n d)).
Proof.
  intros V n d. induction d as [|[k v] d IH]; intros H; [exact H|]. inversion H as [|? ? H1 H2]; subst. cbn [dremove filter fst].
  destruct (str_eqb k n); cbn [negb]; [auto|]. cbn [map fst]. constructor; [|auto]. intros I. apply H1.
  apply in_map_iff in I as (x & E & I). apply filter_In in I as [I _]. rewrite <- E. apply in_map. exact I.
Qed.

Section Installed.
  Variables (z : archive) (top name : pystr) (e : entries).
  Hypothesis PA : plain_archive z top name.

  Lemma installed_once : forall s, installed z top name e s -> NoDup (map fst e) -> NoDup (map fst s).
  Proof.
    intros s [e1 text e2 e3 t s' (l & c & X) Z (sub & _ & _ & ->) D GT GN ->] H.
    assert (K : keeps once (extract_all z top 0 (z_members z))).
    { apply keeps_extract_all; [apply once_refl | apply once_trans|]. intros m I _. split.
      - intros q x a b _ _ T _. eapply tput_once; eauto.
      - intros c' a b _ T _. eapply tput_once; eauto. }
    specialize (K e). rewrite X in K. destruct K as [_ K]. apply K in H.
    assert (H3 : NoDup (map fst e3)).
    { destruct D as [[_ ->] | [_ ->]]; [|apply dremove_NoDup]; apply dset_NoDup; exact H. }
    apply dset_NoDup, dremove_NoDup, H3.
  Qed.

  Lemma installed_frame : forall s, installed z top name e s -> dget top e = None -> forall n, n <> name -> dget n s = dget n e.
  Proof.
    intros s I NT n Nn. destruct (str_eqb_spec n top) as [-> | Nt].
    - destruct (installed_complete z top name e PA s I) as (_ & _ & _ & _ & _ & X). congruence.
    - apply (phase_frame z top name e PA); auto. constructor. exact I.
  Qed.
End Installed.

(** ** The caches after an installation *)
Lemma table_usable : forall rj k rows, table_of_caches rj k = Ok rows -> exists sets, all_file_sets rj k = Ok sets
  /\ (sets <> [] -> usable rj k sets).
Proof.
  intros rj k rows H. destruct (table_spec _ _ _ H) as (sets & order & A & P & _ & F). exists sets. split; auto. intros NE.
  assert (Sh : forall n fs, In (n, fs) sets -> i_sha (fs_info fs) <> None).
  { intros n fs I. apply (Permutation_in _ (Permutation_sym P)) in I. clear -F I. induction F as [|x row l rows R F IH]; [destruct I|].
    destruct I as [-> | I]; [destruct R as (sha & R & _); cbn [snd] in R; congruence | auto]. }
  constructor; auto.
  - unfold table_of_caches in H. rewrite A in H. cbn [rbind] in H.
    destruct (Nat.leb 2 (List.length sets) && existsb (fun kf => undated (snd kf)) sets) eqn:B; [discriminate|].
    apply andb_false_iff in B as [B | B].
    + left. apply PeanoNat.Nat.leb_gt in B. lia.
    + right. intros n fs I X. assert (Y : existsb (fun kf => undated (snd kf)) sets = true).
      { apply existsb_exists. exists (n, fs). split; auto. cbn [snd]. unfold undated. rewrite X. reflexivity. }
      congruence.
  - intros n fs I. right. eapply Sh; eauto.
Qed.

Lemma offered_same : forall rj cpath d d' n fs, dget n d' = dget n d -> (offered rj cpath d' n fs <-> offered rj cpath d n fs).
Proof. intros rj cpath d d' n fs G. unfold offered. rewrite G. reflexivity. Qed.

Lemma In_dget : forall {V} n (v : V) d, NoDup (map fst d) -> In (n, v) d -> dget n d = Some v.
Proof. intros V n v d H I. apply In_aget_NoDup; auto. apply str_eqb_eq. Qed.

Lemma install_one : forall rj k update net name, snd (snd (func_install rj k None update net [name])) = Ok tt ->
  let k' := afterwards k (func_install rj k None update net [name]) in
  snd (snd (download_file_set name update (net 0) (usr_dir k))) = Ok tt
  /\ usr_dir k' = snd (fst (snd (download_file_set name update (net 0) (usr_dir k)))) /\ exists rows, table_of_caches rj k' = Ok rows.
Proof.
  intros rj k update net name H k'. unfold k', afterwards. clear k'. unfold func_install in *.
  destruct (cache_manager rj k None) as [p [c|x]]; [|discriminate]. cbn [install_all] in *. unfold wbind, wret in *.
  destruct (snd (download_file_set name update (net 0) (usr_dir k))) as [[l e] [[]|x]]; [|discriminate]. cbn [fst snd usr_dir] in *.
  unfold show_caches in *. destruct (table_of_caches rj _) as [rows|x]; [|discriminate]. split; auto. split; auto. exists rows. reflexivity.
Qed.

Lemma newest_of : forall (sets : dict fileset) n fs, NoDup (map fst sets) -> dget n sets = Some fs ->
  (forall m f, In (m, f) sets -> m <> n -> later (the_date fs) (the_date f)) -> newest sets n fs.
Proof.
  intros sets n fs ND G H. apply dget_In in G. destruct (in_split _ _ G) as (b & a & E). exists b, a. split; auto.
  rewrite E, map_app in ND. cbn [map fst] in ND. apply NoDup_remove_2 in ND.
  split; intros m f I; (assert (Im : In (m, f) sets) by (rewrite E; apply in_or_app; simpl; auto));
    (assert (m <> n) by (intros ->; apply ND; apply in_or_app; apply (in_map fst) in I; auto)); specialize (H m f Im H0); auto.
  unfold later in *. intros X. destruct (str_leb_total (the_date fs) (the_date f)); congruence.
Qed.

Section After.
  Variables (k : disk) (name top : pystr) (ms : list Install.member) (dates : pystr -> stamp) (comment now : pystr) (update : bool) (net : nat -> nat -> answer).
  Let z := github_archive ms dates comment now.
  Let r := func_install read_json k None update net [name].
  Hypothesis G : good_archive k name top ms dates comment now.
  Hypothesis A0 : net 0 0 = AnArchive z.
  Hypothesis DN : distinct_names k.
  Hypothesis U : ~ In name (map fst (usr_dir k)) \/ update = true.
  Hypothesis R : snd (snd r) = Ok tt.
  Let k' := afterwards k r.

  Lemma after_installed : installed z top name (usr_dir k) (usr_dir k').
  Proof.
    destruct (install_one _ _ _ _ _ R) as (D & E & _). unfold k', r. rewrite E.
    destruct (end_installed z top name (usr_dir k) (ga_plain _ _ _ _ _ _ _ G) update (net 0) A0 D) as [[M X] | I]; auto.
    destruct U as [Y | Y]; [apply dmem_In in M; contradiction | congruence].
  Qed.

  Lemma after_frame : forall n, n <> name -> dget n (usr_dir k') = dget n (usr_dir k).
  Proof.
    apply (installed_frame z top name (usr_dir k) (ga_plain _ _ _ _ _ _ _ G)); [apply after_installed|].
    apply dget_None, (ga_left _ _ _ _ _ _ _ G).
  Qed.

  Lemma after_distinct : distinct_names k'.
  Proof. destruct DN as [D1 D2]. split; [exact D1|]. eapply installed_once; [apply after_installed | exact D2]. Qed.

  Lemma after_files : exists es text, dget name (usr_dir k') = Some (TDir es)
    /\ (forall p t, tget p es = Some t -> p = [] \/ p = [INFO_FILE_NAME] \/ on_the_way z top (top :: p))
    /\ (forall p c, file_at p es = Some c <-> p = [py "__github_info__.json"] /\ c = text \/ provides z top (top :: p) c).
  Proof.
    assert (NT : dget top (usr_dir k) = None) by (apply dget_None, (ga_left _ _ _ _ _ _ _ G)).
    destruct (installed_new z top name (usr_dir k) (ga_plain _ _ _ _ _ _ _ G) _ after_installed NT) as (es & E & N).
    destruct (installed_exact z top name (usr_dir k) (ga_plain _ _ _ _ _ _ _ G) _ after_installed NT (ta_files _ _ (ga_tidy _ _ _ _ _ _ _ G))) as (text & es' & _ & E' & F).
    rewrite E in E'. injection E' as <-. exists es, text. auto.
  Qed.

  Lemma after_usable : (exists fs, offered read_json (usr_path k) (usr_dir k') name fs) -> exists sets', usable read_json k' sets'.
  Proof.
    intros (fs & O). destruct (install_one _ _ _ _ _ R) as (_ & _ & rows & T). destruct (table_usable _ _ _ T) as (sets' & A & X). exists sets'. apply X.
    intros ->. destruct (all_sets_spec _ _ _ A after_distinct) as [_ S]. specialize (proj2 (S name fs) (or_introl O)). discriminate.
  Qed.

  Lemma after_sets : forall sets sets', all_file_sets read_json k = Ok sets -> all_file_sets read_json k' = Ok sets' ->
    forall n, n <> name -> dget n sets' = dget n sets.
  Proof.
    intros sets sets' A A' n Nn. destruct (all_sets_spec _ _ _ A DN) as [_ S]. destruct (all_sets_spec _ _ _ A' after_distinct) as [_ S'].
    assert (Q : forall f, dget n sets' = Some f <-> dget n sets = Some f).
    { intros f. rewrite S, S'. change (usr_path k') with (usr_path k). change (src_path k') with (src_path k). change (src_dir k') with (src_dir k).
      assert (O : forall f, offered read_json (usr_path k) (usr_dir k') n f <-> offered read_json (usr_path k) (usr_dir k) n f)
        by (intros; apply offered_same, after_frame, Nn).
      rewrite O. setoid_rewrite O. reflexivity. }
    destruct (dget n sets) as [f|]; [apply Q; reflexivity|]. destruct (dget n sets') as [f|]; [|reflexivity].
    specialize (proj1 (Q f) eq_refl). discriminate.
  Qed.
End After.

(** ** Installing several file sets *)
Lemma once_unpack : forall name z, keeps once (unpack name z).
Proof.
  intros name z e. unfold unpack. destruct (top_of z) as [top|x].
  2:{ simpl. split; [constructor | apply once_refl]. }
  set (rest := fun top => _ : W unit).
  assert (K : keeps once (rest top)).
  { unfold rest. apply keeps_bind; [apply once_trans| |intros count].
    - apply keeps_extract_all; [apply once_refl | apply once_trans|]. intros m _ _. split.
      + intros q y a b _ _ T _. eapply tput_once; eauto.
      + intros c' a b _ T _. eapply tput_once; eauto.
    - destruct (Nat.ltb count 2); [apply keeps_raise; apply once_refl|].
      apply keeps_bind; [apply once_trans | apply keeps_lift; apply once_refl | intros text].
      apply keeps_bind; [apply once_trans | apply keeps_write; [apply once_refl|] | intros _].
      + intros c a b _ T _. eapply tput_once; eauto.
      + apply keeps_bind; [apply once_trans | | intros _].
        * intros e1. unfold wrmtree. destruct (dget name e1) as [[c|es]|] eqn:G; try (split; [constructor | apply once_refl]).
          set (ctx := fun o => match o with Some t => dset name t e1 | None => dremove name e1 end).
          assert (K : forall s, In s (rm_tree (TDir es) ctx) -> once e1 s).
          { intros s H S. apply rm_tree_states in H as [-> | (t' & R & ->)]; cbn [ctx]; [apply dremove_NoDup | apply dset_NoDup]; exact S. }
          split; [apply Forall_forall; exact K|]. rewrite rm_tree_dir, rm_go_last. cbn [ctx]. intros S. apply dremove_NoDup. exact S.
        * intros e1. unfold wmove. destruct (dget top e1) as [t|] eqn:G; [destruct (dget name e1)|]; try (split; [constructor | apply once_refl]).
          assert (once e1 (dset name t (dremove top e1))) as M by (intros S; apply dset_NoDup, dremove_NoDup, S). split; auto. }
  specialize (K e). unfold wbind, wlift. destruct (rest top e) as [[l e2] r]. exact K.
Qed.

Lemma once_download : forall name update net, keeps once (fun e => snd (download_file_set name update net e)).
Proof.
  intros name update net e. unfold download_file_set. destruct (dmem name e && negb update); [split; [constructor | apply once_refl]|].
  destruct (download_archive net) as [n [[z|]|x]]; cbn [snd]; try (split; [constructor | apply once_refl]). apply once_unpack.
Qed.

Lemma once_install : forall update net names i, keeps once (install_all update net i names).
Proof.
  intros update net. induction names as [|n names IH]; intros i; cbn [install_all]; [apply keeps_ret; apply once_refl|].
  apply keeps_bind; [apply once_trans | apply once_download | intros _; apply IH].
Qed.

Lemma install_frame : forall n update names net i e s, ~ In n names -> (forall j name, nth_error names j = Some name ->
    (forall z, net (i + j) 0 <> AnArchive z) \/ exists z top, net (i + j) 0 = AnArchive z /\ plain_archive z top name /\ n <> top) ->
  visited e (install_all update net i names e) s -> dget n s = dget n e.
Proof.
  intros n update. induction names as [|name names IH]; intros net i e s NI H V; cbn [install_all] in V.
  { unfold visited in V. simpl in V. intuition congruence. }
  assert (H0 := H 0 name eq_refl). rewrite PeanoNat.Nat.add_0_r in H0.
  assert (K : forall s, visited e (snd (download_file_set name update (net i) e)) s -> dget n s = dget n e).
  { intros s' V'. eapply one_download; eauto. left. intros ->. apply NI. left. reflexivity. }
  apply visited_bind in V as [V | (l & e1 & [] & E & V)]; [auto|].
  assert (K1 : dget n e1 = dget n e) by (apply K; rewrite E; unfold visited; simpl; auto). rewrite <- K1.
  eapply (IH net (S i) e1 s); eauto.
  - intros I. apply NI. right. exact I.
  - intros j nm Hj. specialize (H (S j) nm Hj). rewrite PeanoNat.Nat.add_succ_r in H. exact H.
Qed.

Lemma install_once : forall update names net i e s, visited e (install_all update net i names e) s -> NoDup (map fst e) -> NoDup (map fst s).
Proof.
  intros update names net i e s V H. pose proof (once_install update net names i e) as K. destruct (install_all update net i names e) as [[l e2] r].
  destruct K as [K1 K2]. unfold visited in V. cbn [fst snd] in V. destruct V as [-> | [I | ->]]; auto. rewrite Forall_forall in K1. apply (K1 s I H).
Qed.

(** ** File sets that are not installed *)
Lemma below_none : forall d p, p <> d -> (forall a, p <> d ++ py "/" ++ a) -> below d p = None.
Proof.
  intros d p N1 N2. unfold below. destruct (str_eqb_spec p d) as [E | _]; [contradiction|].
  destruct (startswith p (d ++ [ch_slash])) eqn:Sw; [|reflexivity]. apply startswith_spec in Sw as (a & ->). exfalso. apply (N2 a). rewrite <- app_assoc. reflexivity.
Qed.

Lemma apart_below : forall k n, apart k -> below (usr_path k) (src_path k ++ py "/" ++ n) = None.
Proof.
  intros k n (A1 & A2 & A3). apply below_none.
  - intros E. apply A2. exists n. symmetry. exact E.
  - intros a E. revert E A1 A2 A3. generalize (src_path k) (usr_path k). clear. intros s u E A1 A2 A3.
    destruct (app_eq_app _ _ _ _ E) as (l & [[E1 E2] | [E1 E2]]).
    + destruct l as [|c l]; [rewrite app_nil_r in E1; contradiction|]. injection E2 as Ec _. rewrite <- Ec in E1. apply A1. exists l. exact E1.
    + destruct l as [|c l]; [rewrite app_nil_r in E1; congruence|]. injection E2 as Ec _. rewrite <- Ec in E1. apply A2. exists l. exact E1.
Qed.

Definition with_user (k : disk) (e : entries) : disk := mkDisk (src_path k) (src_dir k) (usr_path k) e.

Lemma load_frame : forall L E lim k e sets n fs, all_file_sets read_json k = Ok sets -> distinct_names k -> apart k -> ~ In 47%N n ->
  dget n sets = Some fs -> dget n e = dget n (usr_dir k) -> load_set L E lim (with_user k e) fs = load_set L E lim k fs.
Proof.
  intros L E lim k e sets n fs A DN Ap Nn G Ge. destruct (all_sets_spec _ _ _ A DN) as [_ Sp]. apply Sp in G as [O | [_ O]].
  - destruct O as (sub & text & i & label & _ & _ & _ & _ & ->). unfold load_set, set_entries. cbn [fs_path with_user usr_path usr_dir src_path src_dir].
    rewrite below_one by exact Nn. rewrite !tget_cons, Ge. reflexivity.
  - destruct O as (sub & text & i & label & _ & _ & _ & _ & ->). unfold load_set, set_entries. cbn [fs_path with_user usr_path usr_dir src_path src_dir].
    rewrite (apart_below k n Ap). reflexivity.
Qed.

Lemma same_set : forall k e sets sets' n, all_file_sets read_json k = Ok sets -> all_file_sets read_json (with_user k e) = Ok sets' -> distinct_names k ->
  NoDup (map fst e) -> dget n e = dget n (usr_dir k) -> dget n sets' = dget n sets.
Proof.
  intros k e sets sets' n A A' DN ND F. destruct (all_sets_spec _ _ _ A DN) as [_ Sp]. assert (DN' : distinct_names (with_user k e)) by (split; [apply DN | exact ND]).
  destruct (all_sets_spec _ _ _ A' DN') as [_ Sp']. cbn [with_user usr_path usr_dir src_path src_dir] in Sp'.
  assert (O : forall f, offered read_json (usr_path k) e n f <-> offered read_json (usr_path k) (usr_dir k) n f) by (intros; apply offered_same, F).
  assert (Q : forall f, dget n sets' = Some f <-> dget n sets = Some f) by (intros f; rewrite Sp, Sp', O; setoid_rewrite O; reflexivity).
  destruct (dget n sets) as [f|]; [apply Q; reflexivity|]. destruct (dget n sets') as [f|]; [|reflexivity].
  specialize (proj1 (Q f) eq_refl). discriminate.
Qed.
