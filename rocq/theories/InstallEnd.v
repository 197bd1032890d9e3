(** * What an installation leaves behind *)

From Coq Require Import List NArith ZArith Bool String Lia.
From Verif Require Import PyBase PyFacts Cache Spec_FileSets CacheSetFacts Install Spec_Install InstallFacts.
Import ListNotations.
Open Scope string_scope.
Open Scope list_scope.

Section End.
  Variables (z : archive) (top name : pystr) (e : entries).
  Hypothesis PA : plain_archive z top name.

  Let PN : name <> top := pa_name _ _ _ PA.

  Lemma visited_phase : forall replace net s, net 0 = AnArchive z -> visited e (snd (download_file_set name replace net e)) s -> phase z top name e s.
  Proof.
    intros replace net s HN H.
    assert (phase z top name e e) as P0.
    { destruct (extract_all z top 0 (z_members z) e) as [[l1 e1] r] eqn:X. eapply ph_extract; eauto. }
    unfold visited, download_file_set in H. destruct (dmem name e && negb replace); [simpl in H; intuition (subst; auto)|].
    unfold download_archive, GITHUB_RETRY_COUNT in H. cbn [try_rounds] in H. rewrite HN in H. cbn [try_round snd] in H.
    pose proof (unpack_phases z top name e (top_ok z top name PA)) as U. destruct (unpack name z e) as [[l e2] r]. apply U. exact H.
  Qed.

  Lemma end_installed : forall replace net, net 0 = AnArchive z -> snd (snd (download_file_set name replace net e)) = Ok tt ->
    (dmem name e = true /\ replace = false) \/ installed z top name e (snd (fst (snd (download_file_set name replace net e)))).
  Proof.
    intros replace net HN H. unfold download_file_set in *. destruct (dmem name e) eqn:M; destruct replace; simpl andb in *; auto; right;
      unfold download_archive, GITHUB_RETRY_COUNT in *; cbn [try_rounds] in *; rewrite HN in *; cbn [try_round snd] in *;
      pose proof (unpack_phases z top name e (top_ok z top name PA)) as U; destruct (unpack name z e) as [[l e2] r]; apply U; exact H.
  Qed.

  Lemma extract_phase_grown : forall l e1 r s, extract_all z top 0 (z_members z) e = (l, e1, r) -> s = e \/ In s l \/ s = e1 ->
    grown top (from z top (z_members z)) e s /\ infos s = infos e.
  Proof.
    intros l e1 r s X H.
    pose proof (extract_grown z top name PA (z_members z) 0 (incl_refl _) e) as K1. pose proof (extract_infos z top name PA 0 e) as K2.
    rewrite X in K1, K2. destruct K1 as [K1 K1']. destruct K2 as [K2 K2']. rewrite Forall_forall in K1, K2.
    destruct H as [-> | [H | ->]]; auto. split; [apply grown_refl | reflexivity].
  Qed.

  Lemma extracted_grown : forall e1, extracted z top e e1 -> grown top (from z top (z_members z)) e e1 /\ infos e1 = infos e.
  Proof. intros e1 (l & c & X). eapply extract_phase_grown; eauto. Qed.

  Lemma with_info_frame : forall e1 c s n, with_info top e1 c s -> n <> top -> dget n s = dget n e1.
  Proof. intros e1 c s n (sub & _ & _ & ->) N. rewrite dget_dset. destruct (str_eqb_spec n top); congruence. Qed.

  (** nothing but the download directory and the named directory changes *)
  Lemma phase_frame : forall s, phase z top name e s -> forall n, n <> top -> n <> name -> dget n s = dget n e.
  Proof.
    intros s H n N1 N2.
    assert (forall e1 c e2, extracted z top e e1 -> with_info top e1 c e2 -> dget n e2 = dget n e) as K.
    { intros e1 c e2 X W. rewrite (with_info_frame _ _ _ _ W N1). apply (gr_frame _ _ _ _ (proj1 (extracted_grown _ X))). exact N1. }
    destruct H as [l e1 r s X V | e1 text c s X Z B W | e1 text e2 es es' s X Z W G L -> | e1 text e2 es s X Z W G -> | s I].
    - destruct (extract_phase_grown _ _ _ _ X V) as [Gr _]. apply (gr_frame _ _ _ _ Gr). exact N1.
    - eapply K; eauto.
    - rewrite dget_dset. destruct (str_eqb_spec n name); [contradiction|]. eapply K; eauto.
    - rewrite dget_dremove. destruct (str_eqb_spec n name); [contradiction|]. eapply K; eauto.
    - destruct I as [e1 text e2 e3 t s X Z W D GT GN ->]. rewrite dget_dset, dget_dremove.
      destruct (str_eqb_spec n name); [contradiction|]. destruct (str_eqb_spec n top); [contradiction|].
      destruct D as [[_ ->] | [_ ->]]; [|rewrite dget_dremove; destruct (str_eqb_spec n name); [contradiction|]]; eapply K; eauto.
  Qed.

  (** the top directory with its info file *)
  Lemma with_info_complete : forall e1 text e2 t, extracted z top e e1 -> with_info top e1 text e2 -> dget top e2 = Some t -> complete z top text t.
  Proof.
    intros e1 text e2 t X (sub & G & D & ->) GT. rewrite dget_dset, str_eqb_refl in GT. injection GT as <-.
    exists (dset INFO_FILE_NAME (TFile text) sub). split; auto. split.
    - unfold file_at. rewrite tget_cons. change (py "__github_info__.json") with INFO_FILE_NAME. rewrite dget_dset, str_eqb_refl. reflexivity.
    - intros p data HP. destruct X as (l & c & X). pose proof (extract_provides z top name PA _ _ _ _ _ _ _ X HP) as F.
      destruct HP as (a & m & b & Em & Dm & Pm & _). unfold file_at in *. rewrite tget_cons, G in F.
      destruct p as [|x p]; [simpl in F; discriminate|]. cbn [tsub] in F. rewrite tget_cons in F |- *.
      rewrite dget_dset. destruct (str_eqb_spec x INFO_FILE_NAME) as [-> | _]; [|exact F].
      exfalso. destruct (pa_inside _ _ _ PA m) as (rest & E & NI); [rewrite Em; apply in_or_app; right; left; reflexivity | exact Dm |].
      apply destination_spec in Pm. apply destination_spec in E. rewrite E in Pm. injection Pm as ->. apply NI. left. reflexivity.
  Qed.

  Lemma e3_top : forall e2 e3, dget name e2 = None /\ e3 = e2 \/ (exists es, dget name e2 = Some (TDir es)) /\ e3 = dremove name e2 ->
    dget top e3 = dget top e2.
  Proof.
    intros e2 e3 [[_ ->] | [_ ->]]; auto. rewrite dget_dremove. destruct (str_eqb_spec top name); congruence.
  Qed.

  Lemma installed_complete : forall s, installed z top name e s -> exists text t, z_info z name = Ok text /\ dget name s = Some t /\ complete z top text t
    /\ dget top s = None.
  Proof.
    intros s [e1 text e2 e3 t s' X Z W D GT GN ->]. exists text, t. split; auto. split; [apply dget_dset_same|]. split.
    - rewrite (e3_top _ _ D) in GT. eapply with_info_complete; eauto.
    - rewrite dget_dset, dget_dremove, str_eqb_refl. destruct (str_eqb_spec top name); congruence.
  Qed.

  (** what is under the name *)
  Lemma phase_name : forall s, phase z top name e s ->
    dget name s = dget name e
    \/ (exists es es' text, dget name e = Some (TDir es) /\ left_of es' es /\ (dget name s = Some (TDir es') \/ dget name s = None)
        /\ z_info z name = Ok text /\ exists t, dget top s = Some t /\ complete z top text t)
    \/ (exists text t, z_info z name = Ok text /\ dget name s = Some t /\ complete z top text t).
  Proof.
    intros s H.
    assert (forall e1 c e2, extracted z top e e1 -> with_info top e1 c e2 -> dget name e2 = dget name e) as K.
    { intros e1 c e2 X W. rewrite (with_info_frame _ _ _ _ W PN). apply (gr_frame _ _ _ _ (proj1 (extracted_grown _ X))). exact PN. }
    destruct H as [l e1 r s X V | e1 text c s X Z B W | e1 text e2 es es' s X Z W G L -> | e1 text e2 es s X Z W G -> | s I].
    - left. destruct (extract_phase_grown _ _ _ _ X V) as [Gr _]. apply (gr_frame _ _ _ _ Gr). exact PN.
    - left. eapply K; eauto.
    - right. left. exists es, es', text. rewrite <- (K _ _ _ X W). split; auto. split; auto. split; [left; apply dget_dset_same|]. split; auto.
      pose proof W as (sub & _ & _ & E). assert (dget top e2 = Some (TDir (dset INFO_FILE_NAME (TFile text) sub))) as GT by (rewrite E; apply dget_dset_same).
      eexists. split; [|eapply with_info_complete; eauto]. rewrite dget_dset. destruct (str_eqb_spec top name); [congruence | exact GT].
    - right. left. exists es, es, text. rewrite <- (K _ _ _ X W). split; auto. split; [apply left_refl|]. split; [right; rewrite dget_dremove, str_eqb_refl; reflexivity|]. split; auto.
      pose proof W as (sub & _ & _ & E). assert (dget top e2 = Some (TDir (dset INFO_FILE_NAME (TFile text) sub))) as GT by (rewrite E; apply dget_dset_same).
      eexists. split; [|eapply with_info_complete; eauto]. rewrite dget_dremove. destruct (str_eqb_spec top name); [congruence | exact GT].
    - right. right. destruct (installed_complete _ I) as (text & t & A & B & C & _). eauto.
  Qed.

  (** the info file of the download *)
  Definition dinfo (s : entries) : option tree := match dget top s with Some (TDir sub) => dget INFO_FILE_NAME sub | _ => None end.

  Lemma tget_dinfo : forall s, tget [top; INFO_FILE_NAME] s = dinfo s.
  Proof.
    intros s. unfold dinfo. rewrite tget_cons. destruct (dget top s) as [[c|sub]|]; auto. cbn [tsub]. rewrite tget_cons.
    destruct (dget INFO_FILE_NAME sub); reflexivity.
  Qed.

  Lemma steps_dinfo : forall m, In m (z_members z) -> definition_file top (m_name m) -> forall data,
    steps (fun a b => dinfo b = dinfo a) (safe_parts (m_name m)) data.
  Proof.
    intros m Hm D data. destruct (pa_inside _ _ _ PA m Hm D) as (rest & E & NI). apply destination_spec in E.
    assert (forall q0 q t a b, tput (top :: q0 :: q) t a = Some b -> q0 <> INFO_FILE_NAME -> dinfo b = dinfo a) as K.
    { intros q0 q t a b T N. unfold dinfo. rewrite tput_cons in T by discriminate. destruct (dget top a) as [[c|sub]|]; try discriminate.
      destruct (tput (q0 :: q) t sub) as [sub'|] eqn:T2; [|discriminate]. injection T as <-. rewrite dget_dset_same.
      eapply tput_info; eauto. }
    split.
    - intros q x a b Eq Nq T G. rewrite E in Eq. destruct q as [|q0 q]; [congruence|]. simpl in Eq. injection Eq as <- Er.
      destruct q as [|q1 q].
      + simpl in T. injection T as <-. rewrite tget_cons in G. unfold dinfo. rewrite dget_dset_same. destruct (dget top a); [discriminate | reflexivity].
      + eapply K; eauto. intros ->. apply NI. rewrite Er. left. reflexivity.
    - intros c a b B T G. rewrite E in *. destruct rest as [|q1 q].
      + simpl in T. injection T as <-. rewrite tget_cons in G. unfold dinfo. rewrite dget_dset_same. destruct (dget top a) as [[c0|sub]|]; [reflexivity | discriminate | reflexivity].
      + eapply K; eauto. intros ->. apply NI. left. reflexivity.
  Qed.

  Lemma extracted_dinfo : forall e1, extracted z top e e1 -> dinfo e1 = dinfo e.
  Proof.
    intros e1 (l & c & X).
    assert (keeps (fun a b => dinfo b = dinfo a) (extract_all z top 0 (z_members z))) as K.
    { apply keeps_extract_all; [reflexivity | congruence|]. intros m Hm Xm. apply steps_dinfo; auto. apply (extr z top name PA). exact Xm. }
    specialize (K e). rewrite X in K. apply K.
  Qed.

  (** the file sets on offer do not change before the info file is written *)
  Lemma phase_sets : forall s, phase z top name e s -> tget [top; INFO_FILE_NAME] s = tget [top; INFO_FILE_NAME] e -> dget name s = dget name e ->
    infos s = infos e \/ (dget top s = None /\ exists text t, z_info z name = Ok text /\ dget name s = Some t /\ complete z top text t).
  Proof.
    intros s H Hi Hn. rewrite !tget_dinfo in Hi.
    assert (forall e1 c e2, extracted z top e e1 -> with_info top e1 c e2 -> dinfo e2 = dinfo e -> infos e2 = infos e) as K.
    { intros e1 c e2 X (sub & G & D & ->) E. rewrite <- (proj2 (extracted_grown _ X)). eapply infos_dset_dir; eauto.
      rewrite <- (extracted_dinfo _ X) in E. unfold dinfo in E. rewrite dget_dset_same, G in E. exact E. }
    destruct H as [l e1 r s X V | e1 text c s X Z B W | e1 text e2 es es' s X Z W G L -> | e1 text e2 es s X Z W G -> | s I].
    - left. apply (extract_phase_grown _ _ _ _ X V).
    - left. eapply K; eauto.
    - left. assert (dget name e2 = dget name e) as Y.
      { rewrite (with_info_frame _ _ _ _ W PN). apply (gr_frame _ _ _ _ (proj1 (extracted_grown _ X))). exact PN. }
      rewrite dget_dset_same, <- Y, G in Hn. injection Hn as ->. rewrite (infos_dset_dir _ _ _ _ G eq_refl).
      eapply K; eauto. unfold dinfo in *. rewrite dget_dset in Hi. destruct (str_eqb_spec top name); [congruence | exact Hi].
    - exfalso. rewrite (dget_dremove name name), str_eqb_refl in Hn.
      assert (dget name e2 = dget name e) as Y.
      { rewrite (with_info_frame _ _ _ _ W PN). apply (gr_frame _ _ _ _ (proj1 (extracted_grown _ X))). exact PN. }
      congruence.
    - right. destruct (installed_complete _ I) as (text & t & A & B & C & D). split; auto. exists text, t. auto.
  Qed.

  Lemma phase_offered : forall rj cpath s, phase z top name e s -> tget [top; INFO_FILE_NAME] s = tget [top; INFO_FILE_NAME] e -> dget name s = dget name e ->
    cache_sets rj cpath [] s = cache_sets rj cpath [] e \/ (dget top s = None /\ exists text t, z_info z name = Ok text /\ dget name s = Some t /\ complete z top text t).
  Proof. intros rj cpath s H A B. rewrite !cache_sets_infos. destruct (phase_sets s H A B) as [-> | X]; auto. Qed.

  (** ** Reading the caches afterwards *)
  Definition good (rj : json_reader) (t : tree) : Prop := exists text i, t = TFile text /\ rj text = Ok i.

  Lemma readable_infos : forall rj l, readable rj l <-> forall n t, In (n, t) (infos l) -> good rj t.
  Proof.
    intros rj l. unfold readable, infos, good. split.
    - intros H n t I. apply in_flat_map in I as ([k tr] & I & J). cbn [fst snd] in J. destruct tr as [c|sub]; [destruct J|].
      destruct (dget INFO_FILE_NAME sub) as [i|] eqn:G; [|destruct J]. destruct J as [J | []]. injection J as <- <-. eapply H; eauto.
    - intros H n sub t I G. apply (H n t). apply in_flat_map. exists (n, TDir sub). split; auto. cbn [fst snd].
      change (py "__github_info__.json") with INFO_FILE_NAME in G. rewrite G. left. reflexivity.
  Qed.

  Lemma infos_dset : forall n t l k i, In (k, i) (infos (dset n t l)) -> In (k, i) (infos l) \/ exists sub, t = TDir sub /\ dget INFO_FILE_NAME sub = Some i.
  Proof.
    intros n t l k i. induction l as [|[a b] l IH].
    - unfold dset. cbn [aset]. unfold infos. cbn [flat_map fst snd]. rewrite app_nil_r. destruct t as [c|sub]; [intros []|].
      destruct (dget INFO_FILE_NAME sub) eqn:G; [|intros []]. intros [E | []]. injection E as <- <-. eauto.
    - unfold dset. cbn [aset]. destruct (str_eqb n a).
      + unfold infos. cbn [flat_map fst snd]. rewrite !in_app_iff. intros [H | H]; auto. destruct t as [c|sub]; [destruct H|].
        destruct (dget INFO_FILE_NAME sub) eqn:G; [|destruct H]. destruct H as [E | []]. injection E as <- <-. eauto.
      + unfold infos in *. cbn [flat_map]. rewrite !in_app_iff. intros [H | H]; auto. apply IH in H as [H | H]; auto.
  Qed.

  Lemma infos_dremove : forall n l k i, In (k, i) (infos (dremove n l)) -> In (k, i) (infos l).
  Proof.
    intros n l k i H. unfold infos in *. apply in_flat_map in H as (x & I & J). apply in_flat_map. exists x. split; auto.
    unfold dremove in I. apply filter_In in I. tauto.
  Qed.

  Lemma infos_get : forall n l sub i, dget n l = Some (TDir sub) -> dget INFO_FILE_NAME sub = Some i -> In (n, i) (infos l).
  Proof.
    intros n l sub i G D. unfold infos. apply in_flat_map. exists (n, TDir sub). split; [apply dget_In; exact G|]. cbn [fst snd]. rewrite D. left. reflexivity.
  Qed.

  Lemma left_get : forall es' es, left_of es' es -> NoDup (map fst es) -> forall n t', dget n es' = Some t' -> exists t, dget n es = Some t /\ remains t' t.
  Proof.
    induction 1 as [| m t es' es H IH | m t' t es' es R H IH]; intros ND n x G.
    - discriminate.
    - cbn [map fst] in ND. inversion ND as [|? ? N1 N2]; subst. destruct (IH N2 _ _ G) as (y & Gy & Ry). exists y. split; auto.
      rewrite dget_cons. destruct (str_eqb_spec n m) as [-> | _]; [|exact Gy]. exfalso. apply N1. apply dget_In in Gy. apply (in_map fst) in Gy. exact Gy.
    - cbn [map fst] in ND. inversion ND as [|? ? N1 N2]; subst. rewrite dget_cons in *. destruct (str_eqb n m).
      + injection G as ->. eauto.
      + eapply IH; eauto.
  Qed.

  Lemma phase_cases : forall rj s, phase z top name e s -> readable rj e ->
    (forall sub, dget name e = Some (TDir sub) -> NoDup (map fst sub)) ->
    (forall text, z_info z name = Ok text -> exists i, rj text = Ok i) ->
    readable rj s \/ exists e1 text c, extracted z top e e1 /\ z_info z name = Ok text /\ beginning c text /\ c <> text /\ with_info top e1 c s.
  Proof.
    intros rj s H R ND RT. rewrite !readable_infos in *.
    assert (forall e1, extracted z top e e1 -> forall n t, In (n, t) (infos e1) -> good rj t) as K1.
    { intros e1 X. rewrite (proj2 (extracted_grown _ X)). exact R. }
    assert (forall e1 c e2 i, extracted z top e e1 -> with_info top e1 c e2 -> rj c = Ok i -> forall n t, In (n, t) (infos e2) -> good rj t) as K2.
    { intros e1 c e2 i X (sub & G & D & ->) Rc n t I. apply infos_dset in I as [I | (sub' & E & I)]; [eapply K1; eauto|].
      injection E as <-. rewrite dget_dset_same in I. injection I as <-. exists c, i. auto. }
    assert (forall e1 text e2, extracted z top e e1 -> z_info z name = Ok text -> with_info top e1 text e2 -> forall n t, In (n, t) (infos e2) -> good rj t) as K3.
    { intros e1 text e2 X Z W. destruct (RT _ Z) as [i Ri]. eapply K2; eauto. }
    destruct H as [l e1 r s X V | e1 text c s X Z B W | e1 text e2 es es' s X Z W G L -> | e1 text e2 es s X Z W G -> | s I].
    - left. rewrite (proj2 (extract_phase_grown _ _ _ _ X V)). exact R.
    - destruct (list_eq_dec N.eq_dec c text) as [-> | Nc]; [left; eapply K3; eauto|]. right. exists e1, text, c. auto.
    - left. intros n t I. apply infos_dset in I as [I | (sub & E & I)]; [eapply K3; eauto|]. injection E as <-.
      assert (dget name e2 = dget name e) as Y.
      { rewrite (with_info_frame _ _ _ _ W PN). apply (gr_frame _ _ _ _ (proj1 (extracted_grown _ X))). exact PN. }
      rewrite Y in G. destruct (left_get _ _ L (ND _ G) _ _ I) as (t0 & G0 & Rm).
      destruct (R _ _ (infos_get _ _ _ _ G G0)) as (tx & i & -> & Rx). inversion Rm; subst. exists tx, i. auto.
    - left. intros n t I. apply infos_dremove in I. eapply K3; eauto.
    - left. destruct I as [e1 text e2 e3 t s X Z W D GT GN ->]. intros n u I. apply infos_dset in I as [I | (sub & -> & I)].
      + apply infos_dremove in I. destruct D as [[_ ->] | [_ ->]]; [eapply K3; eauto|]. apply infos_dremove in I. eapply K3; eauto.
      + rewrite (e3_top _ _ D) in GT. eapply K3; eauto. eapply infos_get; eauto.
  Qed.

  Lemma phase_readable : forall rj s, phase z top name e s -> readable rj e ->
    (forall sub, dget name e = Some (TDir sub) -> NoDup (map fst sub)) ->
    (forall text, z_info z name = Ok text -> exists i, rj text = Ok i) ->
    readable rj s \/ exists text c, z_info z name = Ok text /\ beginning c text /\ c <> text /\ tget [top; INFO_FILE_NAME] s = Some (TFile c).
  Proof.
    intros rj s H R ND RT. destruct (phase_cases rj s H R ND RT) as [A | (e1 & text & c & X & Z & B & N & W)]; [auto|]. right. exists text, c. repeat split; auto.
    rewrite tget_dinfo. destruct W as (sub & Gt & D & ->). unfold dinfo. rewrite dget_dset_same. apply dget_dset_same.
  Qed.

  (** while the info file is half written, the file sets cannot be listed *)
  Lemma sets_of_bad : forall rj cpath l acc n t, In (n, t) l -> ~ good rj t ->
    (forall n t, In (n, t) l -> good rj t \/ exists c, t = TFile c /\ rj c = Exn ValueError) -> sets_of rj cpath acc l = Exn ValueError.
  Proof.
    induction l as [|[m t] l IH]; intros acc n u I NG H; [destruct I|].
    destruct (H m t (or_introl eq_refl)) as [(x & i & -> & R) | (c & -> & R)]; cbn [sets_of]; rewrite R; [|reflexivity].
    destruct I as [E | I].
    - injection E as <- <-. exfalso. apply NG. exists x, i. auto.
    - eapply IH; eauto. intros n' t' J. apply (H n' t'). right. exact J.
  Qed.

  Lemma phase_half : forall rj s, phase z top name e s -> readable rj e ->
    (forall sub, dget name e = Some (TDir sub) -> NoDup (map fst sub)) ->
    (forall text, z_info z name = Ok text -> exists i, rj text = Ok i) ->
    (forall text c, z_info z name = Ok text -> beginning c text -> c <> text -> rj c = Exn ValueError) ->
    readable rj s \/ ((exists text c, z_info z name = Ok text /\ beginning c text /\ c <> text /\ tget [top; INFO_FILE_NAME] s = Some (TFile c))
                      /\ forall cpath, cache_sets rj cpath [] s = Exn ValueError).
  Proof.
    intros rj s H R ND RT RH. destruct (phase_cases rj s H R ND RT) as [A | (e1 & text & c & X & Z & B & N & W)]; [auto|]. right. split.
    - exists text, c. repeat split; auto.
      rewrite tget_dinfo. destruct W as (sub & Gt & D & ->). unfold dinfo. rewrite dget_dset_same. apply dget_dset_same.
    - intros cpath. destruct W as (sub & Gt & D & ->). rewrite cache_sets_infos. rewrite readable_infos in R. rewrite <- (proj2 (extracted_grown _ X)) in R.
      apply (sets_of_bad rj cpath _ [] top (TFile c)).
      + eapply infos_get; [apply dget_dset_same | apply dget_dset_same].
      + intros (x & i & E & Rx). injection E as <-. rewrite (RH _ _ Z B N) in Rx. discriminate.
      + intros n t I. apply infos_dset in I as [I | (sub' & E & I)]; [left; eapply R; eauto|].
        injection E as <-. rewrite dget_dset_same in I. injection I as <-. eauto.
  Qed.

  (** ** The content of an installed file set *)
  Lemma last_such : forall {A} (f : A -> bool) l x, In x l -> f x = true -> exists a y b, l = a ++ y :: b /\ f y = true /\ forall u, In u b -> f u = false.
  Proof.
    intros A f l. induction l as [|w l IH]; intros x I F; [destruct I|]. destruct (existsb f l) eqn:X.
    - apply existsb_exists in X as (y & J & Y). destruct (IH y J Y) as (a & u & b & -> & U & V). exists (w :: a), u, b. auto.
    - assert (forall u, In u l -> f u = false) as N.
      { intros u J. destruct (f u) eqn:U; auto. assert (existsb f l = true) by (apply existsb_exists; eauto). congruence. }
      destruct I as [-> | I]; [|rewrite (N _ I) in F; discriminate]. exists [], x, l. auto.
  Qed.

  Lemma last_member : forall p m, In m (z_members z) -> definition_file top (m_name m) -> destination m p ->
    (forall m', In m' (z_members z) -> definition_file top (m_name m') -> ~ exists d, m_name m' = d ++ py "/") ->
    exists data, provides z top p data.
  Proof.
    intros p m I D P ND.
    set (f := fun m => is_extractable (m_name m) NXDL_file_endings (allowed_parents top) && if path_dec (safe_parts (m_name m)) p then true else false).
    assert (forall x, f x = true <-> definition_file top (m_name x) /\ destination x p) as F.
    { intros x. unfold f. rewrite destination_spec, andb_true_iff, (extr z top name PA). dpath; intuition discriminate. }
    destruct (last_such f (z_members z) m I) as (a & y & b & E & Y & N); [apply F; auto|]. apply F in Y as [Y1 Y2].
    exists (m_data y), a, y, b. repeat split; auto.
    - apply ND; auto. rewrite E. apply in_or_app. right. left. reflexivity.
    - intros m' J D' P'. pose proof (proj2 (F m') (conj D' P')) as T. rewrite (N _ J) in T. discriminate.
  Qed.

  Lemma installed_exact : forall s, installed z top name e s -> dget top e = None ->
    (forall m', In m' (z_members z) -> definition_file top (m_name m') -> ~ exists d, m_name m' = d ++ py "/") ->
    exists text es, z_info z name = Ok text /\ dget name s = Some (TDir es)
      /\ forall p c, file_at p es = Some c <-> p = [py "__github_info__.json"] /\ c = text \/ provides z top (top :: p) c.
  Proof.
    intros s [e1 text e2 e3 t s' X Z W D GT GN ->] N ND. rewrite (e3_top _ _ D) in GT.
    destruct (with_info_complete _ _ _ _ X W GT) as (es & -> & C1 & C2). exists text, es. split; auto. split; [apply dget_dset_same|].
    intros p c. split; [|intros [[-> ->] | HP]; auto].
    destruct W as (sub & G & Di & ->). rewrite dget_dset_same in GT. injection GT as <-. intros F.
    assert (p <> []) as Np by (intros ->; discriminate). destruct p as [|x p]; [congruence|].
    unfold file_at in F. rewrite tget_cons, dget_dset in F. destruct (str_eqb_spec x INFO_FILE_NAME) as [-> | Nx].
    - left. destruct p; [|discriminate]. injection F as <-. auto.
    - right. assert (file_at (top :: x :: p) e1 = Some c) as F1.
      { unfold file_at. rewrite tget_cons, G. cbn [tsub]. rewrite tget_cons. exact F. }
      pose proof (gr_new _ _ _ _ (proj1 (extracted_grown _ X)) _ _ F1) as [F0 | (data & (m & I & Dm & Pm & _) & _)].
      + unfold file_at in F0. rewrite tget_cons, N in F0. discriminate.
      + destruct (last_member _ _ I Dm Pm ND) as (d & HP). destruct X as (l & k & X).
        rewrite (extract_provides z top name PA _ _ _ _ _ _ _ X HP) in F1. injection F1 as ->. exact HP.
  Qed.

  (** ** Only definition files *)
  Lemma phase_files : forall s, phase z top name e s -> forall p c, hd [] p <> name -> file_at p s = Some c ->
    file_at p e = Some c \/ (exists text, z_info z name = Ok text /\ p = [top; INFO_FILE_NAME] /\ beginning c text)
    \/ exists m m', In m (z_members z) /\ definition_file top (m_name m) /\ destination m p /\ In m' (z_members z) /\ m_name m' = m_name m /\ beginning c (m_data m').
  Proof.
    intros s H p c Np F.
    assert (forall e1, grown top (from z top (z_members z)) e e1 -> file_at p e1 = Some c -> file_at p e = Some c
      \/ exists m m', In m (z_members z) /\ definition_file top (m_name m) /\ destination m p /\ In m' (z_members z) /\ m_name m' = m_name m /\ beginning c (m_data m')) as K1.
    { intros e1 G F1. apply (gr_new _ _ _ _ G) in F1 as [F1 | (d & (m & I & Dm & Pm & m' & I' & En & ->) & B)]; auto. right. exists m, m'. auto 10. }
    assert (forall e1 text c' e2, extracted z top e e1 -> z_info z name = Ok text -> beginning c' text -> with_info top e1 c' e2 -> file_at p e2 = Some c ->
      file_at p e1 = Some c \/ exists text, z_info z name = Ok text /\ p = [top; INFO_FILE_NAME] /\ beginning c text) as K2.
    { intros e1 text c' e2 X Z B (sub & G & D & ->) F2. unfold file_at in *. destruct p as [|x p]; [discriminate|]. rewrite tget_cons in *.
      rewrite dget_dset in F2. destruct (str_eqb_spec x top) as [-> | Nx]; [|auto]. rewrite G. destruct p as [|y p]; [discriminate|]. cbn [tsub] in *.
      rewrite tget_cons in *. rewrite dget_dset in F2. destruct (str_eqb_spec y INFO_FILE_NAME) as [-> | Ny]; [|auto].
      right. exists text. destruct p; [|discriminate]. injection F2 as <-. auto. }
    assert (forall e1 text c' e2, extracted z top e e1 -> z_info z name = Ok text -> beginning c' text -> with_info top e1 c' e2 -> file_at p e2 = Some c ->
      file_at p e = Some c \/ (exists text, z_info z name = Ok text /\ p = [top; INFO_FILE_NAME] /\ beginning c text)
      \/ exists m m', In m (z_members z) /\ definition_file top (m_name m) /\ destination m p /\ In m' (z_members z) /\ m_name m' = m_name m /\ beginning c (m_data m')) as K3.
    { intros e1 text c' e2 X Z B W F2. destruct (K2 _ _ _ _ X Z B W F2) as [F1 | Y]; auto. destruct (K1 _ (proj1 (extracted_grown _ X)) F1); auto. }
    assert (forall s', dget (hd [] p) s = dget (hd [] p) s' -> file_at p s' = Some c) as K4.
    { intros s' E. unfold file_at in *. destruct p as [|x p]; [discriminate|]. rewrite tget_cons in *. simpl hd in E. rewrite <- E. exact F. }
    destruct H as [l e1 r s X V | e1 text c' s X Z B W | e1 text e2 es es' s X Z W G L -> | e1 text e2 es s X Z W G -> | s I].
    - destruct (extract_phase_grown _ _ _ _ X V) as [Gr _]. destruct (K1 _ Gr F); auto.
    - eapply K3; eauto.
    - eapply K3; eauto using beginning_refl. apply K4. rewrite dget_dset. destruct (str_eqb_spec (hd [] p) name); [contradiction | reflexivity].
    - eapply K3; eauto using beginning_refl. apply K4. rewrite dget_dremove. destruct (str_eqb_spec (hd [] p) name); [contradiction | reflexivity].
    - destruct I as [e1 text e2 e3 t s X Z W D GT GN ->]. eapply K3; eauto using beginning_refl.
      destruct (str_eqb_spec (hd [] p) top) as [Et | Nt].
      + exfalso. unfold file_at in F. destruct p as [|x p]; [discriminate|]. simpl hd in *. subst x. rewrite tget_cons, dget_dset, dget_dremove, str_eqb_refl in F.
        destruct (str_eqb_spec top name); [congruence | discriminate].
      + apply K4. rewrite dget_dset, dget_dremove. destruct (str_eqb_spec (hd [] p) name); [contradiction|]. destruct (str_eqb_spec (hd [] p) top); [contradiction|].
        destruct D as [[_ ->] | [_ ->]]; auto. rewrite dget_dremove. destruct (str_eqb_spec (hd [] p) name); [contradiction | reflexivity].
  Qed.

  (** under the name: what was there, or files of the download *)
  Lemma installed_files : forall s, installed z top name e s -> forall p c, file_at (name :: p) s = Some c ->
    file_at (top :: p) e = Some c \/ p = [INFO_FILE_NAME] /\ z_info z name = Ok c
    \/ exists m m', In m (z_members z) /\ definition_file top (m_name m) /\ destination m (top :: p) /\ In m' (z_members z) /\ m_name m' = m_name m /\ beginning c (m_data m').
  Proof.
    intros s [e1 text e2 e3 t s' X Z W D GT GN ->] p c F. rewrite (e3_top _ _ D) in GT.
    assert (file_at (top :: p) e2 = Some c) as F2.
    { unfold file_at in *. rewrite tget_cons in *. rewrite dget_dset_same in F. rewrite GT. exact F. }
    destruct W as (sub & G & Di & ->). unfold file_at in F2. rewrite tget_cons, dget_dset_same in F2. destruct p as [|x p]; [discriminate|]. cbn [tsub] in F2.
    rewrite tget_cons, dget_dset in F2. destruct (str_eqb_spec x INFO_FILE_NAME) as [-> | Nx].
    - right. left. destruct p; [|discriminate]. injection F2 as <-. auto.
    - assert (file_at (top :: x :: p) e1 = Some c) as F1 by (unfold file_at; rewrite tget_cons, G; cbn [tsub]; rewrite tget_cons; exact F2).
      apply (gr_new _ _ _ _ (proj1 (extracted_grown _ X))) in F1 as [F1 | (d & (m & I & Dm & Pm & m' & I' & En & ->) & B)]; auto.
      right. right. exists m, m'. auto 10.
  Qed.
End End.
