(** * Facts about file sets *)

From Coq Require Import List NArith ZArith Bool String Lia Permutation Sorted.
From Verif Require Import PyBase PyFacts Cache Spec_FileSets.
Import ListNotations.
Open Scope string_scope.
Open Scope list_scope.

Lemma dget_app : forall {V} k (a b : dict V), dget k (a ++ b) = match dget k a with Some v => Some v | None => dget k b end.
Proof.
  unfold dget. induction a as [|[k' v] a IH]; simpl; intros; auto. destruct (str_eqb k k'); auto.
Qed.

Lemma dget_cons : forall {V} n k (v : V) l, dget n ((k, v) :: l) = if str_eqb n k then Some v else dget n l.
Proof. reflexivity. Qed.

(** ** One cache *)
Definition set_of (rj : json_reader) (cpath item : pystr) (t : tree) (o : option fileset) : Prop :=
  match t with
  | TFile _ => o = None
  | TDir sub => read_info rj (cpath ++ py "/" ++ item) sub = Ok o
  end.

Lemma cache_sets_get : forall rj cpath l acc sets, cache_sets rj cpath acc l = Ok sets -> NoDup (map fst l) ->
  forall n, dget n sets = match dget n l with
                          | Some (TDir sub) => match read_info rj (cpath ++ py "/" ++ n) sub with Ok (Some fs) => Some fs | _ => dget n acc end
                          | _ => dget n acc
                          end.
Proof.
  induction l as [|[item t] l IH]; intros acc sets H HN n; cbn [cache_sets] in H.
  - inversion H; subst. reflexivity.
  - inversion HN as [|? ? Hni HN']; subst.
    assert (Hnone : forall m, m = item -> dget m l = None).
    { intros m ->. apply dget_None. exact Hni. }
    destruct t as [c|sub].
    + specialize (IH _ _ H HN' n). rewrite IH. rewrite dget_cons.
      destruct (str_eqb n item) eqn:E; [|reflexivity]. apply str_eqb_eq in E. rewrite (Hnone _ E). reflexivity.
    + destruct (read_info rj (cpath ++ [ch_slash] ++ item) sub) as [o|e] eqn:R; cbn [rbind] in H; [|discriminate].
      destruct o as [fs|].
      * specialize (IH _ _ H HN' n). rewrite IH. rewrite dget_cons.
        destruct (str_eqb n item) eqn:E.
        -- apply str_eqb_eq in E. subst n. rewrite (Hnone _ eq_refl).
           change (py "/") with [ch_slash]. rewrite R. rewrite dget_dset_same. reflexivity.
        -- rewrite dget_dset_other by (intros ->; rewrite str_eqb_refl in E; discriminate). reflexivity.
      * specialize (IH _ _ H HN' n). rewrite IH. rewrite dget_cons.
        destruct (str_eqb n item) eqn:E; [|reflexivity].
        apply str_eqb_eq in E. subst n. rewrite (Hnone _ eq_refl). change (py "/") with [ch_slash]. rewrite R. reflexivity.
Qed.

Lemma read_info_some : forall rj p sub fs, read_info rj p sub = Ok (Some fs) <->
  exists text i, dget (py "__github_info__.json") sub = Some (TFile text) /\ rj text = Ok i /\ fs = mkFS p (cache_label p) i.
Proof.
  intros. unfold read_info. change INFO_FILE_NAME with (py "__github_info__.json"). split.
  - destruct (dget (py "__github_info__.json") sub) as [[text|]|]; try discriminate.
    destruct (rj text) as [i|] eqn:E; cbn [rbind]; try discriminate. intros H. inversion H. eauto.
  - intros (text & i & -> & E & ->). rewrite E. reflexivity.
Qed.

Lemma cache_label_spec : forall p l, labelled p l <-> l = cache_label p.
Proof.
  intros p l. unfold labelled, cache_label.
  assert (S : startswith p (py "punx/cache") = true <-> exists b, p = py "punx/cache" ++ b) by (apply startswith_spec).
  assert (C : startswith p (py "punx/cache") = false -> (contains_sub p (py "punx/cache") = true <-> exists a b, a <> [] /\ p = a ++ py "punx/cache" ++ b)).
  { intros N. rewrite contains_sub_spec. split.
    - intros [a [b E]]. exists a, b. split; auto. intros ->. assert (T : startswith p (py "punx/cache") = true) by (apply S; exists b; exact E). congruence.
    - intros [a [b [_ E]]]. eauto. }
  destruct (startswith p (py "punx/cache")) eqn:E1; cbn [negb andb].
  - split.
    + intros [[_ [_ N]]|[-> _]]; auto. exfalso. apply N. apply S; auto.
    + intros ->. right. split; auto. intros [_ N]. apply N. apply S; auto.
  - assert (N : ~ exists b, p = py "punx/cache" ++ b) by (intros X; apply S in X; discriminate). specialize (C eq_refl).
    destruct (contains_sub p (py "punx/cache")) eqn:E2; cbn [andb].
    + split.
      * intros [[-> _]|[_ X]]; auto. exfalso. apply X. split; auto. apply C; auto.
      * intros ->. left. split; auto. split; auto. apply C; auto.
    + split.
      * intros [[_ [X _]]|[-> _]]; auto. apply C in X. discriminate.
      * intros ->. right. split; auto. intros [X _]. apply C in X. discriminate.
Qed.

Lemma cache_sets_offered : forall rj cpath dir sets, cache_sets rj cpath [] dir = Ok sets -> NoDup (map fst dir) ->
  forall n fs, dget n sets = Some fs <-> offered rj cpath dir n fs.
Proof.
  intros rj cpath dir sets H HN n fs. rewrite (cache_sets_get _ _ _ _ _ H HN n). unfold offered. split.
  - destruct (dget n dir) as [[c|sub]|]; try discriminate.
    destruct (read_info rj (cpath ++ py "/" ++ n) sub) as [[f|]|] eqn:R; try discriminate.
    intros E. inversion E; subst. apply read_info_some in R as (text & i & A & B & C). exists sub, text, i, (cache_label (cpath ++ py "/" ++ n)).
    split; [reflexivity|]. split; [exact A|]. split; [exact B|]. split; [apply cache_label_spec; reflexivity|exact C].
  - intros (sub & text & i & label & -> & A & B & L & C). apply cache_label_spec in L. subst label.
    rewrite (proj2 (read_info_some rj (cpath ++ py "/" ++ n) sub fs)); eauto.
Qed.

Lemma cache_sets_NoDup : forall rj cpath l acc sets, cache_sets rj cpath acc l = Ok sets -> NoDup (map fst acc) -> NoDup (map fst sets).
Proof.
  induction l as [|[item [c|sub]] l IH]; intros acc sets H HN; cbn [cache_sets] in H.
  - inversion H; subst. auto.
  - eauto.
  - destruct (read_info rj (cpath ++ [ch_slash] ++ item) sub) as [[fs|]|e]; cbn [rbind] in H; try discriminate; eauto.
    eapply IH; eauto. apply dset_NoDup; auto.
Qed.

Lemma cache_sets_total : forall rj cpath l acc, readable rj l -> exists sets, cache_sets rj cpath acc l = Ok sets.
Proof.
  induction l as [|[item [c|sub]] l IH]; intros acc HR; cbn [cache_sets]; eauto.
  - apply IH. intros i s t Hi. exact (HR i s t (or_intror Hi)).
  - assert (HR' : readable rj l) by (intros i s t Hi; exact (HR i s t (or_intror Hi))).
    unfold read_info. change INFO_FILE_NAME with (py "__github_info__.json").
    destruct (dget (py "__github_info__.json") sub) as [t|] eqn:G; cbn [rbind]; [|apply IH; auto].
    destruct (HR item sub t (or_introl eq_refl) G) as (text & i & -> & E). rewrite E. cbn [rbind]. apply IH; auto.
Qed.

Lemma cache_sets_fail : forall rj cpath l acc e, cache_sets rj cpath acc l = Exn e -> ~ readable rj l.
Proof.
  intros rj cpath l acc e H HR. destruct (cache_sets_total rj cpath l acc HR) as [s E]. congruence.
Qed.

Lemma cache_sets_readable : forall rj cpath l acc sets, cache_sets rj cpath acc l = Ok sets -> readable rj l.
Proof.
  induction l as [|[item [c|sub]] l IH]; intros acc sets H i s t Hi G; cbn [cache_sets] in H.
  - destruct Hi.
  - destruct Hi as [Hi | Hi]; [discriminate|]. eapply IH; eauto.
  - unfold read_info in H. change INFO_FILE_NAME with (py "__github_info__.json") in H.
    destruct (dget (py "__github_info__.json") sub) as [[text|]|] eqn:E; cbn [rbind] in H; try discriminate.
    + destruct (rj text) as [inf|] eqn:Q; cbn [rbind] in H; [|discriminate].
      destruct Hi as [Hi | Hi]; [|eapply IH; eauto].
      inversion Hi; subst. rewrite E in G. inversion G; subst. eauto.
    + destruct Hi as [Hi | Hi]; [|eapply IH; eauto]. inversion Hi; subst. congruence.
Qed.

(** ** Both caches *)
Lemma dupdate_get : forall {V} (e d : dict V) n, NoDup (map fst e) ->
  dget n (dupdate d e) = match dget n e with Some v => Some v | None => dget n d end.
Proof.
  unfold dupdate. induction e as [|[k v] e IH]; intros d n HN; cbn [fold_left fst snd]; [reflexivity|].
  inversion HN as [|? ? H1 H2]; subst. rewrite IH by auto. rewrite dget_cons.
  destruct (str_eqb n k) eqn:E.
  - apply str_eqb_eq in E. subst. rewrite (proj2 (dget_None _ _ _) H1). apply dget_dset_same.
  - destruct (dget n e); auto.
    apply dget_dset_other. intros ->. rewrite str_eqb_refl in E. discriminate.
Qed.

Lemma dupdate_NoDup : forall {V} (e d : dict V), NoDup (map fst d) -> NoDup (map fst (dupdate d e)).
Proof.
  unfold dupdate. induction e as [|[k v] e IH]; intros; simpl; auto. apply IH. apply dset_NoDup; auto.
Qed.

Lemma all_sets_spec : forall rj k sets, all_file_sets rj k = Ok sets -> distinct_names k ->
  NoDup (map fst sets) /\ forall n fs, dget n sets = Some fs <->
    offered rj (usr_path k) (usr_dir k) n fs
    \/ ((forall f, ~ offered rj (usr_path k) (usr_dir k) n f) /\ offered rj (src_path k) (src_dir k) n fs).
Proof.
  unfold all_file_sets. intros rj k sets H [N1 N2].
  destruct (cache_sets rj (src_path k) [] (src_dir k)) as [a|] eqn:A; cbn [rbind] in H; [|discriminate].
  destruct (cache_sets rj (usr_path k) [] (usr_dir k)) as [b|] eqn:B; cbn [rbind] in H; [|discriminate].
  inversion H; subst. clear H.
  assert (Na : NoDup (map fst a)) by (eapply cache_sets_NoDup; eauto; constructor).
  assert (Nb : NoDup (map fst b)) by (eapply cache_sets_NoDup; eauto; constructor).
  split; [apply dupdate_NoDup, dupdate_NoDup; constructor|].
  intros n fs. rewrite !dupdate_get by auto.
  pose proof (cache_sets_offered _ _ _ _ A N1 n) as OA. pose proof (cache_sets_offered _ _ _ _ B N2 n) as OB.
  destruct (dget n b) as [f|] eqn:E.
  - split.
    + intros Q. inversion Q; subst. left. apply OB. reflexivity.
    + intros [Q | [Q _]]; [apply OB in Q; auto | exfalso; eapply Q, OB; reflexivity].
  - split.
    + intros Q. right. split; [intros f Hf; apply OB in Hf; discriminate|]. apply OA. destruct (dget n a); auto.
    + intros [Q | [_ Q]]; [apply OB in Q; discriminate | apply OA in Q; rewrite Q; auto].
Qed.

Lemma all_sets_total : forall rj k, readable rj (src_dir k) -> readable rj (usr_dir k) -> exists sets, all_file_sets rj k = Ok sets.
Proof.
  intros rj k H1 H2. unfold all_file_sets.
  destruct (cache_sets_total rj (src_path k) _ [] H1) as [a ->]. destruct (cache_sets_total rj (usr_path k) _ [] H2) as [b ->].
  cbn [rbind]. eauto.
Qed.

Lemma all_sets_NoDup : forall rj k sets, all_file_sets rj k = Ok sets -> NoDup (map fst sets).
Proof.
  unfold all_file_sets. intros rj k sets H.
  destruct (cache_sets rj (src_path k) [] (src_dir k)) as [a|] eqn:A; cbn [rbind] in H; [|discriminate].
  destruct (cache_sets rj (usr_path k) [] (usr_dir k)) as [b|] eqn:B; cbn [rbind] in H; [|discriminate].
  inversion H; subst. apply dupdate_NoDup, dupdate_NoDup. constructor.
Qed.

Lemma all_sets_readable : forall rj k sets, all_file_sets rj k = Ok sets -> readable rj (src_dir k) /\ readable rj (usr_dir k).
Proof.
  unfold all_file_sets. intros rj k sets H.
  destruct (cache_sets rj (src_path k) [] (src_dir k)) as [a|] eqn:A; cbn [rbind] in H; [|discriminate].
  destruct (cache_sets rj (usr_path k) [] (usr_dir k)) as [b|] eqn:B; cbn [rbind] in H; [|discriminate].
  split; eapply cache_sets_readable; eauto.
Qed.

(** ** The newest *)
Section Newest.
  Context {A : Type} (leb : A -> A -> bool).
  Hypothesis leb_total : forall x y, leb x y = true \/ leb y x = true.
  Hypothesis leb_trans : forall x y z, leb x y = true -> leb y z = true -> leb x z = true.
  (** the head of a stable sort is the first minimal element *)
  Lemma sort_head : forall l, match ssort leb l with
    | [] => l = []
    | h :: _ => exists before after, l = before ++ h :: after /\ Forall (fun x => leb x h = false) before /\ Forall (fun x => leb h x = true) after
    end.
  Proof.
    induction l as [|x l IH]; simpl; auto.
    pose proof (ssort_sorted leb leb_total leb_trans l) as HS.
    destruct (ssort leb l) as [|y r]; simpl.
    - subst. exists [], []. auto.
    - destruct IH as (before & after & -> & HB & HA). destruct (leb x y) eqn:E.
      + exists [], (before ++ y :: after). split; auto. split; auto. apply Forall_app. split; [|constructor; auto].
        * eapply Forall_impl; [|exact HB]. intros z Hz. destruct (leb_total z y) as [Q | Q]; [congruence|]. eapply leb_trans; eauto.
        * eapply Forall_impl; [|exact HA]. intros z Hz. eapply leb_trans; eauto.
      + exists (x :: before), after. split; auto.
  Qed.
End Newest.

Definition date_geb (a b : pystr * fileset) : bool := str_leb (date_text (snd b)) (date_text (snd a)).
Lemma date_geb_total : forall x y, date_geb x y = true \/ date_geb y x = true.
Proof. intros. unfold date_geb. apply str_leb_total. Qed.
Lemma date_geb_trans : forall x y z, date_geb x y = true -> date_geb y z = true -> date_geb x z = true.
Proof. unfold date_geb. intros. eapply str_leb_trans; eauto. Qed.

Lemma newest_first_ok : forall sets, comparable sets ->
  newest_first sets = Ok (map fst (ssort date_geb sets)).
Proof.
  intros sets HC. unfold newest_first. destruct HC as [HL | HD].
  - destruct (Nat.leb_spec 2 (List.length sets)); [lia|]. reflexivity.
  - replace (existsb (fun kf => undated (snd kf)) sets) with false; [rewrite andb_false_r; reflexivity|].
    symmetry. apply not_true_is_false. intros E. apply existsb_exists in E as ([n fs] & Hi & Hu).
    apply HD in Hi. unfold undated in Hu. simpl in Hu. destruct (fs_date fs); congruence.
Qed.

Lemma newest_first_fail : forall sets, (comparable sets /\ newest_first sets = Ok (map fst (ssort date_geb sets)))
  \/ (~ comparable sets /\ newest_first sets = Exn TypeError).
Proof.
  intros sets. unfold newest_first. destruct (Nat.leb 2 (List.length sets) && existsb (fun kf => undated (snd kf)) sets) eqn:E.
  - right. split; auto. apply andb_true_iff in E as [E1 E2]. apply Nat.leb_le in E1.
    apply existsb_exists in E2 as ([n fs] & Hi & Hu). intros [HL | HD]; [lia|]. apply HD in Hi.
    unfold undated in Hu. simpl in Hu. destruct (fs_date fs); congruence.
  - left. assert (HC : comparable sets).
    { apply andb_false_iff in E as [E | E].
      - left. apply Nat.leb_gt in E. lia.
      - right. intros n fs Hi HU. assert (X : existsb (fun kf => undated (snd kf)) sets = true); [|congruence].
        apply existsb_exists. exists (n, fs). split; auto. unfold undated. simpl. rewrite HU. reflexivity. }
    split; auto.
Qed.

Lemma head_newest : forall sets k rest, map fst (ssort date_geb sets) = k :: rest -> exists fs, newest sets k fs.
Proof.
  intros sets k rest H. pose proof (sort_head date_geb date_geb_total date_geb_trans sets) as S.
  destruct (ssort date_geb sets) as [|[n fs] r]; [discriminate|]. simpl in H. inversion H; subst.
  destruct S as (before & after & -> & HB & HA). exists fs, before, after. split; auto.
  rewrite Forall_forall in HB, HA. split; intros m f Hi.
  - apply (HB _ Hi).
  - intros L. specialize (HA _ Hi). unfold date_geb in HA. simpl in HA. unfold later, the_date in L. unfold date_text in HA. congruence.
Qed.

Lemma newest_get : forall sets n fs, NoDup (map fst sets) -> newest sets n fs -> dget n sets = Some fs.
Proof.
  intros sets n fs HN (before & after & -> & _). rewrite dget_app.
  rewrite map_app in HN. simpl in HN. apply NoDup_remove_2 in HN.
  rewrite (proj2 (dget_None _ _ _)) by (intros X; apply HN; apply in_app_iff; auto).
  unfold dget. simpl. rewrite str_eqb_refl. reflexivity.
Qed.

Lemma newest_unique : forall sets n fs n' fs', newest sets n fs -> newest sets n' fs' -> (n, fs) = (n', fs').
Proof.
  intros sets n fs n' fs' (b & a & E & HB & HA) (b' & a' & E' & HB' & HA').
  rewrite E in E'. clear E.
  assert (L : forall (b b' a a' : list (pystr * fileset)) x y, b ++ x :: a = b' ++ y :: a' -> x = y \/ In x b' \/ In y b).
  { induction b0 as [|z b0 IH]; intros [|z' b0'] a0 a0' x y Q; simpl in *; inversion Q; subst; auto.
    destruct (IH _ _ _ _ _ H1) as [| [|]]; auto. }
  assert (La : forall (b b' a a' : list (pystr * fileset)) x y, b ++ x :: a = b' ++ y :: a' -> x = y \/ (In x b' /\ In y a) \/ (In y b /\ In x a')).
  { induction b0 as [|z b0 IH]; intros [|z' b0'] a0 a0' x y Q; simpl in *; inversion Q; subst; auto.
    - right. left. split; auto. apply in_app_iff. simpl. auto.
    - right. right. split; auto. apply in_app_iff. simpl. auto.
    - destruct (IH _ _ _ _ _ H1) as [|[[]|[]]]; auto 10. }
  destruct (La _ _ _ _ _ _ E') as [Q | [[Q1 Q2] | [Q1 Q2]]]; auto; exfalso.
  - apply HB' in Q1. apply HA in Q2. auto.
  - apply HB in Q1. apply HA' in Q2. auto.
Qed.

Lemma choose_cases : forall sets ref, NoDup (map fst sets) ->
  (comparable sets /\ exists fs, choose sets ref = Ok fs
     /\ ((exists r, ref = Some r /\ dget r sets = Some fs)
         \/ ((forall r, ref = Some r -> dget r sets = None) /\ exists n, newest sets n fs)))
  \/ (sets = [] /\ choose sets ref = Exn IndexError)
  \/ (~ comparable sets /\ choose sets ref = Exn TypeError).
Proof.
  intros sets ref HN. unfold choose. destruct (newest_first_fail sets) as [[HC ->] | [HC ->]]; cbn [rbind]; [|auto].
  assert (KN : forall r, existsb (str_eqb r) (map fst (ssort date_geb sets)) = true <-> exists fs, dget r sets = Some fs).
  { intros r. rewrite existsb_exists. split.
    - intros (x & Hx & E). apply str_eqb_eq in E. subst x. apply in_map_iff in Hx as ([n fs] & <- & Hx).
      apply (Permutation_in _ (ssort_perm date_geb sets)) in Hx.
      destruct (dget n sets) eqn:G; eauto. apply dget_None in G. exfalso. apply G. apply in_map_iff. exists (n, fs). auto.
    - intros (fs & G). apply dget_In in G. exists r. split; [|apply str_eqb_refl]. apply in_map_iff. exists (r, fs). split; auto.
      apply (Permutation_in _ (Permutation_sym (ssort_perm date_geb sets))). auto. }
  assert (Fall : (forall r, ref = Some r -> dget r sets = None) ->
     (exists fs, (dor r <- match map fst (ssort date_geb sets) with k :: _ => Ok k | [] => Exn IndexError end ; dgetitem r sets) = Ok fs /\ exists n, newest sets n fs)
     \/ (sets = [] /\ (dor r <- match map fst (ssort date_geb sets) with k :: _ => Ok k | [] => Exn IndexError end ; dgetitem r sets) = Exn IndexError)).
  { intros Hr. destruct (map fst (ssort date_geb sets)) as [|k ks] eqn:S.
    - right. split; auto. apply map_eq_nil in S. pose proof (Permutation_length (ssort_perm date_geb sets)) as P.
      rewrite S in P. destruct sets; [auto | discriminate].
    - left. destruct (head_newest _ _ _ S) as [fs Hf]. cbn [rbind]. unfold dgetitem. rewrite (newest_get _ _ _ HN Hf). eauto. }
  destruct ref as [r|].
  - destruct (existsb (str_eqb r) (map fst (ssort date_geb sets))) eqn:E.
    + left. split; auto. apply KN in E as [fs G]. exists fs. cbn [rbind]. unfold dgetitem. rewrite G. split; auto. left. eauto.
    + assert (G : dget r sets = None).
      { destruct (dget r sets) as [fs|] eqn:G; auto. assert (X : exists fs, dget r sets = Some fs) by eauto. apply KN in X. congruence. }
      destruct Fall as [(fs & A & B) | [A B]].
      * intros r' Q. inversion Q; subst. auto.
      * left. split; auto. exists fs. split; auto. right. split; auto. intros r' Q. inversion Q; subst. auto.
      * right. left. auto.
  - destruct Fall as [(fs & A & B) | [A B]]; [discriminate | |].
    + left. split; auto. exists fs. split; auto. right. split; auto. discriminate.
    + right. left. auto.
Qed.

Lemma has_text_spec : forall f, if has_text f then described f else ~ described f.
Proof.
  intros f. unfold has_text, described. destruct (i_ref (fs_info f)), (i_sha (fs_info f)); auto.
  - right. discriminate.
  - intros [X | X]; [discriminate | congruence].
Qed.

Lemma select_cases : forall sets ref, NoDup (map fst sets) ->
  (comparable sets /\ exists fs, (described fs /\ select sets ref = Ok fs \/ ~ described fs /\ select sets ref = Exn TypeError)
     /\ ((exists r, ref = Some r /\ dget r sets = Some fs)
         \/ ((forall r, ref = Some r -> dget r sets = None) /\ exists n, newest sets n fs)))
  \/ (sets = [] /\ select sets ref = Exn IndexError)
  \/ (~ comparable sets /\ select sets ref = Exn TypeError).
Proof.
  intros sets ref HN. unfold select. destruct (choose_cases sets ref HN) as [(HC & fs & -> & H) | [[A ->] | [A ->]]]; cbn [rbind]; auto.
  left. split; auto. exists fs. split; auto. pose proof (has_text_spec fs) as T. destruct (has_text fs); auto.
Qed.

Lemma choose_picked : forall sets r fs, NoDup (map fst sets) -> (choose sets (Some r) = Ok fs <-> comparable sets /\ picked sets r fs).
Proof.
  intros sets r fs HN. unfold picked. destruct (choose_cases sets (Some r) HN) as [(HC & f & E & H) | [[A E] | [A E]]]; rewrite E; split.
  - intros Q. injection Q as <-. split; auto. destruct H as [(r' & Q & G) | (N & H)]; [injection Q as <-|]; auto.
  - intros [_ [G | [G (n & N)]]]; destruct H as [(r' & Q & G') | (Q & n' & N')].
    + injection Q as <-. congruence.
    + specialize (Q r eq_refl). congruence.
    + injection Q as <-. congruence.
    + pose proof (newest_unique _ _ _ _ _ N N') as X. congruence.
  - discriminate.
  - intros [_ [G | [_ (n & b & a & X & _)]]]; subst; [discriminate | destruct b; discriminate].
  - discriminate.
  - intros [C _]. contradiction.
Qed.

(** ** The process *)
Definition sets_ok (p : proc) : Prop := match p with Some c => NoDup (map fst (cm_sets c)) /\ cm_default c <> None | None => True end.

Lemma cm_init_spec : forall rj k c, cm_init rj k = Ok c ->
  exists sets n fs, all_file_sets rj k = Ok sets /\ newest sets n fs /\ c = mkCM sets (Some fs).
Proof.
  unfold cm_init. intros rj k c H. destruct (all_file_sets rj k) as [sets|] eqn:A; cbn [rbind] in H; [|discriminate].
  destruct (select_cases sets None (all_sets_NoDup _ _ _ A)) as [(_ & fs & [[_ E] | [_ E]] & [(r & Q & _) | (_ & n & Hn)]) | [[_ E] | [_ E]]]; rewrite E in H; try discriminate.
  inversion H; subst. exists sets, n, fs. auto.
Qed.

Lemma cache_manager_some : forall rj k p p' c, cache_manager rj k p = (p', Ok c) -> p' = Some c /\
  (p = Some c \/ (p = None /\ cm_init rj k = Ok c)).
Proof.
  unfold cache_manager. intros rj k p p' c H. destruct p as [c0|].
  - inversion H; subst. auto.
  - destruct (cm_init rj k) eqn:E; inversion H; subst. auto.
Qed.

Lemma cache_manager_exn : forall rj k p p' e, cache_manager rj k p = (p', Exn e) -> p = None /\ p' = None.
Proof.
  unfold cache_manager. intros rj k p p' e H. destruct p as [c0|]; [inversion H|].
  destruct (cm_init rj k); inversion H; auto.
Qed.

(** what one operation does to the default *)
Definition default_of (p : proc) : option fileset := match p with Some c => cm_default c | None => None end.
Definition chooses (rj : json_reader) (p : proc) (ko : disk * cop) (fs : fileset) : Prop :=
  exists k r c, ko = (k, CValidator (Some r)) /\ snd (cache_manager rj k p) = Ok c /\ comparable (cm_sets c) /\ picked (cm_sets c) r fs.

Lemma init_default : forall rj k c, cm_init rj k = Ok c -> exists sets n fs, all_file_sets rj k = Ok sets /\ newest sets n fs /\ cm_default c = Some fs.
Proof. intros rj k c H. apply cm_init_spec in H as (sets & n & fs & A & B & ->). eauto 10. Qed.

(** the names of the file sets in the list of the process are distinct *)
Definition listed_once (p : proc) : Prop := match p with Some c => NoDup (map fst (cm_sets c)) | None => True end.

Lemma cache_manager_once : forall rj k p p' c, listed_once p -> cache_manager rj k p = (p', Ok c) -> NoDup (map fst (cm_sets c)).
Proof.
  intros rj k p p' c L H. apply cache_manager_some in H as [_ [-> | [-> I]]]; [exact L|].
  apply cm_init_spec in I as (sets & n & fs & A & _ & ->). eapply all_sets_NoDup; eauto.
Qed.

Lemma step_once : forall rj p ko, listed_once p -> listed_once (cstep rj p ko).
Proof.
  intros rj p [k o] L. destruct (cache_manager rj k p) as [p' [c|e]] eqn:C.
  - pose proof (cache_manager_once _ _ _ _ _ L C) as N. apply cache_manager_some in C as C'. destruct C' as [-> _].
    destruct o as [[r|]|]; cbn [cstep].
    + unfold used_file_set. rewrite C. destruct (choose (cm_sets c) (Some r)); exact N.
    + unfold used_file_set. rewrite C. exact N.
    + unfold refresh. rewrite C. destruct (cache_sets rj (src_path k) [] (src_dir k)) as [a|] eqn:A; [|constructor].
      destruct (cache_sets rj (usr_path k) [] (usr_dir k)) as [b|] eqn:B; cbn [listed_once cm_sets];
        repeat (apply dupdate_NoDup); constructor.
  - apply cache_manager_exn in C as C'. destruct C' as [-> ->].
    destruct o as [r|]; cbn [cstep]; [unfold used_file_set | unfold refresh]; rewrite C; exact I.
Qed.

Lemma step_cases : forall rj p ko, listed_once p ->
  (exists fs, chooses rj p ko fs /\ default_of (cstep rj p ko) = Some fs)
  \/ ((forall fs, ~ chooses rj p ko fs) /\
      ((p <> None /\ cstep rj p ko <> None /\ default_of (cstep rj p ko) = default_of p)
       \/ (p = None /\ cstep rj p ko = None)
       \/ (p = None /\ exists sets n fs, all_file_sets rj (fst ko) = Ok sets /\ newest sets n fs /\ default_of (cstep rj p ko) = Some fs))).
Proof.
  intros rj p [k o] LO. destruct (cache_manager rj k p) as [p' [c|e]] eqn:C.
  - pose proof (cache_manager_once _ _ _ _ _ LO C) as ND. pose proof C as C'. apply cache_manager_some in C' as [-> C'].
    assert (Base : forall c', cm_default c' = cm_default c ->
       ((p <> None /\ Some c' <> None /\ default_of (Some c') = default_of p)
       \/ (p = None /\ Some c' = None)
       \/ (p = None /\ exists sets n fs, all_file_sets rj k = Ok sets /\ newest sets n fs /\ default_of (Some c') = Some fs))).
    { intros c' Q. destruct C' as [-> | [-> I]].
      - left. split; [discriminate|]. split; [discriminate | exact Q].
      - right. right. split; auto. destruct (init_default _ _ _ I) as (sets & n & fs & A & B & D). exists sets, n, fs.
        split; auto. split; auto. simpl. congruence. }
    destruct o as [[r|]|]; cbn [cstep fst].
    + unfold used_file_set. rewrite C. destruct (choose (cm_sets c) (Some r)) as [fs|e] eqn:S; cbn [fst].
      * left. exists fs. split; auto. exists k, r, c. rewrite C. apply choose_picked in S; auto.
      * right. split; [|apply Base; auto].
        intros fs (k' & r' & c' & Q & U & V). inversion Q; subst. rewrite C in U. injection U as <-.
        apply choose_picked in V; auto. congruence.
    + unfold used_file_set. rewrite C. cbn [fst]. right. split; [|apply Base; auto].
      intros fs (k' & r' & c' & Q & _). inversion Q.
    + right. split; [intros fs (k' & r' & c' & Q & _); inversion Q|]. unfold refresh. rewrite C.
      destruct (cache_sets rj (src_path k) [] (src_dir k)); [|apply Base; auto].
      destruct (cache_sets rj (usr_path k) [] (usr_dir k)); apply Base; auto.
  - pose proof C as C'. apply cache_manager_exn in C' as [-> ->]. right.
    assert (Z : cstep rj None (k, o) = None).
    { destruct o as [r|]; cbn [cstep]; [unfold used_file_set | unfold refresh]; rewrite C; reflexivity. }
    split; [|auto]. intros fs (k' & r' & c' & Q & U & _). inversion Q; subst. rewrite C in U. discriminate.
Qed.

Lemma crun_snoc : forall rj h ko, crun rj (h ++ [ko]) = cstep rj (crun rj h) ko.
Proof. intros. unfold crun. rewrite fold_left_app. reflexivity. Qed.

Lemma snoc_split : forall {A} (h : list A) x g1 y g2, h ++ [x] = g1 ++ y :: g2 ->
  (exists g2', g2 = g2' ++ [x] /\ h = g1 ++ y :: g2') \/ (g2 = [] /\ y = x /\ g1 = h).
Proof.
  intros A h x g1 y g2 H. destruct (exists_last (l := y :: g2)) as (init & z & E); [discriminate|].
  destruct init as [|i0 init]; simpl in E.
  - inversion E; subst. apply app_inj_tail in H as [-> ->]. auto.
  - inversion E; subst. change (h ++ [x] = g1 ++ (i0 :: init) ++ [z]) in H. rewrite app_assoc in H.
    apply app_inj_tail in H as [-> ->]. left. eauto.
Qed.

Lemma run_once : forall rj h, listed_once (crun rj h).
Proof.
  intros rj h. induction h as [|ko h IH] using rev_ind; [exact I|]. rewrite crun_snoc. apply step_once. exact IH.
Qed.

(** the default after any history *)
Lemma default_history : forall rj h,
  (crun rj h = None /\ none_named rj h)
  \/ (crun rj h <> None /\ exists fs, default_of (crun rj h) = Some fs /\ (last_named rj h fs \/ (none_named rj h /\ first_newest rj h fs))).
Proof.
  intros rj h. induction h as [|ko h IH] using rev_ind.
  - left. split; auto. intros g1 ko' g2 fs' E. destruct g1; discriminate.
  - rewrite crun_snoc. destruct (step_cases rj (crun rj h) ko (run_once rj h)) as [(fs & C & D) | [N S]].
    + right. split; [intros X; rewrite X in D; discriminate|]. exists fs. split; auto. left.
      exists h, ko, []. split; auto. split; auto. intros g1 ko' g2 fs' E. destruct g1; discriminate.
    + assert (Keep : forall fs, last_named rj h fs -> last_named rj (h ++ [ko]) fs).
      { intros fs (h1 & k1 & h2 & E & C & L). exists h1, k1, (h2 ++ [ko]). split; [rewrite E, <- app_assoc; reflexivity|]. split; auto.
        intros g1 ko' g2 fs' E'. apply snoc_split in E' as [(g2' & -> & E') | (-> & -> & ->)]; [eapply L; eauto|].
        rewrite <- E. apply N. }
      assert (KeepN : none_named rj h -> none_named rj (h ++ [ko])).
      { intros L g1 ko' g2 fs' E'. apply snoc_split in E' as [(g2' & -> & E') | (-> & -> & ->)]; [eapply L; eauto | apply N]. }
      destruct S as [(S1 & S2 & S3) | [[S1 S2] | (S1 & sets & n & fs & A & B & D)]].
      * right. split; auto. destruct IH as [[IH _] | (_ & fs & D & L)]; [contradiction|]. exists fs. split; [congruence|].
        destruct L as [L | [L1 (h1 & k & o & h2 & sets & n & E & Q)]]; [left; auto | right].
        split; auto. exists h1, k, o, (h2 ++ [ko]), sets, n. split; auto. rewrite E, <- app_assoc. reflexivity.
      * left. split; auto. apply KeepN. destruct IH as [[_ IH] | [IH _]]; [auto | contradiction].
      * right. split; [intros X; rewrite X in D; discriminate|]. exists fs. split; auto. right.
        split; [apply KeepN; destruct IH as [[_ IH] | [IH _]]; [auto | contradiction]|].
        destruct ko as [k o]. exists h, k, o, [], sets, n. auto.
Qed.

(** an unnamed validator *)
Lemma unnamed : forall rj h k fs, snd (used_file_set rj k (crun rj h) None) = Ok fs ->
  last_named rj h fs
  \/ (none_named rj h /\ first_newest rj (h ++ [(k, CValidator None)]) fs).
Proof.
  intros rj h k fs H. unfold used_file_set in H.
  destruct (cache_manager rj k (crun rj h)) as [p' [c|e]] eqn:C; [|discriminate].
  apply cache_manager_some in C as [-> C]. cbn [snd] in H.
  destruct (cm_default c) as [f|] eqn:D; inversion H; subst f.
  destruct (default_history rj h) as [[A B] | (A & f & Df & L)].
  - right. split; auto. destruct C as [C | [C I]]; [congruence|].
    destruct (init_default _ _ _ I) as (sets & n & f & A1 & A2 & A3). rewrite D in A3. inversion A3; subst f.
    exists h, k, (CValidator None), [], sets, n. auto.
  - destruct C as [C | [C _]]; [|contradiction]. rewrite C in Df. simpl in Df. rewrite D in Df. inversion Df; subst f.
    destruct L as [L | [L1 (h1 & k1 & o & h2 & sets & n & E & Q)]]; [left; auto | right].
    split; auto. exists h1, k1, o, (h2 ++ [(k, CValidator None)]), sets, n. split; auto. rewrite E, <- app_assoc. reflexivity.
Qed.

(** ** Short hashes and the table *)
Lemma short_sha : forall s, get_short_sha s = firstn 7 s.
Proof.
  intros. unfold get_short_sha, SHORT_SHA_LENGTH. destruct (Nat.le_ge_cases 7 (List.length s)) as [L | L].
  - rewrite Nat.min_l by auto. reflexivity.
  - rewrite Nat.min_r by auto. rewrite firstn_all. rewrite firstn_all2; auto.
Qed.

Definition date_leb (a b : pystr * fileset) : bool := str_leb (date_text (snd a)) (date_text (snd b)).
Lemma date_leb_total : forall x y, date_leb x y = true \/ date_leb y x = true.
Proof. intros. unfold date_leb. apply str_leb_total. Qed.
Lemma date_leb_trans : forall x y z, date_leb x y = true -> date_leb y z = true -> date_leb x z = true.
Proof. unfold date_leb. intros. eapply str_leb_trans; eauto. Qed.

Lemma sorted_oldest : forall l, StronglySorted (fun a b => date_leb a b = true) l -> oldest_first l.
Proof.
  induction 1 as [|[n f] l H IH HF]; simpl; auto. split; auto.
  eapply Forall_impl; [|exact HF]. intros [m g] Q L. unfold date_leb in Q. simpl in Q. unfold later in L.
  unfold the_date in L. unfold date_text in Q. simpl in L. congruence.
Qed.

Lemma table_rows_spec : forall l rows, table_rows l = Ok rows -> Forall2 (fun nf row => row_of (fst nf) (snd nf) row) l rows.
Proof.
  induction l as [|[n f] l IH]; intros rows H; cbn [table_rows] in H.
  - inversion H. constructor.
  - destruct (i_sha (fs_info f)) as [sha|] eqn:E; [|discriminate].
    destruct (table_rows l) as [r|]; cbn [rbind] in H; [|discriminate]. inversion H; subst. constructor; auto.
    exists sha. simpl. split; auto. rewrite short_sha. reflexivity.
Qed.

Lemma table_rows_total : forall l, (forall n f, In (n, f) l -> i_sha (fs_info f) <> None) -> exists rows, table_rows l = Ok rows.
Proof.
  induction l as [|[n f] l IH]; intros H; cbn [table_rows]; [eauto|].
  destruct (i_sha (fs_info f)) as [sha|] eqn:E; [|exfalso; apply (H n f); simpl; auto].
  destruct IH as [r ->]; [intros m g Hi; apply (H m g); simpl; auto|]. cbn [rbind]. eauto.
Qed.

Lemma table_spec : forall rj k rows, table_of_caches rj k = Ok rows ->
  exists sets order, all_file_sets rj k = Ok sets /\ Permutation order sets /\ oldest_first order
    /\ Forall2 (fun nf row => row_of (fst nf) (snd nf) row) order rows.
Proof.
  unfold table_of_caches. intros rj k rows H. destruct (all_file_sets rj k) as [sets|]; cbn [rbind] in H; [|discriminate].
  destruct (Nat.leb 2 (List.length sets) && existsb (fun kf => undated (snd kf)) sets); [discriminate|].
  exists sets, (ssort date_leb sets). split; auto. split; [apply ssort_perm|]. split.
  - apply sorted_oldest, ssort_sorted; [apply date_leb_total | apply date_leb_trans].
  - apply table_rows_spec. exact H.
Qed.

Lemma table_total : forall rj k sets, all_file_sets rj k = Ok sets -> comparable sets ->
  (forall n f, In (n, f) sets -> i_sha (fs_info f) <> None) -> exists rows, table_of_caches rj k = Ok rows.
Proof.
  unfold table_of_caches. intros rj k sets -> HC HS. cbn [rbind].
  replace (Nat.leb 2 (List.length sets) && existsb (fun kf => undated (snd kf)) sets) with false.
  - apply table_rows_total. intros n f Hi. apply (HS n f). eapply Permutation_in; [apply (ssort_perm date_leb)|]. exact Hi.
  - symmetry. apply andb_false_iff. destruct HC as [HL | HD].
    + left. apply Nat.leb_gt. lia.
    + right. apply not_true_is_false. intros E. apply existsb_exists in E as ([n fs] & Hi & Hu).
      apply HD in Hi. unfold undated in Hu. simpl in Hu. destruct (fs_date fs); congruence.
Qed.
