(** * C135: how the info file of a file set is read *)

From Coq Require Import List NArith ZArith Bool String Lia.
From Verif Require Import PyBase PyFacts Json Spec_Json JsonRead Cache InfoFile.
Import ListNotations.
Open Scope string_scope.
Open Scope list_scope.
Local Open Scope N_scope.

(** [json.loads] accepts JSON text and nothing else; the value is the one the text is a
    text of; whatever is no JSON text is a ValueError *)
Theorem C135_loads : forall s v, loads s = Ok v <-> json_text s v.
Proof. exact loads_reads. Qed.
Print Assumptions C135_loads.

Theorem C135_rejects : forall s,
  (loads s = Exn ValueError <-> ~ exists v, json_text s v) /\ (forall e, loads s = Exn e -> e = ValueError).
Proof.
  intros s. split; [|apply loads_error]. split.
  - intros H (v & V). apply loads_reads in V. congruence.
  - intros H. destruct (loads s) as [v|e] eqn:L; [exfalso; apply H; exists v; apply loads_reads; auto|]. f_equal. apply (loads_error s). auto.
Qed.
Print Assumptions C135_rejects.

(** ** Objects *)
Definition filled (l : list (pystr * json)) : dict json := fold_left (fun d kv => dset (fst kv) (snd kv) d) l [].

Lemma object_filled : forall s d, json_text s (JObj d) <-> exists l, object_text s l /\ d = filled l.
Proof.
  intros s d. split.
  - intros (w & t & w' & -> & W & V & W'). inversion V; subst.
    + exists []. split; auto. exists w, w0, w'. split; [cbn [app]; rewrite <- app_assoc; auto|auto].
    + exists l. split; auto. exists w, t0, w'. split; [cbn [app]; rewrite <- app_assoc; auto|auto].
  - intros (l & (w & t & w' & -> & W & W' & [M|[T ->]]) & ->).
    + exists w, (123 :: t ++ [125]), w'. split; [cbn [app]; rewrite <- app_assoc; auto|]. split; auto. split; auto. apply vt_object. auto.
    + exists w, (123 :: t ++ [125]), w'. split; [cbn [app]; rewrite <- app_assoc; auto|]. split; auto. split; auto. apply vt_empty_object. auto.
Qed.

Lemma last_filled : forall k l v, dget k (filled l) = Some v <-> last_value k l v.
Proof.
  intros k l. induction l as [|[k' v'] l IH] using rev_ind; intros v.
  - split; [discriminate|]. intros (l1 & l2 & E & _). destruct l1; discriminate.
  - unfold filled in *. rewrite fold_left_app. cbn [fold_left fst snd]. destruct (str_eqb k k') eqn:K.
    + apply str_eqb_eq in K. subst k'. rewrite dget_dset_same. split.
      * intros H. injection H as ->. exists l, []. split; auto.
      * intros (l1 & l2 & E & Nn). destruct l2 as [|x l2] using rev_ind; [apply app_inj_tail in E; destruct E as [_ E]; congruence|].
        exfalso. apply Nn. rewrite app_comm_cons, app_assoc in E. apply app_inj_tail in E. destruct E as [_ <-]. rewrite map_app. apply in_or_app. right. left. auto.
    + assert (KN : k <> k') by (intros ->; rewrite str_eqb_refl in K; discriminate). rewrite dget_dset_other by auto. rewrite IH. split.
      * intros (l1 & l2 & -> & Nn). exists l1, (l2 ++ [(k', v')]). split; [rewrite <- app_assoc; auto|]. rewrite map_app. intros I. apply in_app_or in I. destruct I as [I|[I|[]]]; auto.
      * intros (l1 & l2 & E & Nn). destruct l2 as [|x l2] using rev_ind; [apply app_inj_tail in E; destruct E as [_ E]; congruence|]. clear IHl2.
        rewrite app_comm_cons, app_assoc in E. apply app_inj_tail in E. destruct E as [-> _]. exists l1, l2. split; auto. intros I. apply Nn. rewrite map_app. apply in_or_app. auto.
Qed.
Lemma none_filled : forall k l, dget k (filled l) = None <-> ~ In k (map fst l).
Proof.
  intros k l. split.
  - intros H I. induction l as [|[k' v'] l IH] using rev_ind; [destruct I|]. unfold filled in *. rewrite fold_left_app in H. cbn [fold_left fst snd] in H.
    rewrite map_app in I. destruct (str_eqb k k') eqn:K.
    + apply str_eqb_eq in K. subst. rewrite dget_dset_same in H. discriminate.
    + assert (KN : k <> k') by (intros ->; rewrite str_eqb_refl in K; discriminate). rewrite dget_dset_other in H by auto. apply IH; auto. apply in_app_or in I. destruct I as [I|[I|[]]]; auto. cbn in I. congruence.
  - intros H. destruct (dget k (filled l)) as [v|] eqn:D; auto. apply last_filled in D. destruct D as (l1 & l2 & -> & _). exfalso. apply H. rewrite map_app. apply in_or_app. right. left. auto.
Qed.
Lemma get_text_says : forall l k o, get_text (filled l) k = Ok o <-> says l k o.
Proof.
  intros l k o. unfold get_text, says. destruct o as [s|].
  - rewrite <- last_filled. destruct (dget k (filled l)) as [[]|]; split; intros H; try discriminate; congruence.
  - rewrite <- last_filled, <- none_filled. destruct (dget k (filled l)) as [[]|]; split; intros H; try discriminate; try congruence; auto; destruct H; discriminate.
Qed.

(** The info file is read if it holds an object of JSON; each of the four facts is the text
    of the last pair with its key, and unknown if there is no such pair or it is null. *)
Theorem C135_info : forall text i,
  read_json text = Ok i <->
  exists l, object_text text l /\ says l (py "ref") (i_ref i) /\ says l (py "sha") (i_sha i)
    /\ says l (py "zip_url") (i_zip_url i) /\ says l (py "last_modified") (i_last_modified i).
Proof.
  intros text i. unfold read_json. split.
  - destruct (loads text) as [v|] eqn:L; cbn [rbind]; [|discriminate]. apply loads_reads in L. destruct v; try discriminate.
    apply object_filled in L. destruct L as (l & O & ->). exists l. split; auto.
    destruct (get_text (filled l) (py "ref")) as [a|] eqn:A; cbn [rbind] in H; [|discriminate].
    destruct (get_text (filled l) (py "sha")) as [b|] eqn:B; cbn [rbind] in H; [|discriminate].
    destruct (get_text (filled l) (py "zip_url")) as [c|] eqn:C; cbn [rbind] in H; [|discriminate].
    destruct (get_text (filled l) (py "last_modified")) as [d|] eqn:D; cbn [rbind] in H; [|discriminate].
    assert (i = mkI a b c d) by congruence. subst i. cbn [i_ref i_sha i_zip_url i_last_modified]. rewrite !get_text_says in *. auto.
  - intros (l & O & A & B & C & D). assert (J : json_text text (JObj (filled l))) by (apply object_filled; eauto). apply loads_reads in J. rewrite J. cbn [rbind].
    apply get_text_says in A, B, C, D. rewrite A. cbn [rbind]. rewrite B. cbn [rbind]. rewrite C. cbn [rbind]. rewrite D. cbn [rbind]. destruct i. auto.
Qed.
Print Assumptions C135_info.

(** What is no JSON is a ValueError, and what is JSON but no object is an AttributeError. *)
Theorem C135_info_errors : forall text,
  (read_json text = Exn ValueError <-> ~ exists v, json_text text v)
  /\ (read_json text = Exn AttributeError <-> (exists v, json_text text v) /\ ~ exists l, object_text text l).
Proof.
  intros text. unfold read_json.
  assert (G : forall d k e, get_text d k = Exn e -> e = Unsupported) by (intros d k e H; unfold get_text in H; destruct (dget k d) as [[]|]; congruence).
  destruct (loads text) as [v|e] eqn:L; cbn [rbind].
  - assert (E : forall d, exists x, (dor ref <- get_text d (py "ref") ; dor sha <- get_text d (py "sha") ; dor url <- get_text d (py "zip_url") ;
                 dor date <- get_text d (py "last_modified") ; Ok (mkI ref sha url date)) = x /\ x <> Exn ValueError /\ x <> Exn AttributeError).
    { intros d. eexists. split; [reflexivity|].
      destruct (get_text d (py "ref")) as [?|e1] eqn:A; cbn [rbind]; [|apply G in A; subst; split; discriminate].
      destruct (get_text d (py "sha")) as [?|e1] eqn:B; cbn [rbind]; [|apply G in B; subst; split; discriminate].
      destruct (get_text d (py "zip_url")) as [?|e1] eqn:C; cbn [rbind]; [|apply G in C; subst; split; discriminate].
      destruct (get_text d (py "last_modified")) as [?|e1] eqn:D; cbn [rbind]; [|apply G in D; subst; split; discriminate]. split; discriminate. }
    apply loads_reads in L. split.
    + split; [|intros H; exfalso; eauto]. destruct v; try discriminate. destruct (E d) as (x & -> & X & _). congruence.
    + assert (U : forall l, object_text text l -> v = JObj (filled l)).
      { intros l O. assert (J : json_text text (JObj (filled l))) by (apply object_filled; eauto). apply loads_reads in J, L. congruence. }
      split.
      * intros H. split; [eauto|]. intros (l & O). rewrite (U l O) in H. destruct (E (filled l)) as (x & X & _ & X'). congruence.
      * intros [_ H]. destruct v; auto. exfalso. apply H. apply object_filled in L. destruct L as (l & O & _). eauto.
  - assert (e = ValueError) by (apply (loads_error text); auto). subst e. split.
    + split; [|auto]. intros _ (v & V). apply loads_reads in V. congruence.
    + split; [discriminate|]. intros [(v & V) _]. apply loads_reads in V. congruence.
Qed.
Print Assumptions C135_info_errors.

(** ** Samples *)
(** an object with a key given twice, an escape, a pair of surrogates and white space *)
Definition sample : pystr :=
  py "{ ""ref"" : ""a"", ""n"": [1, -2.5e3, {}, true] , ""sha"": null, ""ref"":""b\n\ud83d\ude00"" }".
Example C135_sample : read_json sample = Ok (mkI (Some [98; 10; 128512]) None None None).
Proof. vm_compute. reflexivity. Qed.
Example C135_sample_object : exists l, object_text sample l /\ says l (py "ref") (Some [98; 10; 128512]).
Proof. destruct (proj1 (C135_info _ _) C135_sample) as (l & O & R & _). eauto. Qed.
(** a leading zero, a trailing comma, a single quote, a control character, text after the
    value: no JSON; the empty array is JSON, but no object *)
Example C135_bad : Forall (fun s => read_json s = Exn ValueError)
  [py "{""a"": 01}"; py "{""a"": 1,}"; py "{'a': 1}"; py "{""a" ++ [9] ++ py """: 1}"; py "{} {}"; py "[1 2]"; py "{""a"": +1}"; py ""; py "tru"; py "{""\x"": 1}"; py "[1.]"].
Proof. repeat (constructor; [vm_compute; reflexivity|]). constructor. Qed.
Example C135_bad_json : ~ exists v, json_text (py "{""a"": 01}") v.
Proof. apply (proj1 (C135_info_errors _)). vm_compute. reflexivity. Qed.
Example C135_array : read_json (py "[]") = Exn AttributeError.
Proof. vm_compute. reflexivity. Qed.
