(** * When the attribute checks complete *)

From Coq Require Import List NArith ZArith Bool String Lia.
From Verif Require Import PyBase PyFacts Regex Utf8 H5 Findings Nxdl Core Catalog ItemName AttributeCheck
  Validate Trace CheckFacts CatalogFacts Spec_Names RegexRead Spec_Run NameFacts RunFacts NameRun ClassNameRun StepOne Spec_Catalog PathFacts CatalogTerm Spec_Number NumberFacts Spec_Attributes PresenceFacts AttrRun.
Import ListNotations.

(** ** Computations that return *)
Definition returns {A} (m : M A) (s : vstate) (P : vstate -> A -> Prop) : Prop := exists s' a, m s = (s', Ok a) /\ P s' a.

Lemma returns_bind : forall A B (m : M A) (f : A -> M B) s P Q, returns m s P -> (forall s' a, P s' a -> returns (f a) s' Q) -> returns (bind m f) s Q.
Proof.
  intros A B m f s P Q [s1 [a [E H]]] Hf. destruct (Hf _ _ H) as [s2 [b [E2 H2]]]. exists s2, b. split; auto. unfold bind. rewrite E. auto.
Qed.
Lemma returns_weaken : forall A (m : M A) s (P Q : vstate -> A -> Prop), returns m s P -> (forall s' a, P s' a -> Q s' a) -> returns m s Q.
Proof. intros A m s P Q [s1 [a [E H]]] Hf. exists s1, a. auto. Qed.
Lemma returns_ret : forall A (a : A) s (P : vstate -> A -> Prop), P s a -> returns (ret a) s P.
Proof. intros. exists s, a. auto. Qed.
Lemma returns_bind_lift : forall A B (r : res A) (f : A -> M B) a s Q, r = Ok a -> returns (f a) s Q -> returns (bind (lift r) f) s Q.
Proof. intros A B r f a s Q -> [s1 [b [E H]]]. exists s1, b. auto. Qed.
Lemma returns_bind_get : forall B (f : vstate -> M B) s Q, returns (f s) s Q -> returns (bind get f) s Q.
Proof. intros B f s Q [s1 [b [E H]]]. exists s1, b. auto. Qed.
Lemma returns_bind_item : forall B i (f : vitem -> M B) it s Q, nth_error (st_items s) i = Some it -> returns (f it) s Q -> returns (bind (item i) f) s Q.
Proof. intros B i f it s Q H [s1 [b [E H2]]]. exists s1, b. split; auto. unfold bind, item. rewrite H. auto. Qed.

Definition same_skel (s s' : vstate) : Prop := map skel (st_items s') = map skel (st_items s).
Lemma same_skel_refl : forall s, same_skel s s.
Proof. reflexivity. Qed.
Lemma same_skel_trans : forall a b c, same_skel a b -> same_skel b c -> same_skel a c.
Proof. unfold same_skel. congruence. Qed.
Lemma same_skel_nth : forall s s' i it, same_skel s s' -> nth_error (st_items s) i = Some it -> exists it', nth_error (st_items s') i = Some it' /\ skel it' = skel it.
Proof.
  intros s s' i it E H. unfold same_skel in E. apply (f_equal (fun l => nth_error l i)) in E. rewrite !nth_error_map, H in E.
  destruct (nth_error (st_items s') i) as [it'|]; cbn [option_map] in E; [|discriminate]. exists it'. split; auto. congruence.
Qed.
Lemma update_skel : forall l i f, map skel (update_nth i (add_val f) l) = map skel l.
Proof. induction l as [|x l IH]; intros [|i] f; simpl; auto. f_equal. auto. Qed.
Lemma sbc_skel : forall s s', same_but_cache s s' -> same_skel s s'.
Proof. intros s s' [A _]. unfold same_skel. rewrite A. reflexivity. Qed.

(** recording works for any item there is *)
Definition there (i : nat) (s : vstate) : Prop := exists it, nth_error (st_items s) i = Some it.
Lemma there_skel : forall i s s', same_skel s s' -> there i s -> there i s'.
Proof. intros i s s' E [it H]. destruct (same_skel_nth _ _ _ _ E H) as [it' [A _]]. exists it'. auto. Qed.

Lemma returns_record : forall i k st cm s, there i s -> returns (record_finding i k st cm) s (fun s' _ => same_skel s s').
Proof.
  intros i k st cm s [it H]. unfold record_finding, bind, item, returns. rewrite H. do 2 eexists. split; [reflexivity|]. unfold same_skel. simpl.
  apply (update_skel (st_items s) i (mkF (it_addr it) k st cm)).
Qed.

Lemma compiles_ok : forall p, compiles p <-> exists r, re_compile p = Ok r.
Proof.
  intros p. split.
  - intros (uw & Ls & A). destruct (reads_compile uw p Ls A) as (bs & E & _). eauto.
  - intros (r & R). destruct (compile_reads (fun _ => false) p r R) as (Ls & A & _). exists (fun _ => false), Ls. exact A.
Qed.
Lemma returns_cached : forall k p s, compiles p -> returns (cached_regexp k p) s (fun s' _ => same_but_cache s s').
Proof.
  intros k p s Hc. apply compiles_ok in Hc. destruct Hc as [r Hr]. unfold returns. destruct (cached_regexp k p s) as [s' x] eqn:E. pose proof (cached_same _ _ _ _ _ E) as HS. unfold cached_regexp in E.
  destruct (dget k (st_cache s)) as [y|]; [|rewrite Hr in E]; inversion E; subst; eauto.
Qed.

Lemma returns_first : forall c o n pats s, Forall (fun kp => compiles (snd kp)) pats -> decode_obj (c_env c) o = Ok (OVal (VStr n)) ->
  returns (first_match c o pats) s (fun s' _ => same_but_cache s s').
Proof.
  intros c o n pats s HF Hd. revert s. induction HF as [|[k p] pats H HF IH]; intros s; cbn [first_match].
  - apply returns_ret. apply sbc_refl.
  - eapply returns_bind; [apply returns_cached; exact H|]. intros s1 r H1. eapply returns_bind_lift; [exact Hd|].
    eapply returns_bind_lift; [reflexivity|]. destruct (re_matches (e_uw (c_env c)) r n); [apply returns_ret; auto|].
    eapply returns_weaken; [apply IH|]. intros s2 a H2. eapply sbc_trans; [exact H1|exact H2].
Qed.

Lemma patterns_compile : forall c, Forall compiles (item_patterns c) -> Forall (fun kp => compiles (snd kp)) (getValidItemNamePatterns c).
Proof.
  intros c H. destruct (valid_patterns_shape c) as [d [E Hd]]. rewrite E. constructor.
  - apply compiles_ok. exists [strict_re]. exact strict_compiled.
  - apply Forall_forall. intros [k p] Hin. apply Hd in Hin as [_ Hin]. rewrite Forall_forall in H. apply H. auto.
Qed.

Lemma returns_match : forall c o n s, Forall compiles (item_patterns c) -> decode_obj (c_env c) o = Ok (OVal (VStr n)) ->
  returns (validItemName_match_key c o) s (fun s' _ => same_but_cache s s').
Proof.
  intros c o n s H Hd. unfold validItemName_match_key. eapply returns_bind; [eapply returns_first; eauto; apply patterns_compile; auto|].
  intros s1 m H1. apply returns_ret. auto.
Qed.

(** only text gets through the name match *)
Lemma match_only_text : forall c o s s' k, validItemName_match_key c o s = (s', Ok k) -> exists n, decode_obj (c_env c) o = Ok (OVal (VStr n)).
Proof.
  intros c o s s' k H. unfold validItemName_match_key in H. apply bind_ok in H as [m [s1 [H _]]].
  destruct (valid_patterns_shape c) as [d [E Hd]]. rewrite E in H. cbn [first_match] in H. apply bind_ok in H as [r [s2 [_ H]]].
  apply bind_ok in H as [x [s3 [H1 H]]]. apply lift_ok in H1 as [-> H1]. apply bind_ok in H as [b [s4 [H2 H]]]. apply lift_ok in H2 as [-> H2].
  destruct x as [h|[]]; simpl in H2; try discriminate. eauto.
Qed.

(** ** The handlers *)
Section Handlers.
  Variable c : ctx.
  Hypothesis Hpat : Forall compiles (item_patterns c).
  Hypothesis Hroot : is_group_obj (c_world c) (c_root c) = true.
  Variable i : nat.


  Lemma target_parts_returns : forall parts addr s, there i s -> returns (target_parts c i addr parts) s (fun s' _ => same_skel s s').
  Proof.
    induction parts as [|p parts IH]; intros addr s Hi; cbn [target_parts]; [apply returns_ret; apply same_skel_refl|].
    eapply returns_bind; [apply (returns_match c (OVal (VStr p)) p s Hpat); reflexivity|]. intros s1 k H1. apply sbc_skel in H1.
    pose proof (there_skel _ _ _ H1 Hi) as Hi1. destruct k as [k|].
    - eapply returns_bind_lift; [apply group_in; exact Hroot|]. destruct (contains _ _ _).
      + eapply returns_weaken; [apply IH; auto|]. intros. eapply same_skel_trans; eauto.
      + eapply returns_bind; [apply returns_record; auto|]. intros. apply returns_ret. eapply same_skel_trans; eauto.
    - eapply returns_bind; [apply returns_record; auto|]. intros. apply returns_ret. eapply same_skel_trans; eauto.
  Qed.

  Lemma axis_returns : forall h n s, there i s -> is_group_obj (c_world c) h = true ->
    (getitem (c_world c) h n = Exn KeyError \/ exists t, getitem (c_world c) h n = Ok t) ->
    returns (axis_check c i (ONode h) (OVal (VStr n))) s (fun s' _ => same_skel s s').
  Proof.
    intros h n s Hi Hg Hget. unfold axis_check. eapply returns_bind; [apply (returns_match c (OVal (VStr n)) n s Hpat); reflexivity|].
    intros s1 k H1. apply sbc_skel in H1. destruct (name_verdict k) as [st txt].
    eapply returns_bind; [apply returns_record; eapply there_skel; eauto|]. intros s2 [] H2.
    assert (H02 : same_skel s s2) by (eapply same_skel_trans; eauto).
    assert (X : exists b, hobj_get (c_world c) (ONode h) (VStr n) = Ok b).
    { cbn [hobj_get]. rewrite Hg. unfold getopt. destruct Hget as [->|[t ->]]; simpl; eauto. }
    destruct X as [b Hb]. eapply returns_bind_lift; [exact Hb|]. eapply returns_weaken; [apply returns_record; eapply there_skel; eauto|].
    intros. eapply same_skel_trans; eauto.
  Qed.

  Lemma for_each_returns : forall A (f : A -> M unit) l s, there i s ->
    (forall x s, In x l -> there i s -> returns (f x) s (fun s' _ => same_skel s s')) -> returns (for_each f l) s (fun s' _ => same_skel s s').
  Proof.
    induction l as [|x l IH]; intros s Hi Hf; cbn [for_each]; [apply returns_ret; apply same_skel_refl|].
    eapply returns_bind; [apply Hf; [left; auto|auto]|]. intros s1 [] H1. eapply returns_weaken; [apply IH|].
    - eapply there_skel; eauto.
    - intros. apply Hf; auto. right. auto.
    - intros. eapply same_skel_trans; eauto.
  Qed.

  (** an attribute item, its parent and the values its check reads *)
  Variables (s : vstate) (it pit : vitem) (p : nat) (h : handle) (val : pyval) (a name : pystr).
  Hypothesis Hit : nth_error (st_items s) i = Some it.
  Hypothesis Hparent : it_parent it = Some p.
  Hypothesis Hpit : nth_error (st_items s) p = Some pit.
  Hypothesis Hown : it_obj pit = ONode h.
  Hypothesis Hval : it_obj it = OVal val.
  Hypothesis Haddr : it_addr it = Some a.
  Hypothesis Hat : In ch_at a.
  Hypothesis Hname : it_name it = Some name.

  Lemma Hthere : there i s.
  Proof. exists it. auto. Qed.

  Lemma nxclass_returns : forall x, decode_byte_string (c_env c) val = Ok (VStr x) -> returns (nxclass_handler c i) s (fun s' _ => same_skel s s').
  Proof.
    intros x Hd. unfold nxclass_handler. eapply returns_bind_item; [exact Hit|]. eapply returns_bind_lift; [rewrite Hval; simpl; rewrite Hd; reflexivity|].
    apply returns_bind_get. cbn iota. destruct (dget x (st_classes s)) as [d|]; [destruct (isBaseClassNXDL d)|]; apply returns_record; apply Hthere.
  Qed.

  Lemma target_returns : forall x, decode_byte_string (c_env c) val = Ok (VStr x) -> returns (target_handler c i) s (fun s' _ => same_skel s s').
  Proof.
    intros x Hd. unfold target_handler. eapply returns_bind_item; [exact Hit|]. eapply returns_bind_lift; [rewrite Hval; simpl; rewrite Hd; reflexivity|].
    cbv beta iota. destruct (negb (startswith x slash)); [apply returns_record; apply Hthere|].
    eapply returns_bind; [apply target_parts_returns; apply Hthere|]. intros s1 b H1. destruct b; [|apply returns_ret; auto].
    eapply returns_bind_lift; [apply group_in; exact Hroot|]. eapply returns_weaken; [apply returns_record; eapply there_skel; eauto; apply Hthere|].
    intros. eapply same_skel_trans; eauto.
  Qed.

  Lemma signal_returns : (isHdf5Group (c_world c) h = true /\ exists x, decode_byte_string (c_env c) val = Ok (VStr x)) \/
    (isHdf5Dataset (c_world c) h = true /\ exists o, decode_byte_string (c_env c) val = Ok o /\ ~ digits_not_int (c_env c) o) \/
    (isHdf5Group (c_world c) h = false /\ isHdf5Dataset (c_world c) h = false /\ exists o, decode_byte_string (c_env c) val = Ok o) ->
    returns (signal_handler c i) s (fun s' _ => same_skel s s').
  Proof.
    intros H. unfold signal_handler, parent_item, generic_handler. eapply returns_bind_item; [exact Hit|]. rewrite Hval, Hparent. cbn [decode_obj].
    destruct H as [[Hg [x Hd]]|[[Hg [o [Hd Hi]]]|[Hg [Hg2 [o Hd]]]]]; rewrite Hd; (eapply returns_bind_lift; [reflexivity|]);
      (eapply returns_bind_item; [exact Hpit|]); rewrite Hown; cbn [hobj_isdataset hobj_isgroup].
    - rewrite (group_not_dataset _ _ Hg), Hg. eapply returns_bind; [apply (returns_match c (OVal (VStr x)) x s Hpat); reflexivity|].
      intros s1 k H1. apply sbc_skel in H1. eapply returns_bind_lift; [reflexivity|]. destruct (name_verdict k) as [st txt].
      eapply returns_bind; [apply returns_record; eapply there_skel; eauto; apply Hthere|]. intros s2 [] H2.
      assert (H02 : same_skel s s2) by (eapply same_skel_trans; eauto).
      eapply returns_bind_lift; [cbn [hobj_in]; apply group_in; apply isHdf5Group_obj; exact Hg|]. eapply returns_bind_lift; [reflexivity|].
      eapply returns_weaken; [apply returns_record; eapply there_skel; eauto; apply Hthere|]. intros. eapply same_skel_trans; eauto.
    - rewrite Hg. cbn [hobj_str]. assert (X : exists one, (if py_isdigit (c_env c) (py_str o) then let* n := lift (py_int (c_env c) (OVal o)) in ret (Z.eqb n 1) else ret false) s = (s, Ok one)).
      { destruct (py_isdigit (c_env c) (py_str o)) eqn:Ed; [|eexists; reflexivity]. destruct (py_int (c_env c) (OVal o)) as [z|e] eqn:Ei; [eexists; reflexivity|].
        exfalso. apply Hi. split; [apply isdigit_text; auto|]. intros z. rewrite <- int_value. congruence. }
      destruct X as [one X]. apply (returns_bind _ _ _ _ s (fun s' _ => s' = s)); [exists s, one; auto|]. intros s1 b ->.
      destruct b; apply returns_record; apply Hthere.
    - rewrite Hg2, Hg. apply returns_record. apply Hthere.
  Qed.

  Lemma axes_returns : forall o l, decode_byte_string (c_env c) val = Ok o -> names_in o = Some l ->
    (forall n, In n l -> is_group_obj (c_world c) h = true /\ (getitem (c_world c) h n = Exn KeyError \/ exists t, getitem (c_world c) h n = Ok t)) ->
    returns (axes_handler c i) s (fun s' _ => same_skel s s').
  Proof.
    intros o l Hd Hn Hg. unfold axes_handler, parent_item. eapply returns_bind_item; [exact Hit|]. rewrite Hval, Hparent. cbn [decode_obj]. rewrite Hd.
    eapply returns_bind_lift; [reflexivity|]. eapply returns_bind_item; [exact Hpit|]. rewrite Hown.
    assert (X : axes_values (OVal o) = map (fun n => OVal (VStr n)) l).
    { destruct o; simpl in Hn; inversion Hn; subst; simpl; auto. destruct l0; inversion Hn. reflexivity. }
    rewrite X. eapply returns_bind.
    - apply for_each_returns; [apply Hthere|]. intros x sx Hx Hi. apply in_map_iff in Hx as [n [<- Hx]]. destruct (Hg _ Hx). apply axis_returns; auto.
    - intros s1 [] H1. eapply returns_weaken; [apply returns_record; eapply there_skel; eauto; apply Hthere|]. intros. eapply same_skel_trans; eauto.
  Qed.

  Lemma attribute_returns : checkable (c_env c) (c_world c) h val name -> returns (attribute_verify c i) s (fun s' _ => same_skel s s').
  Proof.
    intros H. unfold attribute_verify. eapply returns_bind_item; [exact Hit|]. rewrite Haddr. rewrite (proj2 (has_char_spec _ _) Hat). cbn [negb]. rewrite Hname.
    destruct (str_eqb_spec name (py "NX_class")) as [->|N1]; [inversion H; subst; [eapply nxclass_returns; eauto|exfalso; apply H0; simpl; auto]|].
    destruct (str_eqb_spec name (py "target")) as [->|N2]; [inversion H; subst; [eapply target_returns; eauto|exfalso; apply H0; simpl; auto]|].
    destruct (str_eqb_spec name (py "signal")) as [->|N3].
    { inversion H; subst; apply signal_returns;
        first [left; split; [assumption|eexists; eassumption]
              |right; left; split; [assumption|eexists; split; eassumption]
              |right; right; split; [assumption|split; [assumption|eexists; eassumption]]
              |exfalso; match goal with X : ~ In _ _ |- _ => apply X end; simpl; auto]. }
    destruct (str_eqb_spec name (py "axes")) as [->|N4]; [inversion H; subst; [eapply axes_returns; eauto|exfalso; apply H0; simpl; auto 10]|].
    apply returns_record. apply Hthere.
  Qed.

  Lemma attribute_returned : forall s', attribute_verify c i s = (s', Ok tt) -> checkable (c_env c) (c_world c) h val name.
  Proof.
    intros s' H. unfold attribute_verify in H. apply bind_ok in H as [x [s0 [H0 H]]]. apply item_ok in H0 as [-> H0]. rewrite Hit in H0. inversion H0; subst x. clear H0.
    rewrite Haddr, (proj2 (has_char_spec _ _) Hat), Hname in H. cbn [negb] in H.
    assert (D : forall (f : hobj -> M unit), (let* v := lift (decode_obj (c_env c) (it_obj it)) in f v) s = (s', Ok tt) ->
      exists o, decode_byte_string (c_env c) val = Ok o /\ f (OVal o) s = (s', Ok tt)).
    { intros f X. apply bind_ok in X as [o [s1 [X1 X]]]. apply lift_ok in X1 as [-> X1]. rewrite Hval in X1. simpl in X1.
      destruct (decode_byte_string (c_env c) val) as [d|]; inversion X1; subst. eauto. }
    assert (IT : forall (f : vitem -> M unit), (let* x := item i in f x) s = (s', Ok tt) -> f it s = (s', Ok tt)).
    { intros f X. apply bind_ok in X as [x [s0 [X1 X]]]. apply item_ok in X1 as [-> X1]. rewrite Hit in X1. inversion X1; subst. auto. }
    assert (PI : forall (f : vitem -> M unit), (let* x := parent_item it in f x) s = (s', Ok tt) -> f pit s = (s', Ok tt)).
    { intros f X. unfold parent_item in X. rewrite Hparent in X. apply bind_ok in X as [x [s0 [X1 X]]]. apply item_ok in X1 as [-> X1]. rewrite Hpit in X1. inversion X1; subst. auto. }
    destruct (str_eqb_spec name (py "NX_class")) as [->|N1].
    { unfold nxclass_handler in H. apply IT, D in H as [o [Hd H]]. apply bind_ok in H as [st [s1 [_ H]]]. destruct o; try (inversion H; fail). eapply ck_class; eauto. }
    destruct (str_eqb_spec name (py "target")) as [->|N2].
    { unfold target_handler in H. apply IT, D in H as [o [Hd H]]. destruct o; try (inversion H; fail). eapply ck_target; eauto. }
    destruct (str_eqb_spec name (py "signal")) as [->|N3].
    { unfold signal_handler in H. apply IT, D in H as [o [Hd H]]. apply PI in H. rewrite Hown in H. cbn [hobj_isdataset hobj_isgroup hobj_str] in H.
      destruct (isHdf5Dataset (c_world c) h) eqn:E1.
      - eapply ck_signal_field; eauto. intros [X1 X2]. apply isdigit_text in X1. rewrite X1 in H. apply bind_ok in H as [one [s1 [Y _]]]. apply bind_ok in Y as [z [s2 [Y _]]].
        apply lift_ok in Y as [_ Y]. apply int_value in Y. exact (X2 _ Y).
      - destruct (isHdf5Group (c_world c) h) eqn:E2; [|eapply ck_signal_other; eauto].
        apply bind_ok in H as [k [s1 [H1 H]]]. apply bind_ok in H as [tn [s2 [H2 H]]]. apply lift_ok in H2 as [-> H2]. destruct o; simpl in H2; try discriminate.
        eapply ck_signal_group; eauto. }
    destruct (str_eqb_spec name (py "axes")) as [->|N4].
    { unfold axes_handler in H. apply IT, D in H as [o [Hd H]]. apply PI in H. rewrite Hown in H. apply bind_ok in H as [[] [s1 [H _]]].
      assert (AX : forall l sx sy, for_each (fun a => axis_check c i (ONode h) a) l sx = (sy, Ok tt) -> forall x, In x l ->
        exists y, decode_obj (c_env c) x = Ok (OVal (VStr y)) /\ is_group_obj (c_world c) h = true
          /\ forall n, x = OVal (VStr n) -> getitem (c_world c) h n = Exn KeyError \/ exists t, getitem (c_world c) h n = Ok t).
      { induction l as [|x l IH]; intros sx sy HX x' Hin; [destruct Hin|]. cbn [for_each] in HX. apply bind_ok in HX as [[] [sz [HX1 HX2]]].
        destruct Hin as [<-|Hin]; [|eapply IH; eauto]. unfold axis_check in HX1. apply bind_ok in HX1 as [k [s2 [M1 HX1]]].
        apply match_only_text in M1 as [y Hy]. exists y. split; auto. destruct (name_verdict k). apply bind_ok in HX1 as [[] [s3 [_ HX1]]].
        destruct x as [hx|vx]; [inversion HX1|]. apply bind_ok in HX1 as [b [s4 [G _]]]. apply lift_ok in G as [-> G]. cbn [hobj_get] in G.
        destruct (is_group_obj (c_world c) h); [|discriminate]. split; auto. intros n E. inversion E; subst vx. unfold getopt in G.
        destruct (getitem (c_world c) h n) as [t|e]; [right; eauto|]. destruct e; inversion G. left. auto. }
      pose proof (AX _ _ _ H) as AX'.
      assert (exists l, names_in o = Some l /\ axes_values (OVal o) = map (fun n => OVal (VStr n)) l) as [l [L1 L2]].
      { destruct o; simpl names_in; simpl axes_values; eauto;
          try (destruct (AX' _ (or_introl eq_refl)) as [y [Hy _]]; simpl in Hy; inversion Hy; fail).
        - (* a bytes value is decoded *) destruct val; simpl in Hd; try (inversion Hd; fail); try (destruct (decode_bytes _ _); inversion Hd; fail).
          + destruct l; inversion Hd.
          + destruct l; [inversion Hd|]. destruct (traverse _ _); inversion Hd.
        - destruct val; simpl in Hd; try (inversion Hd; fail); try (destruct (decode_bytes _ _); inversion Hd; fail).
          + destruct l0; inversion Hd.
          + destruct l0; [inversion Hd|]. destruct (traverse _ _); inversion Hd.
        - destruct val; simpl in Hd; try (inversion Hd; fail); try (destruct (decode_bytes _ _); inversion Hd; fail).
          + destruct l0; inversion Hd.
          + destruct l0; [inversion Hd|]. destruct (traverse _ _); inversion Hd.
        - destruct l as [|r l]; [eauto|]. destruct (AX' (OVal (VFloat r)) (or_introl eq_refl)) as [y [Hy _]]. simpl in Hy. inversion Hy. }
      eapply ck_axes; eauto. intros n Hn. destruct (AX' (OVal (VStr n))) as [y [_ [G1 G2]]].
      - rewrite L2. apply in_map_iff. eauto.
      - split; auto. }
    apply ck_generic. intros [X|[X|[X|[X|[]]]]]; congruence.
  Qed.
End Handlers.

Lemma attribute_check_total : forall c, Forall compiles (item_patterns c) -> is_group_obj (c_world c) (c_root c) = true ->
  forall i s it pit p h val a name, nth_error (st_items s) i = Some it -> it_parent it = Some p -> nth_error (st_items s) p = Some pit ->
  it_obj pit = ONode h -> it_obj it = OVal val -> it_addr it = Some a -> In 64%N a -> it_name it = Some name ->
  ((exists s', attribute_verify c i s = (s', Ok tt)) <-> checkable (c_env c) (c_world c) h val name).
Proof.
  intros c Hp Hr i s it pit p h val a name H1 H2 H3 H4 H5 H6 H7 H8. split.
  - intros [s' H]. exact (attribute_returned c i s it pit p h val a name H1 H2 H3 H4 H5 H6 H7 H8 s' H).
  - intros H. destruct (attribute_returns c Hp Hr i s it pit p h val a name H1 H2 H3 H4 H5 H6 H7 H8 H) as [s' [[] [E _]]]. eauto.
Qed.
