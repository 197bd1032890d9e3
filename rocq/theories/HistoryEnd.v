(** * Whole calls after a history *)

From Coq Require Import List Arith NArith Bool String.
From Verif Require Import PyBase H5 Findings Nxdl Core Validate Handles Trace Spec_Groups Spec_History Spec_Handles SimFacts HistoryFacts HandleFacts.
Import ListNotations.

Lemma history_alike : forall u cl calls w fname h v1 r1 v2 r2, dget fname w = Some (FHdf5 h) ->
  validate u w (after u cl calls) fname = (v1, r1) -> validate u w (new_validator cl) fname = (v2, r2) ->
  r1 = r2 /\ v_fname v1 = v_fname v2 /\ v_h5 v1 = v_h5 v2 /\ same_catalogues v1 v2 /\ same_but_plot (st_find (v_st v1)) (st_find (v_st v2)).
Proof.
  intros u cl calls w fname h v1 r1 v2 r2 E H1 H2. unfold validate in H1, H2. rewrite E in H1, H2.
  destruct (validate_open _ (fresh_state (st_classes (v_st (after u cl calls))))) as [s r] eqn:E1.
  destruct (validate_open _ (fresh_state (st_classes (v_st (new_validator cl))))) as [t r'] eqn:E2. inversion H1; inversion H2; subst.
  destruct (open_alike _ _ _ _ _ _ _ (after_strip u cl calls) E1 E2) as [R [I [A [B C]]]]. repeat split; auto.
Qed.

Lemma history_equal : forall u cl calls w fname v1,
  validate u w (after u cl calls) fname = (v1, Ok tt) ->
  (exists i it g, catalogued_group w v1 i it g /\ has_class (u_env u) w it g (py "NXentry")) ->
  exists v2, validate u w (new_validator cl) fname = (v2, Ok tt)
    /\ st_find (v_st v1) = st_find (v_st v2) /\ st_items (v_st v1) = st_items (v_st v2)
    /\ st_addr (v_st v1) = st_addr (v_st v2) /\ st_cp (v_st v1) = st_cp (v_st v2).
Proof.
  intros u cl calls w fname v1 H [i [it [g [[HA [Hi [Ho Hg]]] HC]]]]. unfold validate in *. destruct (dget fname w) as [[h|]|]; try discriminate.
  destruct (validate_open _ _) as [s r] eqn:E1. inversion H; subst. simpl in *.
  destruct (open_equal _ _ _ _ (after_strip u cl calls) E1 i it g HA Hi Ho Hg HC) as [t [E2 S]]. rewrite E2. eexists. split; [reflexivity|]. simpl.
  destruct S as [S1 [S2 [S3 [S4 _]]]]. auto.
Qed.

Lemma findings_and_name : forall u cl calls,
  (st_find (v_st (after u cl calls)) = [] /\ (forall c, In c calls -> ~ readable c))
  \/ exists c1 w f c2, calls = c1 ++ CValidate w f :: c2 /\ readable (CValidate w f) /\ (forall c, In c c2 -> ~ readable c)
       /\ v_st (after u cl calls) = v_st (after u cl (c1 ++ [CValidate w f]))
       /\ (Forall idle c2 -> v_fname (after u cl calls) = Some f).
Proof.
  intros u cl calls. destruct (findings_owner u cl calls) as [H|[c1 [w [f [c2 [E [H1 [H2 H3]]]]]]]]; auto. right. exists c1, w, f, c2. repeat split; auto.
  intros HF. subst calls. apply fname_last; auto.
Qed.

Lemma missing_nothing : forall u w v fname, dget fname w = None -> validate u w v fname = (v, Exn FileNotFound).
Proof. intros u w v fname H. unfold validate. rewrite H. reflexivity. Qed.

Lemma at_most_one : forall u cl calls, List.length (p_open (p_after u cl calls)) <= 1.
Proof.
  intros u cl calls. destruct (handle_inv u cl calls) as [[f|] [_ H]]; [destruct H as [id [-> _]]|destruct H as [-> _]]; simpl; auto.
Qed.

Lemma handle_agrees : forall u cl calls,
  p_fname (p_after u cl calls) = v_fname (after u cl calls) /\ p_st (p_after u cl calls) = v_st (after u cl calls)
  /\ left_open calls (v_h5 (after u cl calls))
  /\ forall w f, snd (p_validate u w (p_after u cl calls) f) = snd (validate u w (after u cl calls) f).
Proof. intros u cl calls. destruct (handle_refines u cl calls) as [A [B C]]. repeat split; auto. intros. apply handle_result. Qed.
