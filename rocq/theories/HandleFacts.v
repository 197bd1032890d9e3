(** * Open files and histories *)

From Coq Require Import List Arith NArith Bool String.
From Verif Require Import PyBase PyFacts H5 Findings Nxdl Core Validate Handles Spec_History Spec_Handles.
Import ListNotations.

Lemma p_after_snoc : forall u cl calls c, p_after u cl (calls ++ [c]) = p_call u (p_after u cl calls) c.
Proof. intros. unfold p_after. rewrite fold_left_app. reflexivity. Qed.
Lemma after_snoc : forall u cl calls c, after u cl (calls ++ [c]) = do_call u (after u cl calls) c.
Proof. intros. unfold after. rewrite fold_left_app. reflexivity. Qed.

Lemma handle_inv : forall u cl calls, exists o, left_open calls o
  /\ match o with
     | Some f => exists id, p_open (p_after u cl calls) = [(id, f)] /\ p_h5 (p_after u cl calls) = Some id
     | None => p_open (p_after u cl calls) = [] /\ p_h5 (p_after u cl calls) = None
     end.
Proof.
  intros u cl calls. induction calls as [|c calls IH] using rev_ind; [exists None; split; [constructor|auto]|]. destruct IH as [o [HL HO]].
  rewrite p_after_snoc. set (p := p_after u cl calls) in *. clearbody p.
  assert (CL : p_open (p_close p) = [] /\ p_h5 (p_close p) = None).
  { unfold p_close. destruct o as [f|].
    - destruct HO as [id [E1 E2]]. rewrite E1, E2. simpl. unfold close_file. simpl. rewrite Nat.eqb_refl. auto.
    - destruct HO as [E1 E2]. rewrite E2. auto. }
  destruct c as [w f|]; [|exists None; split; [constructor|exact CL]]. simpl. unfold p_validate. destruct (dget f w) as [[h|]|] eqn:E.
  - exists (Some f). split; [eapply lo_open; eauto|]. simpl.
    assert (C2 : p_open match p_h5 p with Some _ => p_close (mkP (p_open p) (p_next p) (p_h5 p) (Some f) (p_st p)) | None => mkP (p_open p) (p_next p) (p_h5 p) (Some f) (p_st p) end = []).
    { destruct CL as [C1 C2]. unfold p_close in C1 |- *. simpl. destruct (p_h5 p) eqn:Eh; simpl in *; auto. }
    rewrite C2. destruct (validate_open _ _) as [s r]. simpl. eauto.
  - exists None. split; [eapply lo_unreadable; eauto|]. destruct CL as [C1 C2]. unfold p_close in *. simpl. destruct (p_h5 p) eqn:Eh; simpl in *; auto.
  - exists o. split; [constructor; auto|]. exact HO.
Qed.

Lemma snoc_inj : forall A (l l' : list A) x y, l ++ [x] = l' ++ [y] -> l = l' /\ x = y.
Proof. intros. apply app_inj_tail. auto. Qed.
Lemma left_open_fun : forall calls o o', left_open calls o -> left_open calls o' -> o = o'.
Proof.
  intros calls o o' H. revert o'. induction H; intros o' H'; inversion H'; subst; auto;
    try (match goal with H : [] = _ ++ [_] |- _ => destruct (app_cons_not_nil _ _ _ H) | H : _ ++ [_] = [] |- _ => symmetry in H; destruct (app_cons_not_nil _ _ _ H) end);
    match goal with H : _ ++ [_] = _ ++ [_] |- _ => apply snoc_inj in H as [? HH]; inversion HH; subst end; try congruence; auto.
Qed.

Lemma handle_state : forall u cl calls o, left_open calls o ->
  match o with
  | Some f => exists id, p_open (p_after u cl calls) = [(id, f)] /\ p_h5 (p_after u cl calls) = Some id
  | None => p_open (p_after u cl calls) = [] /\ p_h5 (p_after u cl calls) = None
  end.
Proof. intros u cl calls o H. destruct (handle_inv u cl calls) as [o' [H1 H2]]. rewrite (left_open_fun _ _ _ H H1). exact H2. Qed.
Lemma handle_refines : forall u cl calls, p_fname (p_after u cl calls) = v_fname (after u cl calls) /\ p_st (p_after u cl calls) = v_st (after u cl calls)
  /\ left_open calls (v_h5 (after u cl calls)).
Proof.
  intros u cl calls. induction calls as [|c calls [IH1 [IH2 IH3]]] using rev_ind; [simpl; repeat split; constructor|].
  rewrite p_after_snoc, after_snoc. set (p := p_after u cl calls) in *. set (v := after u cl calls) in *. clearbody p v.
  destruct c as [w f|]; simpl.
  - unfold p_validate, validate. destruct (dget f w) as [[h|]|] eqn:E.
    + assert (ES : p_st match p_h5 p with Some _ => p_close (mkP (p_open p) (p_next p) (p_h5 p) (Some f) (p_st p)) | None => mkP (p_open p) (p_next p) (p_h5 p) (Some f) (p_st p) end = v_st v
        /\ p_fname match p_h5 p with Some _ => p_close (mkP (p_open p) (p_next p) (p_h5 p) (Some f) (p_st p)) | None => mkP (p_open p) (p_next p) (p_h5 p) (Some f) (p_st p) end = Some f).
      { unfold p_close. simpl. destruct (p_h5 p); simpl; auto. }
      destruct ES as [ES EF]. cbn [p_h5]. rewrite ES. destruct (validate_open _ _) as [s r]. simpl. split; auto. split; auto. eapply lo_open; eauto.
    + cbn [p_h5]. unfold p_close. simpl. destruct (p_h5 p); simpl; repeat split; auto; eapply lo_unreadable; eauto.
    + simpl. repeat split; auto. constructor; auto.
  - unfold p_close. destruct (p_h5 p); simpl; repeat split; auto; constructor.
Qed.

(** the result of one more call is the same, too *)
Lemma handle_result : forall u cl calls w f, snd (p_validate u w (p_after u cl calls) f) = snd (validate u w (after u cl calls) f).
Proof.
  intros u cl calls w f. destruct (handle_refines u cl calls) as [_ [E _]]. unfold p_validate, validate. destruct (dget f w) as [[h|]|]; auto.
  assert (ES : p_st match p_h5 (p_after u cl calls) with Some _ => p_close (mkP (p_open (p_after u cl calls)) (p_next (p_after u cl calls)) (p_h5 (p_after u cl calls)) (Some f) (p_st (p_after u cl calls)))
      | None => mkP (p_open (p_after u cl calls)) (p_next (p_after u cl calls)) (p_h5 (p_after u cl calls)) (Some f) (p_st (p_after u cl calls)) end = v_st (after u cl calls)).
  { unfold p_close. simpl. destruct (p_h5 _); simpl; auto. }
  cbn [p_h5]. rewrite ES. destruct (validate_open _ _). reflexivity.
Qed.

Lemma close_none : forall u cl calls, p_open (p_close (p_after u cl calls)) = [] /\ p_close (p_close (p_after u cl calls)) = p_close (p_after u cl calls).
Proof.
  intros. split.
  - change (p_close (p_after u cl calls)) with (p_call u (p_after u cl calls) CClose). rewrite <- p_after_snoc.
    apply (handle_state u cl _ None (lo_close calls)).
  - unfold p_close at 2 3. destruct (p_h5 (p_after u cl calls)) eqn:E; unfold p_close; simpl; auto. rewrite E. reflexivity.
Qed.

(** ** Whose findings a validator holds *)
Lemma findings_owner : forall u cl calls,
  (st_find (v_st (after u cl calls)) = [] /\ (forall c, In c calls -> ~ readable c))
  \/ exists c1 w f c2, calls = c1 ++ CValidate w f :: c2 /\ readable (CValidate w f) /\ (forall c, In c c2 -> ~ readable c)
       /\ v_st (after u cl calls) = v_st (after u cl (c1 ++ [CValidate w f])).
Proof.
  intros u cl calls. induction calls as [|c calls IH] using rev_ind; [left; simpl; auto|].
  assert (N : ~ readable c -> v_st (after u cl (calls ++ [c])) = v_st (after u cl calls)).
  { intros NR. rewrite after_snoc. destruct c as [w f|]; simpl in *; auto. unfold validate. destruct (dget f w) as [[h|]|] eqn:E; auto. destruct NR; eauto. }
  assert (D : readable c \/ ~ readable c). { destruct c as [w f|]; simpl; [|tauto]. destruct (dget f w) as [[h|]|]; [left; eauto|right|right]; intros [? ?]; discriminate. }
  destruct D as [D|D].
  - right. destruct c as [w f|]; [|destruct D]. exists calls, w, f, []. split; [reflexivity|]. split; [exact D|]. split; [intros ? []|reflexivity].
  - rewrite (N D). destruct IH as [[E H]|[c1 [w [f [c2 [-> [H1 [H2 H3]]]]]]]].
    + left. split; auto. intros x Hx. apply in_app_or in Hx as [Hx|[<-|[]]]; auto.
    + right. exists c1, w, f, (c2 ++ [c]). rewrite <- app_assoc. split; auto. split; auto. split; auto. intros x Hx. apply in_app_or in Hx as [Hx|[<-|[]]]; auto.
Qed.

Lemma idle_keeps : forall u cl c2 calls, Forall idle c2 ->
  v_fname (after u cl (calls ++ c2)) = v_fname (after u cl calls) /\ v_st (after u cl (calls ++ c2)) = v_st (after u cl calls).
Proof.
  intros u cl c2. induction c2 as [|c c2 IH] using rev_ind; intros calls H; [rewrite app_nil_r; auto|]. apply Forall_app in H as [H1 H2]. inversion H2; subst.
  rewrite app_assoc, after_snoc. destruct (IH calls H1) as [E1 E2]. destruct c as [w f|]; simpl in *; [|auto]. unfold validate. rewrite H3. auto.
Qed.

Lemma fname_last : forall u cl c1 w f c2, readable (CValidate w f) -> Forall idle c2 ->
  v_fname (after u cl (c1 ++ CValidate w f :: c2)) = Some f /\ v_st (after u cl (c1 ++ CValidate w f :: c2)) = v_st (after u cl (c1 ++ [CValidate w f])).
Proof.
  intros u cl c1 w f c2 [h R] H. replace (c1 ++ CValidate w f :: c2) with ((c1 ++ [CValidate w f]) ++ c2) by (rewrite <- app_assoc; reflexivity).
  destruct (idle_keeps u cl c2 (c1 ++ [CValidate w f]) H) as [E1 E2]. split; auto. rewrite E1, after_snoc. simpl. unfold validate. rewrite R. destruct (validate_open _ _). reflexivity.
Qed.
