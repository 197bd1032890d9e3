(** * How the lines of a tree view read *)

From Coq Require Import List NArith ZArith Bool String Lia Arith.
From Verif Require Import PyBase PyFacts Utf8 H5 H5Tree Spec_Tree Spec_TreeMembers Spec_TreeText TreeFacts TreeEnd TreeMembers.
Import ListNotations.
Local Open Scope nat_scope.

Lemma blanks_indent : forall d, blanks d = indent d.
Proof.
  induction d as [|d IH]; [reflexivity|]. cbn [blanks]. rewrite IH. unfold indent. replace (2 * S d) with (S (S (2 * d))) by lia. reflexivity.
Qed.
Lemma blanks_next : forall d, blanks d ++ py "  " = blanks (S d).
Proof. induction d as [|d IH]; [reflexivity|]. cbn [blanks]. rewrite <- app_assoc, IH. reflexivity. Qed.

Lemma reads_text : forall l, reads l (text_of l).
Proof. intros [d b]. unfold text_of. cbn [ln_depth ln_body]. rewrite <- blanks_indent. destruct b; constructor. Qed.
Lemma reads_fun : forall l a b, reads l a -> reads l b -> a = b.
Proof. intros l a b H1 H2. destruct H1; inversion H2; reflexivity. Qed.

Lemma render_type_shown : forall up nexus v t, render_type up nexus v = Ok t -> shown_type nexus up v t.
Proof.
  intros up nexus v t H. unfold shown_type. destruct v; cbn [render_type] in H; try discriminate; injection H as <-;
    (eexists; split; [constructor|reflexivity]).
Qed.
Lemma shape_shown : forall s, shown_shape s (render_shape s).
Proof. intros s. destruct s as [|[|[|n]] [|k s]]; try (apply (ss_dims); discriminate). apply ss_one. Qed.

Lemma decoded_all : forall enc l ss, traverse (fun b => dor t <- decode_bytes enc b ; Ok (py """" ++ t ++ py """")) l = Ok ss ->
  exists ts, ss = map quoted ts /\ Forall2 (fun b s => decode_bytes enc b = Ok s) l ts.
Proof.
  intros enc. induction l as [|b l IH]; intros ss H; cbn [traverse] in H.
  - injection H as <-. exists []. split; [reflexivity|constructor].
  - destruct (decode_bytes enc b) as [t|] eqn:D; [|discriminate]. cbn [rbind] in H.
    destruct (traverse _ l) as [r|] eqn:T; [|discriminate]. cbn [rbind] in H. injection H as <-.
    destruct (IH _ eq_refl) as [ts [-> F]]. exists (t :: ts). split; [reflexivity|constructor; auto].
Qed.

Lemma dataset_shown : forall E up ds nexus m h name d ls, dataset_lines E up ds nexus m h name d = Ok ls -> has_shape (ds h) ->
  exists text own, ls = mkLine d (BField name text) :: own /\ shown_field E nexus up m d (ds h) text own.
Proof.
  intros E up ds nexus m h name d ls H W. unfold dataset_lines in H. destruct (render_type up nexus (ds h)) as [ty|] eqn:R; [|discriminate].
  apply render_type_shown in R. cbn [rbind] in H. unfold shown_field.
  destruct (ds h) as [b|l|rows k|s t|dt shape a|] eqn:V; cbn [shape_of]; [| | | | |discriminate].
  - destruct (decode_bytes (e_enc E) b) as [t|] eqn:D; [|discriminate]. cbn [rbind] in H. injection H as <-.
    eexists _, _. split; [reflexivity|]. exists ty, [], (py " = " ++ t). split; [exact R|]. split; [constructor; exact D|]. split; reflexivity.
  - destruct (traverse _ l) as [ss|] eqn:T; [|discriminate]. cbn [rbind] in H. injection H as <-. apply decoded_all in T as [ts [-> F]].
    eexists _, _. split; [reflexivity|]. eexists ty, [], _. split; [exact R|]. split; [|split; reflexivity].
    rewrite map_length. assert (L : List.length l = List.length ts) by (clear - F; induction F; simpl; congruence). destruct ts as [|t1 [|t2 ts]]; cbn [List.length Nat.ltb Nat.leb].
    + inversion F; subst. apply sv_no_text.
    + inversion F as [|b x l' y D F' E1 E2]; subst. inversion F'; subst. apply sv_one_text. exact D.
    + apply sv_texts; [cbn [List.length] in L; lia|exact F].
  - destruct rows as [|rows]; [|discriminate]. injection H as <-. eexists _, _. split; [reflexivity|]. exists ty, [], (py " = ").
    split; [exact R|]. split; [constructor|]. split; reflexivity.
  - injection H as <-. eexists _, _. split; [reflexivity|]. exists ty, [], (py " = " ++ t). split; [exact R|]. split; [constructor|]. split; reflexivity.
  - cbn [has_shape] in W.
    assert (GEN : shape <> [1] ->
      (if (m >? 2)%Z then
              dor v <- render_array m shape a (indent (S d)) ;
              if Nat.ltb (List.length shape) 2
              then Ok [mkLine d (BField name (ty ++ render_shape shape ++ py " = " ++ v))]
              else Ok [mkLine d (BField name (ty ++ render_shape shape ++ py " = __array"));
                       mkLine (S d) (BArray v)]
            else Ok [mkLine d (BField name (ty ++ render_shape shape ++ py " = [ ... ]"))]) = Ok ls ->
      exists text own, ls = mkLine d (BField name text) :: own /\ exists ty0 sh value, shown_type nexus up (DOther dt shape a) ty0
        /\ shown_value E m d (DOther dt shape a) value own /\ text = ty0 ++ sh ++ value /\ shown_shape shape sh).
    { clear H. intros NO H. rewrite Z.gtb_ltb in H. destruct (Z.ltb_spec 2 m) as [Hm|Hm].
      - destruct (render_array m shape a (indent (S d))) as [v|] eqn:RA; [|discriminate]. cbn [rbind] in H. unfold render_array in RA.
        destruct shape as [|n rest].
        + injection RA as <-. cbn [List.length Nat.ltb Nat.leb] in H. injection H as <-. eexists _, _. split; [reflexivity|].
          exists ty, (render_shape []), (py " = "). split; [exact R|]. split; [constructor; exact Hm|]. split; [reflexivity|apply shape_shown].
        + rewrite <- blanks_indent, blanks_next in RA. replace (S (S d)) with (d + 2) in RA by lia.
          destruct (render_nd_text m Hm (n :: rest) a (blanks (d + 2)) ltac:(discriminate) W) as [v' [E1 AT]]. assert (v' = v) by congruence. subst v'.
          destruct rest as [|n2 rest]; cbn [List.length Nat.ltb Nat.leb] in H; injection H as <-; (eexists _, _; split; [reflexivity|]).
          * exists ty, (render_shape [n]), (py " = " ++ v). split; [exact R|]. split; [apply sv_flat; auto; congruence|]. split; [reflexivity|apply shape_shown].
          * exists ty, (render_shape (n :: n2 :: rest)), (py " = __array"). split; [exact R|].
            split; [apply sv_nested; auto; cbn [List.length]; lia|]. split; [reflexivity|apply shape_shown].
      - injection H as <-. eexists _, _. split; [reflexivity|]. exists ty, (render_shape shape), (py " = [ ... ]").
        split; [exact R|]. split; [apply sv_hidden; auto|]. split; [reflexivity|apply shape_shown]. }
    destruct shape as [|[|[|n]] [|k s]]; try (apply GEN; [discriminate|exact H]). clear GEN.
    destruct a as [|l]; [destruct W|]. destruct W as [WL W]. destruct l as [|x [|y l]]; try discriminate WL.
    apply Forall_inv in W. destruct x as [s r|]; [|destruct W]. cbn in H. injection H as <-. eexists _, _. split; [reflexivity|].
    exists ty, [], (py " = " ++ s). split; [exact R|]. split; [constructor|]. split; [reflexivity|constructor].
Qed.

Section Tree.
  Variables (E : env) (up : pystr -> pystr) (w : world) (ds : handle -> dsview) (nexus : bool) (m : Z).

  Lemma dataset_reads : forall at_ h d name l v s, leads_to w h name v -> dget name (links_of w h) = Some l -> in_full E w nexus v ->
    isHdf5Dataset w v = true -> has_shape (ds v) -> render_member E up w ds nexus m at_ h d (name, l) = Ok s ->
    exists text own al, s = Now (mkLine d (BField name text) :: own ++ al) /\ shown_field E nexus up m d (ds v) text own /\
      attribute_lines E d at_ (attrs_of w v ++ link_attributes l) al.
  Proof.
    intros at_ h d name l v s Hv Hl Hi Hd W H. rewrite (member_leads E up w ds nexus m _ _ _ _ _ _ Hv Hl) in H.
    rewrite (full_not_link E w nexus _ Hi) in H. cbn [rbind] in H. rewrite (dataset_no_group w _ Hd), Hd in H.
    unfold render_dataset in H. rewrite (full_here E w nexus _ Hi Hd) in H. cbn [rbind] in H.
    destruct (dataset_lines E up ds nexus m v name d) as [x|] eqn:Ex; [|discriminate]. cbn [rbind] in H.
    destruct (render_attributes E w at_ v d []) as [y|] eqn:Ey; [|discriminate]. cbn [rbind] in H.
    destruct (link_lines E at_ l d) as [z|] eqn:Ez; [|discriminate]. cbn [rbind] in H. injection H as <-.
    apply dataset_shown in Ex as (text & own & -> & Ho); auto. exists text, own, (y ++ z). split; [|split; [exact Ho|]].
    - simpl. rewrite !app_assoc. reflexivity.
    - apply attribute_lines_app; [|apply links_lines; exact Ez]. apply attrs_lines in Ey. rewrite app_nil_r in Ey. exact Ey.
  Qed.
End Tree.

(** ** The text is determined *)
Lemma preview_fun : forall m e l a b, preview m e l a -> preview m e l b -> a = b.
Proof.
  intros m e l a b [[H1 ->]|(f & mid & z & -> & H2 & H3 & ->)] [[K1 ->]|(f' & mid' & z' & K0 & K2 & K3 & ->)]; auto; try lia.
  assert (HF : f = f').
  { apply (f_equal (firstn (List.length f))) in K0. assert (EL : List.length f = List.length f') by lia.
    rewrite firstn_app, firstn_all, Nat.sub_diag, firstn_O, app_nil_r in K0. rewrite EL in K0.
    rewrite firstn_app, firstn_all, Nat.sub_diag, firstn_O, app_nil_r in K0. exact K0. }
  subst f'. f_equal. f_equal. rewrite !app_assoc in K0. apply app_inj_tail in K0 as [_ ->]. reflexivity.
Qed.
Lemma array1_inj : forall a b, array1 a = array1 b -> a = b.
Proof.
  intros a b H. unfold array1 in H. injection H as H. revert b H. induction a as [|[s r] a IH]; intros [|[s' r'] b] H; simpl in H; try discriminate; [reflexivity|].
  injection H as -> -> H. f_equal. auto.
Qed.
Lemma array_text_fun : forall m shape a ind t1 t2, array_text m shape a ind t1 -> array_text m shape a ind t2 -> t1 = t2.
Proof.
  intros m. induction shape as [|n rest IH]; intros a ind t1 t2 H1 H2; [inversion H1|].
  inversion H1 as [els r i P|n' rest' rows ts r i L N F P|n' rest' rows r i L N P]; subst;
  inversion H2 as [els' r' i' P'|n'' rest'' rows' ts' r' i' L' N' F' P'|n'' rest'' rows' r' i' L' N' P']; subst; cbn [List.length] in *; try lia.
  - assert (els' = els) by (apply array1_inj; unfold array1 in *; congruence). subst els'. rewrite (preview_fun _ _ _ _ _ P P'). reflexivity.
  - assert (ts' = ts). { clear - F F' IH. revert ts' F'. induction F; intros ts' F'; inversion F'; subst; auto. f_equal; auto. eapply IH; eauto. }
    subst ts'. rewrite (preview_fun _ _ _ _ _ P P'). reflexivity.
  - rewrite (preview_fun _ _ _ _ _ P P'). reflexivity.
Qed.

Lemma value_fun : forall E m d v t1 o1 t2 o2, shown_value E m d v t1 o1 -> shown_value E m d v t2 o2 -> t1 = t2 /\ o1 = o2.
Proof.
  intros E m d v t1 o1 t2 o2 H1 H2. destruct H1; inversion H2; subst; cbn [List.length] in *; try lia; try congruence; try (split; congruence); auto.
  - assert (ss0 = ss).
    { match goal with A : Forall2 _ l ss, B : Forall2 _ l ss0 |- _ => clear - A B; revert ss0 B; induction A; intros ss0 B; inversion B; subst; auto; f_equal; [congruence|auto] end. }
    subst. auto.
  - match goal with A : array_text _ _ _ _ _, B : array_text _ _ _ _ _ |- _ => rewrite (array_text_fun _ _ _ _ _ _ A B) end. auto.
  - match goal with A : array_text _ _ _ _ _, B : array_text _ _ _ _ _ |- _ => rewrite (array_text_fun _ _ _ _ _ _ A B) end. auto.
Qed.

Lemma field_fun : forall E nexus up m d v t1 o1 t2 o2, shown_field E nexus up m d v t1 o1 -> shown_field E nexus up m d v t2 o2 -> t1 = t2 /\ o1 = o2.
Proof.
  intros E nexus up m d v t1 o1 t2 o2 (ty & sh & x & (p & P & ->) & V & -> & S) (ty' & sh' & x' & (p' & P' & ->) & V' & -> & S').
  destruct (value_fun _ _ _ _ _ _ _ _ V V') as [-> ->]. assert (p = p') by (destruct P; inversion P'; reflexivity). subst p'.
  assert (sh = sh'). { destruct (shape_of v); [|congruence]. destruct S; inversion S'; subst; congruence. } subst. auto.
Qed.
