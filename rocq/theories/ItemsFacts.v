(** * The number of array items shown *)

From Coq Require Import List NArith ZArith Bool String Lia.
From Verif Require Import PyBase PyFacts Utf8 H5 Catalog H5Tree OrderWorld TreeOrderFacts Spec_Tree TreeEnd Spec_Items.
Import ListNotations.

Lemma traverse_both : forall A B (R : B -> B -> Prop) (f g : A -> res B) l x y, (forall a b c, f a = Ok b -> g a = Ok c -> R b c) ->
  traverse f l = Ok x -> traverse g l = Ok y -> Forall2 R x y.
Proof.
  intros A B R f g l. induction l as [|a l IH]; intros x y H X Y; cbn [traverse] in *; [injection X as <-; injection Y as <-; constructor|].
  destruct (f a) as [b|] eqn:Fa; [|discriminate X]. destruct (g a) as [c|] eqn:Ga; [|discriminate Y]. cbn [rbind] in *.
  destruct (traverse f l) as [xs|]; [|discriminate X]. destruct (traverse g l) as [ys|]; [|discriminate Y]. cbn [rbind] in *. injection X as <-. injection Y as <-.
  constructor; [apply (H a); assumption|apply IH; auto].
Qed.

Section Items.
  Context (E : env) (up : pystr -> pystr) (w : world) (ds : handle -> dsview) (nexus attrs : bool) (m m' : Z).

  Definition alike (l l' : list line) : Prop := Forall2 same_before_value (filter (fun x => negb (array_line x)) l) (filter (fun x => negb (array_line x)) l').
  Lemma alike_refl : forall l, alike l l.
  Proof. intros l. unfold alike. induction (filter (fun x => negb (array_line x)) l); constructor; auto. left. reflexivity. Qed.
  Lemma alike_app : forall a b c d, alike a b -> alike c d -> alike (a ++ c) (b ++ d).
  Proof. intros a b c d H K. unfold alike in *. rewrite !filter_app. apply Forall2_app; assumption. Qed.
  Lemma alike_concat : forall l l', Forall2 alike l l' -> alike (List.concat l) (List.concat l').
  Proof. intros l l' H. induction H; [apply alike_refl|]. cbn [List.concat]. apply alike_app; assumption. Qed.
  Lemma alike_field : forall d n b v v', alike [mkLine d (BField n (b ++ py " = " ++ v))] [mkLine d (BField n (b ++ py " = " ++ v'))].
  Proof. intros d n b v v'. constructor; [|constructor]. right. exists d, n, b, v, v'. auto. Qed.

  (** what is shown of an array for a number of items: the field's line, and maybe another one *)
  Lemma array_shown : forall k t shape a d n ty l, shape <> [1] ->
    (if (k >? 2)%Z then dor v <- render_array k shape a (indent (S d)) ;
       if Nat.ltb (List.length shape) 2 then Ok [mkLine d (BField n (ty ++ render_shape shape ++ py " = " ++ v))]
       else Ok [mkLine d (BField n (ty ++ render_shape shape ++ py " = __array")); mkLine (S d) (BArray v)]
     else Ok [mkLine d (BField n (ty ++ render_shape shape ++ py " = [ ... ]"))]) = Ok l ->
    t = tt -> exists v rest, l = mkLine d (BField n ((ty ++ render_shape shape) ++ py " = " ++ v)) :: rest /\ filter (fun x => negb (array_line x)) rest = [].
  Proof.
    intros k t shape a d n ty l _ H _. destruct (k >? 2)%Z.
    - destruct (render_array k shape a (indent (S d))) as [v|e]; [|discriminate H]. cbn [rbind] in H. destruct (Nat.ltb (List.length shape) 2); injection H as <-.
      + exists v, []. split; [rewrite <- app_assoc; reflexivity|reflexivity].
      + exists (py "__array"), [mkLine (S d) (BArray v)]. split; [rewrite <- app_assoc; reflexivity|reflexivity].
    - injection H as <-. exists (py "[ ... ]"), []. split; [rewrite <- app_assoc; reflexivity|reflexivity].
  Qed.

  Lemma dataset_alike : forall h n d l l', dataset_lines E up ds nexus m h n d = Ok l -> dataset_lines E up ds nexus m' h n d = Ok l' -> alike l l'.
  Proof.
    intros h n d l l' X Y. unfold dataset_lines in *. destruct (render_type up nexus (ds h)) as [ty|]; [|discriminate X]. cbn [rbind] in *.
    destruct (ds h) as [b|bs|r k|sh s|t shape a|]; try (rewrite X in Y; injection Y as <-; apply alike_refl).
    destruct (list_eq_dec Nat.eq_dec shape [1]) as [->|N].
    - rewrite X in Y; injection Y as <-; apply alike_refl.
    - assert (X' : exists v rest, l = mkLine d (BField n ((ty ++ render_shape shape) ++ py " = " ++ v)) :: rest /\ filter (fun x => negb (array_line x)) rest = []).
      { apply (array_shown m tt shape a d n ty l N); [|reflexivity]. destruct shape as [|[|[|q]] [|z zs]]; try exact X. congruence. }
      assert (Y' : exists v rest, l' = mkLine d (BField n ((ty ++ render_shape shape) ++ py " = " ++ v)) :: rest /\ filter (fun x => negb (array_line x)) rest = []).
      { apply (array_shown m' tt shape a d n ty l' N); [|reflexivity]. destruct shape as [|[|[|q]] [|z zs]]; try exact Y. congruence. }
      destruct X' as (v & r & -> & Fr), Y' as (v' & r' & -> & Fr'). unfold alike. cbn [filter array_line ln_body negb]. rewrite Fr, Fr'.
      apply (alike_field d n (ty ++ render_shape shape) v v').
  Qed.
  Lemma whole_dataset_alike : forall h n d l l', render_dataset E up w ds nexus m attrs h n d = Ok l -> render_dataset E up w ds nexus m' attrs h n d = Ok l' -> alike l l'.
  Proof.
    intros h n d l l' X Y. unfold render_dataset in *. destruct (dataset_elsewhere E w nexus h) as [[|]|]; [|cbn [rbind] in *|discriminate X].
    - cbn [rbind] in *. rewrite X in Y. injection Y as <-. apply alike_refl.
    - destruct (dataset_lines E up ds nexus m h n d) as [a|] eqn:A; [|discriminate X]. destruct (dataset_lines E up ds nexus m' h n d) as [b|] eqn:B; [|discriminate Y]. cbn [rbind] in *.
      destruct (render_attributes E w attrs h d []) as [c|]; [|discriminate X]. cbn [rbind] in *. injection X as <-. injection Y as <-. apply alike_app; [eapply dataset_alike; eassumption|apply alike_refl].
  Qed.

  Definition shown_alike (s s' : shown) : Prop := later_of s = later_of s' /\ alike (now_of s) (now_of s').
  Lemma shown_refl : forall s, shown_alike s s.
  Proof. intros s. split; [reflexivity|apply alike_refl]. Qed.
  Lemma member_alike : forall h d nl s s', render_member E up w ds nexus m attrs h d nl = Ok s -> render_member E up w ds nexus m' attrs h d nl = Ok s' -> shown_alike s s'.
  Proof.
    intros h d [n l] s s' X Y. unfold render_member in *.
    assert (F : (dor v <- getitem w h n; dor b <- isNeXusLink E w v; (if b then rmap Now (render_linked E w v n d) else if is_group_obj w v then Ok (Later v n l)
        else if isHdf5Dataset w v then dor s <- render_dataset E up w ds nexus m attrs v n d; dor x <- link_lines E attrs l d; Ok (Now (s ++ x)) else Exn RuntimeError)) = Ok s ->
      (dor v <- getitem w h n; dor b <- isNeXusLink E w v; (if b then rmap Now (render_linked E w v n d) else if is_group_obj w v then Ok (Later v n l)
        else if isHdf5Dataset w v then dor s <- render_dataset E up w ds nexus m' attrs v n d; dor x <- link_lines E attrs l d; Ok (Now (s ++ x)) else Exn RuntimeError)) = Ok s' -> shown_alike s s').
    { clear X Y. intros X Y. destruct (getitem w h n) as [v|]; [|discriminate X]. cbn [rbind] in *. destruct (isNeXusLink E w v) as [[|]|]; [| |discriminate X]; cbn [rbind] in *.
      - rewrite X in Y. injection Y as <-. apply shown_refl.
      - destruct (is_group_obj w v); [rewrite X in Y; injection Y as <-; apply shown_refl|]. destruct (isHdf5Dataset w v); [|discriminate X].
        destruct (render_dataset E up w ds nexus m attrs v n d) as [a|] eqn:A; [|discriminate X]. destruct (render_dataset E up w ds nexus m' attrs v n d) as [b|] eqn:B; [|discriminate Y]. cbn [rbind] in *.
        destruct (link_lines E attrs l d) as [c|]; [|discriminate X]. cbn [rbind] in *. injection X as <-. injection Y as <-. split; [reflexivity|]. cbn [now_of].
        apply alike_app; [eapply whole_dataset_alike; eassumption|apply alike_refl]. }
    destruct l as [o|p|f p]; [apply F; assumption|rewrite X in Y; injection Y as <-; apply shown_refl|]. destruct (dmem f w); [apply F; assumption|]. rewrite X in Y. injection Y as <-. apply shown_refl.
  Qed.
  Lemma members_alike : forall l l', Forall2 shown_alike l l' -> List.concat (map later_of l) = List.concat (map later_of l') /\ alike (List.concat (map now_of l)) (List.concat (map now_of l')).
  Proof.
    intros l l' H. induction H as [|a b l l' [A B] H [I J]]; [split; [reflexivity|apply alike_refl]|]. cbn [map List.concat]. split; [rewrite A, I; reflexivity|apply alike_app; assumption].
  Qed.
  Lemma group_alike : forall fuel h n d md l l', render_group E up w ds nexus m attrs fuel h n d md = Ok l -> render_group E up w ds nexus m' attrs fuel h n d md = Ok l' -> alike l l'.
  Proof.
    induction fuel as [|k IH]; intros h n d md l l' X Y; [discriminate X|]. cbn [render_group] in *. destruct (class_suffix E w h) as [sx|]; [|discriminate X]. cbn [rbind] in *.
    destruct (render_attributes E w attrs h d (link_extra md)) as [a|]; [|discriminate X]. cbn [rbind] in *.
    destruct (traverse (render_member E up w ds nexus m attrs h (S d)) (sorted_items (links_of w h))) as [ms|] eqn:M; [|discriminate X].
    destruct (traverse (render_member E up w ds nexus m' attrs h (S d)) (sorted_items (links_of w h))) as [ms'|] eqn:M'; [|discriminate Y]. cbn [rbind] in *.
    destruct (members_alike _ _ (traverse_both _ _ shown_alike _ _ _ _ _ (member_alike h (S d)) M M')) as [L N]. rewrite <- L in Y.
    match type of X with (dor _ <- ?q; _) = _ => destruct q as [gs|] eqn:G; [|discriminate X] end.
    match type of Y with (dor _ <- ?q; _) = _ => destruct q as [gs'|] eqn:G'; [|discriminate Y] end. cbn [rbind] in *. injection X as <-. injection Y as <-.
    apply (alike_app [_] [_]); [apply alike_refl|]. apply alike_app; [apply alike_refl|]. apply alike_app; [exact N|]. apply alike_concat.
    eapply traverse_both; [|exact G|exact G']. intros g b c B C. cbv beta in B, C. eapply IH; [exact B|exact C].
  Qed.

  (** ** Small arrays *)
  Lemma shown_small : forall n, (Z.of_nat n <= m)%Z -> (Z.of_nat n <= m')%Z -> shown_items m n = shown_items m' n.
  Proof. intros n A B. unfold shown_items, decide_num_shown. destruct (Z.gtb_spec (Z.of_nat n) m), (Z.gtb_spec (Z.of_nat n) m'); try lia. reflexivity. Qed.
  Lemma nd_small : forall shape a ind, Forall (fun n => (Z.of_nat n <= m)%Z) shape -> Forall (fun n => (Z.of_nat n <= m')%Z) shape -> render_nd m shape a ind = render_nd m' shape a ind.
  Proof.
    induction shape as [|n rest IH]; intros a ind A B; [reflexivity|]. inversion A as [|? ? A1 A2]; inversion B as [|? ? B1 B2]; subst. cbn [render_nd]. rewrite (shown_small n A1 B1).
    match goal with |- (dor _ <- traverse ?f _; _) = (dor _ <- traverse ?g _; _) => rewrite (traverse_ext _ _ f g) end; [reflexivity|].
    intros [i|] _; [|reflexivity]. destruct (nd_item a i) as [x|]; [|reflexivity]. cbn [rbind]. destruct (Nat.eqb (List.length (n :: rest)) 1); [reflexivity|].
    destruct (Nat.ltb (List.length (n :: rest)) 4); [|reflexivity]. apply IH; assumption.
  Qed.
  Context (G : (m > 2)%Z) (G' : (m' > 2)%Z) (U : arrays_up_to m ds) (U' : arrays_up_to m' ds).
  Lemma dataset_small : forall h n d, dataset_lines E up ds nexus m h n d = dataset_lines E up ds nexus m' h n d.
  Proof.
    intros h n d. unfold dataset_lines. destruct (render_type up nexus (ds h)) as [ty|]; [|reflexivity]. cbn [rbind].
    destruct (ds h) as [b|bs|r k|sh s|t shape a|] eqn:D; try reflexivity.
    assert (R : render_array m shape a (indent (S d)) = render_array m' shape a (indent (S d))).
    { unfold render_array. destruct shape as [|q qs] eqn:Q; [reflexivity|]. rewrite <- Q in *. apply nd_small; [eapply U; exact D|eapply U'; exact D]. }
    rewrite R. assert (M : (m >? 2)%Z = true) by (apply Z.gtb_gt; exact G). assert (M' : (m' >? 2)%Z = true) by (apply Z.gtb_gt; exact G'). rewrite M, M'. reflexivity.
  Qed.
  Lemma member_small : forall h d nl, render_member E up w ds nexus m attrs h d nl = render_member E up w ds nexus m' attrs h d nl.
  Proof.
    assert (X : forall v n d, render_dataset E up w ds nexus m attrs v n d = render_dataset E up w ds nexus m' attrs v n d) by (intros v n d; unfold render_dataset; rewrite dataset_small; reflexivity).
    intros h d [n l]. unfold render_member. destruct l as [o|p|f p]; [|reflexivity|]; destruct (getitem w h n) as [v|]; cbn [rbind]; try rewrite X; reflexivity.
  Qed.
  Lemma group_small : forall fuel h n d md, render_group E up w ds nexus m attrs fuel h n d md = render_group E up w ds nexus m' attrs fuel h n d md.
  Proof.
    induction fuel as [|k IH]; intros h n d md; [reflexivity|]. cbn [render_group]. destruct (class_suffix E w h) as [sx|]; [|reflexivity]. cbn [rbind].
    destruct (render_attributes E w attrs h d (link_extra md)) as [a|]; [|reflexivity]. cbn [rbind].
    rewrite (traverse_ext _ _ (render_member E up w ds nexus m attrs h (S d)) (render_member E up w ds nexus m' attrs h (S d))) by (intros; apply member_small).
    destruct (traverse (render_member E up w ds nexus m' attrs h (S d)) (sorted_items (links_of w h))) as [ms|]; [|reflexivity]. cbn [rbind].
    rewrite (traverse_ext _ _ (fun g => render_group E up w ds nexus m attrs k (fst (fst g)) (snd (fst g)) (S d) (snd g)) (fun g => render_group E up w ds nexus m' attrs k (fst (fst g)) (snd (fst g)) (S d) (snd g))) by (intros; apply IH).
    reflexivity.
  Qed.
End Items.

(** ** Failures *)
Definition fail_alike {A} (R : A -> A -> Prop) (x y : res A) : Prop := match x, y with Ok a, Ok b => R a b | Exn e, Exn e' => e = e' | _, _ => False end.
Lemma fa_bind : forall A B (R : A -> A -> Prop) (Q : B -> B -> Prop) x y f g, fail_alike R x y -> (forall a b, R a b -> fail_alike Q (f a) (g b)) -> fail_alike Q (rbind x f) (rbind y g).
Proof. intros A B R Q [a|e] [b|e'] f g H K; cbn in *; auto; try contradiction. Qed.
Lemma fa_traverse : forall A B (R : B -> B -> Prop) (f g : A -> res B) l, (forall a, fail_alike R (f a) (g a)) -> fail_alike (Forall2 R) (traverse f l) (traverse g l).
Proof.
  intros A B R f g l H. induction l as [|a l IH]; cbn [traverse]; [constructor|]. eapply fa_bind; [apply H|]. intros b c bc. eapply fa_bind; [exact IH|]. intros bs cs X. constructor; assumption.
Qed.
Lemma fa_refl : forall A (R : A -> A -> Prop) x, (forall a, R a a) -> fail_alike R x x.
Proof. intros A R [a|e] H; cbn; auto. Qed.

Section Failures.
  Context (E : env) (up : pystr -> pystr) (w : world) (ds : handle -> dsview) (nexus attrs : bool) (m m' : Z).
  Context (W : forall h t shape a, ds h = DOther t shape a -> fits shape a).

  Definition any {A} (_ _ : A) : Prop := True.
  Lemma array_total : forall k shape a ind, (2 < k)%Z -> fits shape a -> exists v, render_array k shape a ind = Ok v.
  Proof.
    intros k shape a ind K F. unfold render_array. destruct shape as [|n rest] eqn:Q; [eexists; reflexivity|]. rewrite <- Q in *.
    destruct (render_nd_text k K shape a (ind ++ py "  ")) as (t & T & _); [rewrite Q; discriminate|exact F|]. exists t. exact T.
  Qed.
  Lemma dataset_fails : forall h n d, fail_alike any (dataset_lines E up ds nexus m h n d) (dataset_lines E up ds nexus m' h n d).
  Proof.
    intros h n d. unfold dataset_lines. destruct (render_type up nexus (ds h)) as [ty|]; [|reflexivity]. cbn [rbind].
    destruct (ds h) as [b|bs|r k|sh s|t shape a|] eqn:D; try (apply fa_refl; intros; exact I).
    assert (X : forall k, exists l, (if (k >? 2)%Z then dor v <- render_array k shape a (indent (S d)) ;
       if Nat.ltb (List.length shape) 2 then Ok [mkLine d (BField n (ty ++ render_shape shape ++ py " = " ++ v))]
       else Ok [mkLine d (BField n (ty ++ render_shape shape ++ py " = __array")); mkLine (S d) (BArray v)]
     else Ok [mkLine d (BField n (ty ++ render_shape shape ++ py " = [ ... ]"))]) = Ok l).
    { intros k. destruct (k >? 2)%Z eqn:K; [|eexists; reflexivity]. destruct (array_total k shape a (indent (S d))) as [v V]; [apply Z.gtb_lt; exact K|apply (W _ _ _ _ D)|].
      rewrite V. cbn [rbind]. destruct (Nat.ltb (List.length shape) 2); eexists; reflexivity. }
    destruct (X m) as [l L], (X m') as [l' L'].
    destruct shape as [|[|[|q]] [|z zs]]; try (rewrite L, L'; exact I). apply fa_refl. intros; exact I.
  Qed.
  Lemma whole_dataset_fails : forall h n d, fail_alike any (render_dataset E up w ds nexus m attrs h n d) (render_dataset E up w ds nexus m' attrs h n d).
  Proof.
    intros h n d. unfold render_dataset. destruct (dataset_elsewhere E w nexus h) as [[|]|]; cbn [rbind]; [apply fa_refl; intros; exact I| |reflexivity].
    eapply fa_bind; [apply dataset_fails|]. intros a b _. destruct (render_attributes E w attrs h d []); cbn; auto. exact I.
  Qed.
  Lemma member_fails : forall h d nl, fail_alike (fun s s' => later_of s = later_of s') (render_member E up w ds nexus m attrs h d nl) (render_member E up w ds nexus m' attrs h d nl).
  Proof.
    intros h d [n l]. unfold render_member.
    assert (F : fail_alike (fun s s' => later_of s = later_of s') (dor v <- getitem w h n; dor b <- isNeXusLink E w v; (if b then rmap Now (render_linked E w v n d) else if is_group_obj w v then Ok (Later v n l)
        else if isHdf5Dataset w v then dor s <- render_dataset E up w ds nexus m attrs v n d; dor x <- link_lines E attrs l d; Ok (Now (s ++ x)) else Exn RuntimeError))
      (dor v <- getitem w h n; dor b <- isNeXusLink E w v; (if b then rmap Now (render_linked E w v n d) else if is_group_obj w v then Ok (Later v n l)
        else if isHdf5Dataset w v then dor s <- render_dataset E up w ds nexus m' attrs v n d; dor x <- link_lines E attrs l d; Ok (Now (s ++ x)) else Exn RuntimeError))).
    { destruct (getitem w h n) as [v|]; [|reflexivity]. cbn [rbind]. destruct (isNeXusLink E w v) as [[|]|]; cbn [rbind]; [apply fa_refl; reflexivity| |reflexivity].
      destruct (is_group_obj w v); [reflexivity|]. destruct (isHdf5Dataset w v); [|reflexivity]. eapply fa_bind; [apply whole_dataset_fails|]. intros a b _. destruct (link_lines E attrs l d); reflexivity. }
    destruct l as [o|p|f p]; [exact F|reflexivity|]. destruct (dmem f w); [exact F|]. apply fa_refl. reflexivity.
  Qed.
  Lemma group_fails : forall fuel h n d md, fail_alike any (render_group E up w ds nexus m attrs fuel h n d md) (render_group E up w ds nexus m' attrs fuel h n d md).
  Proof.
    induction fuel as [|k IH]; intros h n d md; [reflexivity|]. cbn [render_group]. destruct (class_suffix E w h) as [sx|]; [|reflexivity]. cbn [rbind].
    destruct (render_attributes E w attrs h d (link_extra md)) as [a|]; [|reflexivity]. cbn [rbind].
    eapply fa_bind; [apply fa_traverse; apply (member_fails h (S d))|]. intros ms ms' M. cbv beta.
    assert (L : List.concat (map later_of ms) = List.concat (map later_of ms')) by (induction M as [|x y ms ms' Hxy M IHM]; [reflexivity|]; cbn [map List.concat]; rewrite Hxy, IHM; reflexivity).
    rewrite <- L. eapply fa_bind; [apply fa_traverse; intros g; apply (IH (fst (fst g)) (snd (fst g)) (S d) (snd g))|]. intros gs gs' _. exact I.
  Qed.
End Failures.
