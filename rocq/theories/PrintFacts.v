(** * Facts about print_tree *)

From Coq Require Import List NArith ZArith Bool String Sorting Permutation Lia.
From Verif Require Import PyBase PyFacts H5 SchemaMgr NxdlSchema NxdlPrint Spec_Print.
Import ListNotations.
Open Scope string_scope.
Open Scope list_scope.

Lemma strip_stripped : forall v, stripped v (lstrip_underscore v).
Proof.
  induction v as [|c v [n [E H]]]; [exists 0; split; [reflexivity|exact I]|]. cbn [lstrip_underscore]. destruct (N.eqb c 95) eqn:C.
  - apply N.eqb_eq in C. subst c. exists (S n). split; [cbn; f_equal; exact E|exact H].
  - exists 0. split; [reflexivity|]. apply N.eqb_neq. exact C.
Qed.
Lemma parts_of : forall l, parts l (flat_map (fun kv => match snd kv with Some v => [fst kv ++ py "=" ++ lstrip_underscore v] | None => [] end) l).
Proof.
  induction l as [|[k [v|]] l IH]; [constructor| |]; cbn [flat_map fst snd].
  - apply pa_some; [apply strip_stripped|exact IH].
  - apply pa_none. exact IH.
Qed.
Lemma tree_line_of : forall level o, line_of (level, o) (tree_line level o).
Proof.
  intros level o. unfold line_of, tree_line. cbn [fst snd].
  exists (match so_name o with Some n => n | None => py "(" ++ kind_name (so_kind o) ++ py ")" end), (render_class_str o). split; [|split].
  - destruct (so_name o); [left; reflexivity|]. right. split; [reflexivity|]. destruct (so_kind o); reflexivity.
  - eexists. split; [apply parts_of|]. unfold render_class_str, values, members. destruct (so_kind o); [destruct (so_required o)|..]; reflexivity.
  - destruct (so_kind o); reflexivity.
Qed.

Definition num (k : pystr) (db : dict nat) : nat := match dget k db with Some n => n | None => 0 end.
Lemma num_set : forall k k' n db, num k (dset k' n db) = if str_eqb k k' then n else num k db.
Proof.
  intros k k' n db. unfold num. destruct (str_eqb k k') eqn:E.
  - apply str_eqb_eq in E. subst k'. rewrite dget_dset_same. reflexivity.
  - rewrite dget_dset_other; [reflexivity|]. intros ->. rewrite (proj2 (str_eqb_eq _ _) eq_refl) in E. discriminate.
Qed.
Lemma num_cons : forall k k' n d, num k ((k', n) :: d) = if str_eqb k k' then n else num k d.
Proof. intros. unfold num, dget. cbn [aget]. destruct (str_eqb k k'); reflexivity. Qed.
Lemma num_absent : forall k d, ~ In k (map fst d) -> num k d = 0.
Proof.
  intros k d. induction d as [|[k' n] d IH]; intros H; [reflexivity|]. rewrite num_cons. destruct (str_eqb k k') eqn:E; [apply str_eqb_eq in E; subst; exfalso; apply H; left; reflexivity|].
  apply IH. intros X. apply H. right. exact X.
Qed.
Lemma num_keep : forall d k db, NoDup (map fst d) -> num k (keep_stats db d) = num k db + num k d.
Proof.
  unfold keep_stats. induction d as [|[k' n] d IH]; intros k db H; cbn [fold_left fst snd]; [unfold num at 3; cbn; lia|]. inversion H; subst.
  rewrite IH by assumption. change (match dget k' db with Some n0 => n0 | None => 0 end) with (num k' db). rewrite num_set, num_cons. destruct (str_eqb k k') eqn:E; [|reflexivity].
  apply str_eqb_eq in E. subst k'. rewrite (num_absent k d) by assumption. lia.
Qed.
Lemma keep_NoDup : forall d db, NoDup (map fst db) -> NoDup (map fst (keep_stats db d)).
Proof. unfold keep_stats. induction d as [|[k n] d IH]; intros db H; cbn [fold_left]; [exact H|]. apply IH. apply dset_NoDup. exact H. Qed.

Definition agrees (out : list (nat * sobj)) (p : printed) : Prop :=
  Forall2 line_of out (fst p) /\ fst (snd p) = List.length out /\ NoDup (map fst (snd (snd p)))
  /\ forall k, num (kind_name k) (snd (snd p)) = of_kind k out.

Lemma of_kind_app : forall k a b, of_kind k (a ++ b) = of_kind k a + of_kind k b.
Proof. intros. unfold of_kind. rewrite filter_app, app_length. reflexivity. Qed.


Lemma sorted_by_name : forall V (d : dict V), by_name d (sorted_items d).
Proof. intros V d. split; [apply Permutation_sym, sorted_by_perm|]. apply (sorted_by_sorted fst). Qed.

(** the outline is found with the lines *)
Lemma printed_outline : forall fuel su level i p, print_tree fuel su level i = Ok p -> exists out, outline su level i out /\ agrees out p.
Proof.
  induction fuel as [|fuel IH]; intros su level i p H; cbn [print_tree] in H; [discriminate H|].
  destruct (nth_error (su_heap su) i) as [o|] eqn:O; [|discriminate H].
  set (f := print_tree fuel su (S level)) in *.
  destruct (print_children f (sorted_items (attributes_at su i)) ([tree_line level o], (1, [(kind_name (so_kind o), 1)]))) as [a|e] eqn:A; [|discriminate H]. cbn [rbind] in H.
  assert (Start : agrees [(level, o)] ([tree_line level o], (1, [(kind_name (so_kind o), 1)]))).
  { split; [constructor; [apply tree_line_of|constructor]|]. split; [reflexivity|]. split; [constructor; [intros []|constructor]|].
    intros k. cbn [fst snd]. unfold of_kind. cbn [filter snd]. destruct (so_kind o), k; reflexivity. }
  assert (Pick : forall kids acc r out, agrees out acc -> print_children f kids acc = Ok r ->
            exists outs, Forall2 (fun kv l => outline su (S level) (snd kv) l) kids outs /\ agrees (out ++ List.concat outs) r).
  { clear A H a. induction kids as [|[k j] kids IHk]; intros acc r out Ac H; cbn [print_children] in H.
    - injection H as <-. exists []. split; [constructor|]. cbn. rewrite app_nil_r. exact Ac.
    - destruct (f j) as [q|e] eqn:E; [|discriminate H]. cbn [rbind] in H. destruct (IH _ _ _ _ E) as [x [X1 (O1 & O2 & O3 & O4)]].
      destruct Ac as (A1 & A2 & A3 & A4). edestruct (fun A => IHk _ r (out ++ x) A H) as [outs [Y1 Y2]].
      + split; [|split; [|split]]; cbn [fst snd].
        * apply Forall2_app; assumption.
        * rewrite app_length. lia.
        * apply keep_NoDup. exact A3.
        * intros k0. rewrite num_keep by assumption. rewrite of_kind_app, A4, O4. reflexivity.
      + exists (x :: outs). split; [constructor; [exact X1|exact Y1]|]. cbn. rewrite app_assoc. exact Y2. }
  destruct (Pick _ _ _ _ Start A) as [As [FA GA]]. destruct (Pick _ _ _ _ GA H) as [Gs [FG GG]].
  exists ((level, o) :: List.concat As ++ List.concat Gs). split; [|rewrite <- app_assoc in GG; exact GG].
  econstructor; [exact O|apply sorted_by_name|apply sorted_by_name|exact FA|exact FG].
Qed.

(** ** what is in the dictionaries *)
Lemma kids_fold_In : forall h K l d x j,
  In (x, j) (fold_left (fun d j => match nth_error h j with
      | Some o => if okind_eqb (so_kind o) K then dset (match so_name o with Some [] | None => anonymous K | Some s => s end) j d else d
      | None => d end) l d) ->
  In (x, j) d \/ (In j l /\ exists o, nth_error h j = Some o /\ so_kind o = K).
Proof.
  intros h K l. induction l as [|a l IH]; intros d x j H; cbn [fold_left] in H; [left; exact H|].
  apply IH in H as [H|[H X]]; [|right; split; [right; exact H|exact X]].
  destruct (nth_error h a) as [o|] eqn:O; [|left; exact H]. destruct (okind_eqb (so_kind o) K) eqn:Q; [|left; exact H].
  assert (Z : j = a \/ In (x, j) d).
  { clear - H. revert H. generalize (match so_name o with Some [] | None => anonymous K | Some s => s end). intros y. unfold dset. induction d as [|[c k] d IH]; cbn [aset].
    - intros [E|[]]. injection E as _ <-. left. reflexivity.
    - destruct (str_eqb y c).
      + intros [E|E]; [injection E as _ <-; left; reflexivity|right; right; exact E].
      + intros [E|E]; [right; left; exact E|]. destruct (IH E) as [X|X]; [left; exact X|right; right; exact X]. }
  destruct Z as [->|Z]; [|left; exact Z]. right. split; [left; reflexivity|]. exists o. split; [exact O|]. destruct (so_kind o), K; try discriminate Q; reflexivity.
Qed.
Lemma kids_In : forall h K i x j, In (x, j) (kids_of K h i) -> In j (children_at h i) /\ exists o, nth_error h j = Some o /\ so_kind o = K.
Proof. intros h K i x j H. unfold kids_of in H. apply kids_fold_In in H as [[]|H]. exact H. Qed.

(** all but the first object are attributes or groups *)
Lemma outline_kinds : forall n su level i out, List.length out <= n -> outline su level i out ->
  Forall (fun x => so_kind (snd x) <> KElement) (tl out).
Proof.
  induction n as [|n IH]; intros su level i out L Out; destruct Out as [level i o attributes groups As Gs O BA BG FA FG]; cbn [List.length] in L; [lia|]. cbn [tl].
  assert (Sub : forall K (kids : dict nat) Ls, K <> KElement -> (forall x j, In (x, j) kids -> exists o, nth_error (su_heap su) j = Some o /\ so_kind o = K) ->
            Forall2 (fun kv l => outline su (S level) (snd kv) l) kids Ls -> List.length (List.concat Ls) <= n ->
            Forall (fun x => so_kind (snd x) <> KElement) (List.concat Ls)).
  { intros K kids Ls NK Hk F. induction F as [|[x j] l kids Ls Hl F IHF]; intros L'; [constructor|]. cbn [List.concat snd] in *. rewrite app_length in L'. apply Forall_app. split.
    - assert (T := IH su (S level) j l ltac:(lia) Hl). destruct (Hk x j (or_introl eq_refl)) as [o' [O' K']]. destruct Hl as [lv j' o2 a2 g2 As2 Gs2 O2 B1 B2 F1 F2].
      cbn [tl] in T. constructor; [|exact T]. cbn [snd]. rewrite O' in O2. injection O2 as <-. rewrite K'. exact NK.
    - apply IHF; [intros y k Y; apply (Hk y k); right; exact Y|lia]. }
  rewrite app_length in L. apply Forall_app. split.
  - eapply (Sub KAttribute); [discriminate| |exact FA|lia]. intros x j X. apply (Permutation_in _ (Permutation_sym (proj1 BA))) in X. unfold attributes_at in X. apply kids_In in X as [_ X]. exact X.
  - eapply (Sub KGroup); [discriminate| |exact FG|lia]. intros x j X. apply (Permutation_in _ (Permutation_sym (proj1 BG))) in X. apply kids_In in X as [_ X]. exact X.
Qed.

(** ** it ends *)
Lemma build_more : forall fuel fuel' h i, fuel <= fuel' -> build_tree fuel h i = Ok tt -> build_tree fuel' h i = Ok tt.
Proof.
  induction fuel as [|fuel IH]; intros fuel' h i L H; [discriminate H|]. destruct fuel' as [|fuel']; [lia|]. cbn [build_tree] in *.
  assert (X : forall l, (exists r, traverse (build_tree fuel h) l = Ok r) -> exists r, traverse (build_tree fuel' h) l = Ok r).
  { induction l as [|j l IHl]; intros [r R]; [exists []; reflexivity|]. cbn [traverse] in *. destruct (build_tree fuel h j) as [[]|] eqn:B; [|discriminate R]. cbn [rbind] in R.
    rewrite (IH fuel' h j ltac:(lia) B). cbn [rbind]. destruct (traverse (build_tree fuel h) l) as [r'|] eqn:T; [|discriminate R]. destruct (IHl (ex_intro _ r' eq_refl)) as [r2 ->]. cbn [rbind]. eauto. }
  destruct (traverse (build_tree fuel h) (children_at h i)) as [r|] eqn:T; [|discriminate H]. destruct (X _ (ex_intro _ r T)) as [r2 ->]. reflexivity.
Qed.
Lemma build_child : forall fuel h i j, build_tree (S fuel) h i = Ok tt -> In j (children_at h i) -> build_tree fuel h j = Ok tt.
Proof.
  intros fuel h i j H I. cbn [build_tree] in H. destruct (traverse (build_tree fuel h) (children_at h i)) as [r|] eqn:T; [|discriminate H]. clear H.
  revert r T. induction (children_at h i) as [|k l IH]; intros r T; [destruct I|]. cbn [traverse] in T. destruct (build_tree fuel h k) as [[]|] eqn:B; [|discriminate T]. cbn [rbind] in T.
  destruct (traverse (build_tree fuel h) l) as [r'|] eqn:T'; [|discriminate T]. destruct I as [->|I]; [exact B|]. eapply IH; [exact I|reflexivity].
Qed.
Lemma children_total : forall f kids acc, (forall x j, In (x, j) kids -> exists p, f j = Ok p) -> exists r, print_children f kids acc = Ok r.
Proof.
  intros f kids. induction kids as [|[k j] kids IH]; intros acc H; cbn [print_children]; [eauto|]. destruct (H k j (or_introl eq_refl)) as [p ->]. cbn [rbind].
  apply IH. intros x i X. apply (H x i). right. exact X.
Qed.
Lemma print_total : forall fuel su level i o, nth_error (su_heap su) i = Some o -> build_tree fuel (su_heap su) i = Ok tt ->
  In (su_group_attrs su) (children_at (su_heap su) (su_group su)) ->
  exists p, print_tree fuel su level i = Ok p.
Proof.
  induction fuel as [|fuel IH]; intros su level i o O B G; [discriminate B|]. cbn [print_tree]. rewrite O.
  assert (KA : forall x j, In (x, j) (sorted_items (attributes_at su i)) -> exists p, print_tree fuel su (S level) j = Ok p).
  { intros x j X. unfold sorted_items in X. apply sorted_by_In in X. unfold attributes_at in X. destruct (Nat.eqb i (su_group su)) eqn:Q.
    - apply Nat.eqb_eq in Q. subst i. apply kids_In in X as [X [o' [O' _]]]. pose proof (build_child _ _ _ _ B G) as B2. destruct fuel as [|fuel2]; [discriminate B2|].
      pose proof (build_child _ _ _ _ B2 X) as B3. eapply IH; [exact O'| |exact G]. eapply build_more; [|exact B3]. lia.
    - apply kids_In in X as [X [o' [O' _]]]. eapply IH; [exact O'|eapply build_child; eassumption|exact G]. }
  destruct (children_total _ _ ([tree_line level o], (1, [(kind_name (so_kind o), 1)])) KA) as [a ->]. cbn [rbind]. apply children_total.
  intros x j X. unfold sorted_items in X. apply sorted_by_In in X. apply kids_In in X as [X [o' [O' _]]]. eapply IH; [exact O'|eapply build_child; eassumption|exact G].
Qed.
Lemma summary_shape : forall E limit kids su, nxdl_summary E limit kids = Ok su ->
  build_tree limit (su_heap su) (su_definition su) = Ok tt
  /\ (exists x, In (x, su_group su) (kids_of KGroup (su_heap su) (su_definition su)))
  /\ In (py "group", su_group_attrs su) (kids_of KElement (su_heap su) (su_group su))
  /\ (exists x, In (x, su_symbols su) (kids_of KElement (su_heap su) (su_definition su)))
  /\ exists o, nth_error (su_heap su) (su_definition su) = Some o.
Proof.
  intros E limit kids su H. unfold nxdl_summary in H.
  destruct (read_catalog E kids) as [c|e]; [|discriminate H]. cbn [rbind] in H.
  destruct (init_definition limit kids c) as [[d h]|e]; [|discriminate H]. cbn [rbind fst snd] in H.
  destruct (build_tree limit h d) as [[]|e] eqn:B; [|discriminate H]. cbn [rbind] in H.
  destruct (first_value (kids_of KGroup h d)) as [g|e] eqn:F; [|discriminate H]. cbn [rbind] in H.
  destruct (dgetitem (py "group") (kids_of KElement h g)) as [gg|e] eqn:G; [|discriminate H]. cbn [rbind] in H.
  destruct (dgetitem (py "attribute") (kids_of KElement h g)) as [a|e]; [|discriminate H]. cbn [rbind] in H.
  destruct (dgetitem (py "doc") (kids_of KElement h g)) as [dd|e]; [|discriminate H]. cbn [rbind] in H.
  destruct (dgetitem (py "field") (kids_of KElement h g)) as [f|e]; [|discriminate H]. cbn [rbind] in H.
  destruct (dgetitem (py "link") (kids_of KElement h g)) as [l|e]; [|discriminate H]. cbn [rbind] in H.
  destruct (first_value (kids_of KElement h d)) as [s|e] eqn:S0; [|discriminate H]. cbn [rbind] in H.
  destruct (ca_simple c) as [st|]; [|discriminate H]. cbn [rbind] in H. injection H as <-. cbn [su_heap su_definition su_group su_group_attrs su_symbols].
  assert (First : forall V (m : dict V) v, first_value m = Ok v -> exists x, In (x, v) m) by (intros V [|[x v0] m] v Q; [discriminate Q|]; injection Q as ->; exists x; left; reflexivity).
  destruct (First _ _ _ F) as [x X]. destruct (First _ _ _ S0) as [y Y].
  split; [exact B|]. split; [exists x; exact X|]. split; [unfold dgetitem in G; destruct (dget (py "group") _) as [z|] eqn:D; [|discriminate G]; injection G as ->; apply dget_In; exact D|].
  split; [exists y; exact Y|]. apply kids_In in X as [X _]. unfold children_at in X. destruct (nth_error h d) as [o|]; [exists o; reflexivity|destruct X].
Qed.
