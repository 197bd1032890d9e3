(** * Proofs about Report.v *)

From Coq Require Import List NArith ZArith QArith Bool String Lia Permutation Sorted.
From Verif Require Import PyBase PyFacts Findings Report Spec_Report.
Import ListNotations.
Open Scope nat_scope.

Lemma status_eqb_eq : forall a b, status_eqb a b = true <-> a = b.
Proof. destruct a, b; simpl; split; intros; congruence. Qed.

Lemma number_with_cons : forall s f l,
  number_with s (f :: l) = (if status_eqb (f_status f) s then 1 else 0) + number_with s l.
Proof. intros. unfold number_with. simpl. destruct (f_status f), s; reflexivity. Qed.

(** ** Score *)
Lemma score_fold : forall l t n,
  fold_left score_step l (t, n) = ((t + documented_total l)%Z, n + number_counted l).
Proof.
  induction l as [|f l IH]; intros; cbn [fold_left].
  - unfold documented_total, number_counted, number_with. cbn [filter List.length]. f_equal; lia.
  - unfold score_step at 2. cbn [fst snd].
    destruct (Z.eqb_spec (status_value (f_status f)) 0) as [E|E]; rewrite IH; unfold documented_total, number_counted;
      rewrite !number_with_cons; destruct (f_status f); cbn [status_value status_eqb] in *; unfold VERY_BAD in *;
      try congruence; f_equal; lia.
Qed.

Lemma score_exact : forall l,
  finding_score l = (documented_total l, number_counted l,
    if Nat.eqb (number_counted l) 0 then 0%Q
    else (inject_Z (documented_total l) / inject_Z (Z.of_nat (number_counted l)))%Q).
Proof.
  intros. unfold finding_score. rewrite score_fold. simpl. destruct (Nat.eqb (number_counted l) 0); reflexivity.
Qed.

Lemma total_negative : forall l, number_with ERROR l <> 0 ->
  (Z.of_nat (number_not_error l) < 100000 * Z.of_nat (number_with ERROR l))%Z -> (documented_total l < 0)%Z.
Proof. intros l H1 H2. unfold documented_total, number_not_error in *. lia. Qed.

Lemma average_sign : forall t n, (n <> 0)%nat ->
  ((inject_Z t / inject_Z (Z.of_nat n)) < 0 <-> (t < 0)%Z)%Q.
Proof.
  intros t n Hn. destruct n as [|n]; [congruence|].
  unfold Qdiv, Qinv, inject_Z, Qlt. simpl. rewrite !Z.mul_1_r. split; lia.
Qed.

Lemma errors_dominate : forall l, number_with ERROR l <> 0 ->
  (Z.of_nat (number_not_error l) < 100000 * Z.of_nat (number_with ERROR l))%Z ->
  let '(total, _, average) := finding_score l in (total < 0)%Z /\ (average < 0)%Q.
Proof.
  intros l H1 H2. rewrite score_exact. pose proof (total_negative l H1 H2) as H.
  split; auto. destruct (Nat.eqb_spec (number_counted l) 0) as [E|E].
  - unfold number_counted in E. lia.
  - apply average_sign; auto.
Qed.

Lemma number_with_repeat : forall s f n, number_with s (repeat f n) = if status_eqb (f_status f) s then n else 0.
Proof.
  induction n; [unfold number_with; destruct (status_eqb (f_status f) s); reflexivity|].
  simpl repeat. rewrite number_with_cons, IHn. destruct (status_eqb (f_status f) s); lia.
Qed.

Definition ok0 : finding := mkF (Some (py "/entry")) (py "test") OK (py "fine").
Definition err0 : finding := mkF (Some (py "/entry")) (py "test") ERROR (py "wrong").

Lemma error_positive_average : exists l, number_with ERROR l <> 0 /\ (0 < snd (finding_score l))%Q.
Proof.
  exists (err0 :: repeat ok0 (Z.to_nat 200000)).
  assert (H1 : number_with ERROR (err0 :: repeat ok0 (Z.to_nat 200000)) = 1).
  { rewrite number_with_cons, number_with_repeat. reflexivity. }
  assert (H2 : number_with OK (err0 :: repeat ok0 (Z.to_nat 200000)) = Z.to_nat 200000).
  { rewrite number_with_cons, number_with_repeat. reflexivity. }
  assert (H3 : number_with NOTE (err0 :: repeat ok0 (Z.to_nat 200000)) = 0).
  { rewrite number_with_cons, number_with_repeat. reflexivity. }
  assert (H4 : number_with WARN (err0 :: repeat ok0 (Z.to_nat 200000)) = 0).
  { rewrite number_with_cons, number_with_repeat. reflexivity. }
  assert (H5 : number_with OPTIONAL (err0 :: repeat ok0 (Z.to_nat 200000)) = 0).
  { rewrite number_with_cons, number_with_repeat. reflexivity. }
  split. { rewrite H1. discriminate. }
  rewrite score_exact. unfold documented_total, number_counted. rewrite H1, H2, H3, H4, H5.
  change (snd (?a, ?b, ?c)) with c.
  destruct (Nat.eqb_spec (Z.to_nat 200000 + 0 + 0 + 0 + 1) 0) as [E|E]; [lia|].
  rewrite Z2Nat.id by lia.
  replace (Z.of_nat (Z.to_nat 200000 + 0 + 0 + 0 + 1)) with 200001%Z by lia.
  reflexivity.
Qed.

(** ** Summary *)
Definition all_counts (l : list finding) : list (status * nat) :=
  map (fun s => (s, number_with s l)) VALID_STATUS_LIST.

Lemma bump_all_valid : forall l base, exists r,
  bump_all l (map (fun s => (s, base s)) VALID_STATUS_LIST) = Ok r
  /\ r = map (fun s => (s, base s + number_with s l)) VALID_STATUS_LIST.
Proof.
  induction l as [|f l IH]; intros base.
  - eexists. split; [reflexivity|]. simpl. unfold number_with. simpl. rewrite !Nat.add_0_r. reflexivity.
  - destruct (IH (fun s => base s + (if status_eqb (f_status f) s then 1 else 0))) as [r [H ->]].
    exists (map (fun s => (s, base s + (if status_eqb (f_status f) s then 1 else 0) + number_with s l)) VALID_STATUS_LIST).
    split.
    + rewrite <- H. cbn [bump_all].
      assert (Hb : bump (f_status f) (map (fun s => (s, base s)) VALID_STATUS_LIST) =
                   Ok (map (fun s => (s, base s + (if status_eqb (f_status f) s then 1 else 0))) VALID_STATUS_LIST)).
      { destruct (f_status f); simpl; rewrite ?Nat.add_0_r, ?Nat.add_1_r; reflexivity. }
      rewrite Hb. reflexivity.
    + apply map_ext. intros s. rewrite number_with_cons. f_equal. lia.
Qed.

Lemma summary_exact : forall l, finding_summary [] l = Ok (all_counts l).
Proof.
  intros. unfold finding_summary.
  destruct (bump_all_valid l (fun _ => 0)) as [r [H ->]]. simpl in *. exact H.
Qed.

Lemma counts_sum : forall l, list_sum (map snd (all_counts l)) = List.length l.
Proof.
  induction l as [|f l IH].
  - reflexivity.
  - unfold all_counts in *. simpl map in *. simpl list_sum in *. rewrite !number_with_cons.
    simpl List.length. rewrite <- IH. destruct (f_status f); simpl; lia.
Qed.

Lemma summary_rows_exact : forall l, summary_rows l =
  Ok (map (fun s => (status_key s, number_with s l, status_description s, status_value s)) VALID_STATUS_LIST, List.length l).
Proof.
  intros. unfold summary_rows. rewrite summary_exact. cbn [rbind]. rewrite counts_sum. reflexivity.
Qed.

(** ** Rows *)
Lemma replace_at : forall s, replace_char ch_at (py " @") s = at_with_blank s.
Proof.
  induction s as [|x s IH]; auto. cbn [replace_char]. rewrite IH. unfold ch_at, at_with_blank. cbn [flat_map]. destruct (N.eqb x 64); reflexivity.
Qed.

Lemma sort_text_documented : forall a s, sort_text a s = documented_key a s.
Proof. intros. unfold sort_text. rewrite replace_at. destruct s; reflexivity. Qed.

Lemma keyed_ok : forall l, Forall has_address l -> keyed l = Ok (map (fun f => (key_of f, f)) l).
Proof.
  induction 1 as [|f l [a Ha] H IH]; auto.
  cbn [keyed]. unfold sort_validations. rewrite Ha. cbn [rbind]. rewrite IH. cbn [rbind].
  simpl. unfold key_of at 2. rewrite Ha, sort_text_documented. reflexivity.
Qed.

Lemma keyed_exn : forall l, ~ Forall has_address l -> keyed l = Exn TypeError.
Proof.
  induction l as [|f l IH]; intros H; [destruct (H (Forall_nil _))|].
  cbn [keyed]. unfold sort_validations. destruct (f_addr f) eqn:E; auto. cbn [rbind].
  rewrite IH; auto. intros Hl. apply H. constructor; auto. exists p. auto.
Qed.

Lemma text_le_iff : forall a b, text_le a b <-> str_leb a b = true.
Proof.
  intros a b. split.
  - induction 1 as [s|x y s t Hlt|x s t H IH]; simpl; auto.
    + apply N.ltb_lt in Hlt. rewrite Hlt. auto.
    + rewrite N.ltb_irrefl, N.eqb_refl. auto.
  - revert b. induction a as [|x a IH]; destruct b as [|y b]; simpl; intros H; try discriminate; [apply tl_nil | apply tl_nil |].
    destruct (N.ltb_spec x y); [apply tl_lt; auto|]. destruct (N.eqb_spec x y); [|discriminate].
    subst. apply tl_eq, IH. auto.
Qed.

Lemma status_key_name : forall s, status_key s = name_of s.
Proof. destruct s; reflexivity. Qed.

Lemma existsb_selected : forall names f,
  existsb (str_eqb (status_key (f_status f))) (match names with [] => map status_key VALID_STATUS_LIST | _ => names end)
  = selected names f.
Proof.
  intros. rewrite status_key_name. unfold selected. destruct names as [|n names].
  - destruct (f_status f); reflexivity.
  - destruct (in_dec _ _ _) as [H|H].
    + apply existsb_exists. exists (name_of (f_status f)). split; auto. apply str_eqb_refl.
    + destruct (existsb _ _) eqn:E; auto. apply existsb_exists in E as [x [Hx Ex]].
      apply str_eqb_eq in Ex. subst. contradiction.
Qed.

Lemma map_snd_sinsert : forall f (l : list finding),
  map snd (sinsert (fun x y : pystr * finding => str_leb (fst x) (fst y)) (key_of f, f) (map (fun g => (key_of g, g)) l))
  = sinsert (fun x y => str_leb (key_of x) (key_of y)) f l.
Proof.
  induction l as [|g l IH]; simpl; auto. destruct (str_leb (key_of f) (key_of g)); simpl.
  - rewrite map_map. simpl. rewrite map_id. reflexivity.
  - rewrite IH. reflexivity.
Qed.

Lemma sort_pairs : forall l, sorted_by fst (map (fun f => (key_of f, f)) l) = map (fun f => (key_of f, f)) (sorted_by key_of l).
Proof.
  unfold sorted_by. induction l as [|f l IH]; simpl; auto. rewrite IH.
  generalize (ssort (fun x y : finding => str_leb (key_of x) (key_of y)) l). intros m.
  induction m as [|g m IHm]; simpl; auto. destruct (str_leb (key_of f) (key_of g)); simpl; auto. rewrite IHm. reflexivity.
Qed.

Lemma filter_StronglySorted : forall A (R : A -> A -> Prop) p l, StronglySorted R l -> StronglySorted R (filter p l).
Proof.
  induction 1 as [|x l H IH Hx]; simpl; [constructor|]. destruct (p x); auto. constructor; auto.
  apply Forall_forall. intros y Hy. apply filter_In in Hy as [Hy _]. rewrite Forall_forall in Hx. auto.
Qed.

Lemma Permutation_filter : forall A (p : A -> bool) l l', Permutation l l' -> Permutation (filter p l) (filter p l').
Proof.
  induction 1; simpl; auto.
  - destruct (p x); auto.
  - destruct (p x), (p y); auto. apply perm_swap.
  - etransitivity; eauto.
Qed.

Lemma filter_comm : forall A (p q : A -> bool) l, filter p (filter q l) = filter q (filter p l).
Proof.
  induction l as [|x l IH]; simpl; auto.
  destruct (q x) eqn:Q, (p x) eqn:P; simpl; rewrite ?P, ?Q, ?IH; auto.
Qed.

Lemma report_rows_spec : forall names l, Forall has_address l -> exists rows,
  report_rows names l = Ok rows
  /\ Permutation rows (filter (selected names) l)
  /\ StronglySorted (fun f g => text_le (key_of f) (key_of g)) rows
  /\ forall k, filter (fun f => if list_eq_dec N.eq_dec (key_of f) k then true else false) rows
             = filter (fun f => if list_eq_dec N.eq_dec (key_of f) k then true else false) (filter (selected names) l).
Proof.
  intros names l H. unfold report_rows. rewrite (keyed_ok l H). cbn [rbind].
  rewrite sort_pairs, map_map. simpl. rewrite map_id.
  exists (filter (selected names) (sorted_by key_of l)). split; [|split; [|split]].
  - f_equal. apply filter_ext. intros. apply existsb_selected.
  - apply Permutation_filter, sorted_by_perm.
  - apply filter_StronglySorted. pose proof (sorted_by_sorted key_of l) as HS.
    revert HS. generalize (sorted_by key_of l). induction 1; constructor; auto.
    eapply Forall_impl; [|exact H0]. intros. apply text_le_iff. auto.
  - intros k. rewrite (filter_comm _ _ (selected names) l), (filter_comm _ _ (selected names) (sorted_by key_of l)). f_equal.
    assert (E : forall f, (if list_eq_dec N.eq_dec (key_of f) k then true else false) = str_eqb (key_of f) k).
    { intros f. destruct (list_eq_dec N.eq_dec (key_of f) k); symmetry; [apply str_eqb_eq | apply str_eqb_neq]; auto. }
    rewrite !(filter_ext _ _ E). rewrite sorted_by_stable. reflexivity.
Qed.

Lemma report_rows_exn : forall names l, ~ Forall has_address l -> report_rows names l = Exn TypeError.
Proof. intros. unfold report_rows. rewrite keyed_exn; auto. Qed.

(** ** Order of statuses at one address *)
Lemma at_with_blank_app : forall a b, at_with_blank (a ++ b) = at_with_blank a ++ at_with_blank b.
Proof. intros. apply flat_map_app. Qed.

Lemma str_leb_prefix : forall p a b, str_leb (p ++ a) (p ++ b) = str_leb a b.
Proof.
  induction p as [|x p IH]; simpl; intros; auto. rewrite N.ltb_irrefl, N.eqb_refl. auto.
Qed.

Lemma same_address_order : forall a s t, text_le (documented_key a s) (documented_key a t) <-> place s <= place t.
Proof.
  intros. rewrite text_le_iff. unfold documented_key. rewrite !at_with_blank_app, str_leb_prefix.
  rewrite <- Nat.leb_le. destruct s, t; (split; intros H; vm_compute in H |- *; congruence).
Qed.

Definition warn0 : finding := mkF (Some (py "/entry")) (py "b") WARN (py "poor").
Definition note0 : finding := mkF (Some (py "/entry")) (py "a") NOTE (py "fair").

(** ** make_md5 *)
Lemma cut_unique : forall (x : N) a b c d, ~ In x a -> ~ In x b -> a ++ x :: c = b ++ x :: d -> a = b /\ c = d.
Proof.
  induction a as [|y a IH]; intros [|z b] c d Ha Hb E; simpl in *.
  - inversion E. auto.
  - inversion E; subst. exfalso. apply Hb. auto.
  - inversion E; subst. exfalso. apply Ha. auto.
  - inversion E; subst. destruct (IH b c d) as [-> ->]; auto.
Qed.

Lemma md5_identifies : forall D (digest : pystr -> D) f g a b, (forall s t, digest s = digest t -> s = t) ->
  f_addr f = Some a -> f_addr g = Some b ->
  (~ In 10%N a /\ ~ In 10%N b) \/ (~ In 10%N (f_test f) /\ ~ In 10%N (f_test g)) ->
  make_md5 digest f = make_md5 digest g -> a = b /\ f_test f = f_test g.
Proof.
  intros D digest f g a b I Ha Hb N E. unfold make_md5 in E. rewrite Ha, Hb in E. inversion E as [E']. apply I in E'. change [ch_nl] with [10%N] in E'. cbn [app] in E'.
  destruct N as [[N1 N2]|[N1 N2]].
  - eapply cut_unique; eauto.
  - apply (f_equal (@rev N)) in E'. rewrite !rev_app_distr in E'. cbn [rev] in E'. rewrite <- !app_assoc in E'. cbn [app] in E'.
    apply cut_unique in E' as [E1 E2]; [|rewrite <- in_rev; auto|rewrite <- in_rev; auto].
    rewrite <- (rev_involutive a), <- (rev_involutive b), <- (rev_involutive (f_test f)), <- (rev_involutive (f_test g)). rewrite E1, E2. auto.
Qed.

Lemma md5_depends : forall D (digest : pystr -> D) f g,
  f_addr f = f_addr g -> f_test f = f_test g -> make_md5 digest f = make_md5 digest g.
Proof. intros. unfold make_md5. rewrite H, H0. reflexivity. Qed.

Lemma finding_init_spec : forall addr test st comment,
  match st with
  | SObj s => Finding_init addr test st comment = Ok (mkF addr test s comment)
              /\ In s [OK; NOTE; WARN; ERROR; TODO; UNUSED; COMMENT; OPTIONAL]
  | SJunk => Finding_init addr test st comment = Exn ValueError
  end.
Proof. intros. destruct st as [s|]; auto. destruct s; split; auto; simpl; tauto. Qed.

Lemma summary_spec : forall l,
  finding_summary [] l
    = Ok [(OK, number_with OK l); (NOTE, number_with NOTE l); (WARN, number_with WARN l); (ERROR, number_with ERROR l);
          (TODO, number_with TODO l); (UNUSED, number_with UNUSED l); (COMMENT, number_with COMMENT l);
          (OPTIONAL, number_with OPTIONAL l)]
  /\ number_with OK l + number_with NOTE l + number_with WARN l + number_with ERROR l + number_with TODO l
     + number_with UNUSED l + number_with COMMENT l + number_with OPTIONAL l = List.length l.
Proof.
  intros. split; [apply summary_exact|]. rewrite <- (counts_sum l). unfold all_counts. simpl. lia.
Qed.

Lemma summary_rows_spec : forall l, summary_rows l =
  Ok (map (fun s => (name_of s, number_with s l, description s, status_value s))
        [OK; NOTE; WARN; ERROR; TODO; UNUSED; COMMENT; OPTIONAL], List.length l).
Proof. intros. rewrite summary_rows_exact. reflexivity. Qed.

Lemma negative_average_iff : forall l, number_with ERROR l <> 0 ->
  ((snd (finding_score l) < 0)%Q <->
   (100 * Z.of_nat (number_with OK l) + 75 * Z.of_nat (number_with NOTE l) + 25 * Z.of_nat (number_with WARN l)
    + 99 * Z.of_nat (number_with OPTIONAL l) < 10000000 * Z.of_nat (number_with ERROR l))%Z).
Proof.
  intros l H. rewrite score_exact. cbn [snd]. destruct (Nat.eqb_spec (number_counted l) 0) as [E|E].
  - unfold number_counted in E. lia.
  - rewrite average_sign by auto. unfold documented_total. lia.
Qed.

Lemma print_report_spec : forall name names l, Forall has_address l -> exists rows,
  report_rows names l = Ok rows /\
  print_report (Some name) names l = Ok (mkReport name rows
    (map (fun s => (name_of s, number_with s l, description s, status_value s)) [OK; NOTE; WARN; ERROR; TODO; UNUSED; COMMENT; OPTIONAL])
    (List.length l) (snd (finding_score l)) (number_counted l)).
Proof.
  intros name names l H. destruct (report_rows_spec names l H) as [rows [Hr _]]. exists rows. split; auto.
  unfold print_report. rewrite Hr, summary_rows_spec. cbn [rbind fst snd].
  pose proof (score_exact l) as Hs. destruct (finding_score l) as [[t n] a]. inversion Hs; subst. reflexivity.
Qed.

Lemma worse_first : exists f g, f_addr f = f_addr g /\ (status_value (f_status f) < status_value (f_status g))%Z
  /\ report_rows [] [g; f] = Ok [f; g] /\ report_rows [] [f; g] = Ok [f; g].
Proof. exists warn0, note0. vm_compute. auto. Qed.
