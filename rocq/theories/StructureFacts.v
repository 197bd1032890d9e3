(** * Facts about what a schema says of data types, attributes and elements *)

From Coq Require Import List NArith ZArith Bool String Lia.
From Verif Require Import PyBase PyFacts H5 Cache CacheSetFacts SchemaMgr Spec_Schema SchemaFacts Spec_Structure.
Import ListNotations.
Open Scope string_scope.
Open Scope list_scope.

(** ** The last one of a list *)
Lemma last_here : forall {A} (P : A -> Prop) l x, P x -> none_of P l -> last_of P (x :: l) x.
Proof. intros A P l x H Hn. exists [], l. auto. Qed.
Lemma last_there : forall {A} (P : A -> Prop) l x y, last_of P l x -> last_of P (y :: l) x.
Proof. intros A P l x y (l1 & l2 & -> & H). exists (y :: l1), l2. auto. Qed.
Lemma last_cons : forall {A} (P : A -> Prop) l x y, last_of P (y :: l) x -> last_of P l x \/ (x = y /\ P y /\ none_of P l).
Proof.
  intros A P l x y (l1 & l2 & E & H & Hn). destruct l1 as [|z l1]; cbn [app] in E.
  - injection E as -> ->. right. auto.
  - injection E as _ ->. left. exists l1, l2. auto.
Qed.
Lemma last_P : forall {A} (P : A -> Prop) l x, last_of P l x -> P x /\ In x l.
Proof. intros A P l x (l1 & l2 & -> & H & _). split; auto. apply in_or_app. right. left. auto. Qed.
Lemma none_cons : forall {A} (P : A -> Prop) l x, none_of P (x :: l) <-> ~ P x /\ none_of P l.
Proof.
  intros. split.
  - intros H. split; [apply H; left; auto|intros y I; apply H; right; auto].
  - intros [H Hn] y [<- | I]; auto.
Qed.
Lemma last_app : forall {A} (P : A -> Prop) s1 s2 x, last_of P (s1 ++ s2) x -> last_of P s2 x \/ (last_of P s1 x /\ none_of P s2).
Proof.
  induction s1 as [|y s1 IH]; intros s2 x H; cbn [app] in H; auto.
  apply last_cons in H. destruct H as [H|(-> & H & Hn)].
  - apply IH in H. destruct H as [H|[H Hn]]; auto. right. split; auto. apply last_there. auto.
  - right. split.
    + apply last_here; auto. intros z I. apply Hn. apply in_or_app. auto.
    + intros z I. apply Hn. apply in_or_app. auto.
Qed.
Lemma none_app : forall {A} (P : A -> Prop) s1 s2, none_of P (s1 ++ s2) <-> none_of P s1 /\ none_of P s2.
Proof.
  intros. split.
  - intros H. split; intros y I; apply H; apply in_or_app; auto.
  - intros [H1 H2] y I. apply in_app_or in I. destruct I; auto.
Qed.
Lemma last_or_none : forall {A} (P : A -> Prop) (D : forall x, {P x} + {~ P x}) l, (exists x, last_of P l x) \/ none_of P l.
Proof.
  induction l as [|y l [[x IH]|IH]].
  - right. intros y [].
  - left. exists x. apply last_there. auto.
  - destruct (D y) as [H|H].
    + left. exists y. apply last_here; auto.
    + right. apply none_cons. auto.
Qed.

(** ** Words *)
Lemma blank_spec : forall c, (c =? 32)%N || ((9 <=? c)%N && (c <=? 13)%N) = true <-> blank c.
Proof. intros. unfold blank. rewrite orb_true_iff, andb_true_iff, N.eqb_eq, !N.leb_le. reflexivity. Qed.
Lemma blank_false : forall c, (c =? 32)%N || ((9 <=? c)%N && (c <=? 13)%N) = false <-> ~ blank c.
Proof. intros. rewrite <- blank_spec. destruct (_ || _); split; congruence. Qed.

Lemma words_blank : forall b s ws, Forall blank b -> words_of s ws -> words_of (b ++ s) ws.
Proof.
  intros b s ws B W. inversion W; subst.
  - apply wo_end. apply Forall_app. auto.
  - rewrite app_assoc. constructor; auto. apply Forall_app. auto.
Qed.

Lemma words_spec : forall s cur, Forall (fun c => ~ blank c) cur -> words_of (cur ++ s) (words s cur).
Proof.
  induction s as [|c s IH]; intros cur H; cbn [words].
  - rewrite app_nil_r. destruct cur as [|c cur]; [apply wo_end; auto|].
    replace (c :: cur) with ([] ++ (c :: cur) ++ []) at 1 by (cbn [app]; rewrite app_nil_r; auto).
    apply wo_word; auto; try discriminate. apply wo_end. auto.
  - destruct ((c =? 32)%N || _) eqn:B.
    + apply blank_spec in B. assert (W : words_of (c :: s) (words s [])).
      { apply (words_blank [c] s); [constructor; auto|]. apply (IH []). constructor. }
      destruct cur as [|d cur]; auto.
      replace ((d :: cur) ++ c :: s) with ([] ++ (d :: cur) ++ c :: s) by auto.
      apply wo_word; auto; try discriminate. right. eauto.
    + apply blank_false in B. replace (cur ++ c :: s) with ((cur ++ [c]) ++ s) by (rewrite <- app_assoc; auto).
      apply IH. apply Forall_app. auto.
Qed.

(** ** Data types *)
Lemma tag_element : forall tag t a k, element tag (SN t a k) <-> t = tag.
Proof.
  intros. split; [intros (a' & k' & E); congruence|intros ->; unfold element; eauto].
Qed.
Lemma comment_element : forall tag, ~ element tag SComment.
Proof. intros tag (a & k & E). discriminate. Qed.

Lemma map_strip : forall ws, Forall2 after_colon ws (map strip_ns ws).
Proof. induction ws; cbn [map]; constructor; auto. apply strip_after_colon. Qed.

(** the same, starting from what was said before *)
Definition type_says_after (t0 : stype) (k : list snode) (t : stype) : Prop :=
  (none_of (element (py "restriction")) k -> ty_restriction t = ty_restriction t0)
  /\ (forall a rk, last_of (element (py "restriction")) k (SN (py "restriction") a rk) ->
        exists base b, dget (py "base") a = Some base /\ after_colon base b /\ ty_restriction t = Some b)
  /\ (none_of (element (py "union")) k -> ty_union t = ty_union t0)
  /\ (forall a uk, last_of (element (py "union")) k (SN (py "union") a uk) ->
        exists text ws ms, dget (py "memberTypes") a = Some text /\ words_of text ws /\ Forall2 after_colon ws ms /\ ty_union t = Some ms)
  /\ (none_of (fun n => element (py "restriction") n \/ element (py "list") n) k -> ty_values t = ty_values t0)
  /\ (forall a rk, last_of (fun n => element (py "restriction") n \/ element (py "list") n) k (SN (py "restriction") a rk) ->
        ty_values t = Some (values_of (py "enumeration") rk))
  /\ (forall a lk, last_of (fun n => element (py "restriction") n \/ element (py "list") n) k (SN (py "list") a lk) ->
        exists item i, dget (py "itemType") a = Some item /\ after_colon item i /\ ty_values t = Some [i]).

Lemma neq_tags : py "restriction" <> py "list" /\ py "restriction" <> py "union" /\ py "union" <> py "list"
  /\ py "annotation" <> py "restriction" /\ py "annotation" <> py "union" /\ py "annotation" <> py "list".
Proof. repeat split; discriminate. Qed.

Lemma type_content_says : forall l t0 t, type_content t0 l = Ok t -> type_says_after t0 l t.
Proof.
  destruct neq_tags as (N1 & N2 & N3 & N4 & N5 & N6).
  induction l as [|n l IH]; intros t0 t H; cbn [type_content] in H.
  { injection H as <-. repeat (split; auto); intros a k (l1 & l2 & E & _); destruct l1; discriminate. }
  destruct n as [|tag a k].
  { apply IH in H. destruct H as (A1 & A2 & B1 & B2 & C1 & C2 & C3). repeat split; intros.
    - apply A1. apply none_cons in H. apply H.
    - apply last_cons in H. destruct H as [H|(E & _)]; [eauto|discriminate].
    - apply B1. apply none_cons in H. apply H.
    - apply last_cons in H. destruct H as [H|(E & _)]; [eauto|discriminate].
    - apply C1. apply none_cons in H. apply H.
    - apply last_cons in H. destruct H as [H|(E & _)]; [eauto|discriminate].
    - apply last_cons in H. destruct H as [H|(E & _)]; [eauto|discriminate]. }
  destruct (str_eqb_spec tag (py "annotation")) as [-> | TA].
  { apply IH in H. destruct H as (A1 & A2 & B1 & B2 & C1 & C2 & C3). repeat split; intros.
    - apply A1. apply none_cons in H. apply H.
    - apply last_cons in H. destruct H as [H|(E & _)]; [eauto|congruence].
    - apply B1. apply none_cons in H. apply H.
    - apply last_cons in H. destruct H as [H|(E & _)]; [eauto|congruence].
    - apply C1. apply none_cons in H. apply H.
    - apply last_cons in H. destruct H as [H|(E & _)]; [eauto|congruence].
    - apply last_cons in H. destruct H as [H|(E & _)]; [eauto|congruence]. }
  destruct (str_eqb_spec tag (py "list")) as [-> | TL].
  { unfold dgetitem in H. destruct (dget (py "itemType") a) as [i|] eqn:I; [|discriminate]. cbn [rbind] in H.
    apply IH in H. destruct H as (A1 & A2 & B1 & B2 & C1 & C2 & C3). cbn [ty_restriction ty_union ty_values] in *. repeat split; intros.
    - apply A1. apply none_cons in H. apply H.
    - apply last_cons in H. destruct H as [H|(E & _)]; [eauto|congruence].
    - apply B1. apply none_cons in H. apply H.
    - apply last_cons in H. destruct H as [H|(E & _)]; [eauto|congruence].
    - exfalso. apply none_cons in H. apply (proj1 H). right. apply tag_element. auto.
    - apply last_cons in H. destruct H as [H|(E & _)]; [eauto|congruence].
    - apply last_cons in H. destruct H as [H|(E & _ & Hn)]; [eauto|]. injection E as -> ->.
      exists i, (strip_ns i). split; [auto|]. split; [apply strip_after_colon|auto]. }
  destruct (str_eqb_spec tag (py "restriction")) as [-> | TR].
  { unfold dgetitem in H. destruct (dget (py "base") a) as [i|] eqn:I; [|discriminate]. cbn [rbind] in H.
    destruct (enum_values k) as [v|] eqn:V; [|discriminate]. cbn [rbind] in H. apply enum_values_spec in V.
    apply IH in H. destruct H as (A1 & A2 & B1 & B2 & C1 & C2 & C3). cbn [ty_restriction ty_union ty_values] in *. repeat split; intros.
    - exfalso. apply none_cons in H. apply (proj1 H). apply tag_element. auto.
    - apply last_cons in H. destruct H as [H|(E & _ & Hn)]; [eauto|]. injection E as -> ->.
      exists i, (strip_ns i). split; [auto|]. split; [apply strip_after_colon|auto].
    - apply B1. apply none_cons in H. apply H.
    - apply last_cons in H. destruct H as [H|(E & _)]; [eauto|congruence].
    - exfalso. apply none_cons in H. apply (proj1 H). left. apply tag_element. auto.
    - apply last_cons in H. destruct H as [H|(E & _ & Hn)]; [eauto|]. injection E as -> ->. rewrite C1; auto. congruence.
    - apply last_cons in H. destruct H as [H|(E & _ & Hn)]; [eauto|congruence]. }
  destruct (str_eqb_spec tag (py "union")) as [-> | TU]; [|discriminate].
  unfold dgetitem in H. destruct (dget (py "memberTypes") a) as [i|] eqn:I; [|discriminate]. cbn [rbind] in H.
  apply IH in H. destruct H as (A1 & A2 & B1 & B2 & C1 & C2 & C3). cbn [ty_restriction ty_union ty_values] in *. repeat split; intros.
  - apply A1. apply none_cons in H. apply H.
  - apply last_cons in H. destruct H as [H|(E & _)]; [eauto|congruence].
  - exfalso. apply none_cons in H. apply (proj1 H). apply tag_element. auto.
  - apply last_cons in H. destruct H as [H|(E & _ & Hn)]; [eauto|]. injection E as -> ->.
    exists i, (words i []), (map strip_ns (words i [])). split; [auto|]. split; [apply (words_spec i []); constructor|].
    split; [apply map_strip|auto].
  - apply C1. apply none_cons in H. apply H.
  - apply last_cons in H. destruct H as [H|(E & _)]; [eauto|congruence].
  - apply last_cons in H. destruct H as [H|(E & _)]; [eauto|congruence].
Qed.

Lemma type_content_says' : forall l nm t, type_content (mkTy nm None None None) l = Ok t -> type_says l t /\ ty_name t = nm.
Proof.
  intros l nm t H. split; [|apply type_content_name in H; exact H].
  apply type_content_says in H. exact H.
Qed.

Lemma types_of_spec : forall l db db' nm, types_of db l = Ok db' ->
  (none_of (type_called nm) l -> dget nm db' = dget nm db)
  /\ (forall tag a k, last_of (type_called nm) l (SN tag a k) ->
        exists t, dget nm db' = Some t /\ type_says k t /\ ty_name t = Some nm).
Proof.
  induction l as [|n l IH]; intros db db' nm H; cbn [types_of] in H.
  { injection H as <-. split; auto. intros tag a k (l1 & l2 & E & _). destruct l1; discriminate. }
  destruct n as [|tg at_ kd].
  { destruct (IH _ _ nm H) as [H1 H2]. split.
    - intros Hn. apply none_cons in Hn. apply H1, Hn.
    - intros tag a k L. apply last_cons in L. destruct L as [L|(E & _)]; [eauto|discriminate]. }
  destruct (str_eqb_spec tg (py "annotation")) as [-> | T].
  { destruct (IH _ _ nm H) as [H1 H2]. split.
    - intros Hn. apply none_cons in Hn. apply H1, Hn.
    - intros tag a k L. apply last_cons in L. destruct L as [L|(_ & (_ & F) & _)]; [eauto|].
      exfalso. apply F. apply tag_element. auto. }
  destruct (type_content (mkTy (dget (py "name") at_) None None None) kd) as [t|] eqn:C; [|discriminate]. cbn [rbind] in H.
  apply type_content_says' in C. destruct C as [S Nm]. rewrite Nm in H.
  assert (NA : ~ element (py "annotation") (SN tg at_ kd)) by (intros F; apply T; eapply tag_element; exact F).
  destruct (dget (py "name") at_) as [x|] eqn:X.
  - destruct (IH _ _ nm H) as [H1 H2]. split.
    + intros Hn. apply none_cons in Hn. destruct Hn as [Hn Hl]. rewrite (H1 Hl). apply dget_dset_other.
      intros ->. apply Hn. split; auto. do 3 eexists. split; [reflexivity|auto].
    + intros tag a k L. apply last_cons in L. destruct L as [L|(E & (Cd & _) & Hn)]; [eauto|].
      injection E as -> -> ->. destruct Cd as (t' & a' & k' & E & Nm'). injection E as <- <- <-.
      assert (x = nm) by congruence. subst x. exists t. rewrite (H1 Hn), dget_dset_same. auto.
  - destruct (IH _ _ nm H) as [H1 H2]. split.
    + intros Hn. apply none_cons in Hn. apply H1, Hn.
    + intros tag a k L. apply last_cons in L. destruct L as [L|(E & (Cd & _) & Hn)]; [eauto|].
      destruct Cd as (t' & a' & k' & E' & Nm'). injection E' as <- <- <-. congruence.
Qed.

Lemma ddel_same : forall {V} k (d : dict V), dget k (ddel k d) = None.
Proof.
  unfold ddel. induction d as [|[x v] d IH]; cbn [filter fst]; auto.
  destruct (str_eqb_spec x k) as [-> | X]; cbn [negb]; auto. rewrite dget_cons.
  destruct (str_eqb_spec k x); [congruence|auto].
Qed.

Lemma type_called_dec : forall nm n, {type_called nm n} + {~ type_called nm n}.
Proof.
  intros nm [|tag a k].
  - right. intros ((t & a & k & E & _) & _). discriminate.
  - destruct (str_eqb_spec tag (py "annotation")) as [-> | T].
    + right. intros [_ F]. apply F. apply tag_element. auto.
    + destruct (dget (py "name") a) as [x|] eqn:X.
      * destruct (str_eqb_spec x nm) as [-> | NE].
        -- left. split; [do 3 eexists; split; [reflexivity|auto]|]. intros F. apply T. eapply tag_element. exact F.
        -- right. intros ((t & a' & k' & E & D) & _). injection E as <- <- <-. congruence.
      * right. intros ((t & a' & k' & E & D) & _). injection E as <- <- <-. congruence.
Qed.

Lemma types_spec : forall types db units, parse_nxdlTypes (Some types) = Ok (db, units) ->
  (forall nm tag a k, nm <> py "anyUnitsAttr" -> nm <> py "primitiveType" -> last_of (type_called nm) types (SN tag a k) ->
     exists t, dget nm db = Some t /\ ty_name t = Some nm /\ type_says k t)
  /\ (forall nm, nm = py "anyUnitsAttr" \/ nm = py "primitiveType" \/ none_of (type_called nm) types -> dget nm db = None)
  /\ (exists tag a k t, last_of (type_called (py "anyUnitsAttr")) types (SN tag a k) /\ type_says k t
        /\ units = match ty_values t with Some v => v | None => [] end)
  /\ (exists n, last_of (type_called (py "primitiveType")) types n).
Proof.
  intros types db units H. unfold parse_nxdlTypes in H.
  destruct (types_of [] types) as [d|] eqn:T; [|discriminate]. cbn [rbind] in H.
  unfold dgetitem in H. destruct (dget (py "anyUnitsAttr") d) as [u|] eqn:U; [|discriminate]. cbn [rbind] in H.
  unfold dmem, amem in H. fold (dget (py "primitiveType") (ddel (py "anyUnitsAttr") d)) in H.
  destruct (dget (py "primitiveType") (ddel (py "anyUnitsAttr") d)) as [pr|] eqn:P; [|discriminate]. injection H as <- <-.
  assert (NE : py "anyUnitsAttr" <> py "primitiveType") by discriminate.
  split; [|split; [|split]].
  - intros nm tag a k N1 N2 L. destruct (proj2 (types_of_spec _ _ _ nm T) tag a k L) as (t & G & S & M).
    exists t. rewrite !ddel_other by (apply not_eq_sym; auto). auto.
  - intros nm [-> | [-> | N]].
    + rewrite ddel_other by (apply not_eq_sym; auto). apply ddel_same.
    + apply ddel_same.
    + destruct (str_eqb_spec nm (py "primitiveType")) as [-> | N2]; [apply ddel_same|]. rewrite ddel_other by (apply not_eq_sym; auto).
      destruct (str_eqb_spec nm (py "anyUnitsAttr")) as [-> | N1]; [apply ddel_same|]. rewrite ddel_other by (apply not_eq_sym; auto).
      rewrite (proj1 (types_of_spec _ _ _ nm T) N). auto.
  - destruct (last_or_none _ (type_called_dec (py "anyUnitsAttr")) types) as [[x L]|N].
    + destruct x as [|tag a k]; [destruct (last_P _ _ _ L) as [[(t & a & k & E & _) _] _]; congruence|].
      destruct (proj2 (types_of_spec _ _ _ _ T) tag a k L) as (t & G & S & M).
      exists tag, a, k, t. split; auto. split; auto. rewrite G in U. injection U as ->. auto.
    + rewrite (proj1 (types_of_spec _ _ _ _ T) N) in U. discriminate U.
  - destruct (last_or_none _ (type_called_dec (py "primitiveType")) types) as [L|N]; auto.
    rewrite ddel_other in P by auto. rewrite (proj1 (types_of_spec _ _ _ _ T) N) in P. discriminate P.
Qed.

(** ** Attributes *)
Lemma values_of_named : forall tag l,
  flat_map (fun m => match dget (py "value") (s_attrib m) with Some v => [v] | None => [] end) (s_named tag l) = values_of tag l.
Proof.
  unfold values_of, s_named. induction l as [|n l IH]; cbn [filter flat_map]; auto.
  destruct n as [|t a k]; cbn [s_is s_attrib app]; auto. destruct (str_eqb t tag); cbn [flat_map s_attrib app]; auto. rewrite IH. auto.
Qed.

Lemma inside_app : forall tag l m, inside tag (l ++ m) = inside tag l ++ inside tag m.
Proof. intros. unfold inside. apply flat_map_app. Qed.
Lemma named_app : forall tag l m, s_named tag (l ++ m) = s_named tag l ++ s_named tag m.
Proof. intros. unfold s_named. apply filter_app. Qed.

Lemma named_kids : forall tag tag' l, flat_map (fun m => s_named tag' (s_kids m)) (s_named tag l) = s_named tag' (inside tag l).
Proof.
  induction l as [|n l IH]; [reflexivity|]. change (n :: l) with ([n] ++ l). rewrite inside_app, !named_app, flat_map_app, IH. f_equal.
  destruct n as [|t a k]; [reflexivity|]. unfold s_named at 2, inside. cbn [filter s_is flat_map app].
  destruct (str_eqb t tag); cbn [flat_map s_kids]; rewrite ?app_nil_r; reflexivity.
Qed.

Lemma values_at_spec : forall tag n,
  values_at [py "simpleType"; py "restriction"; tag] n = values_of tag (inside (py "restriction") (inside (py "simpleType") (s_kids n))).
Proof.
  intros. unfold values_at. cbn [fold_left]. cbn [flat_map]. rewrite app_nil_r. rewrite named_kids, named_kids. apply values_of_named.
Qed.

Lemma spells_lower : forall s t, Forall (fun d => (97 <= d <= 122)%N) t -> (map lower_char s = t <-> spells s t).
Proof.
  unfold spells. induction s as [|c s IH]; intros [|d t] F; cbn [map]; (split; [intros H|intros H]); try congruence; try constructor; try (inversion H; fail).
  - injection H as H1 H2. unfold lower_char in H1. destruct ((65 <=? c)%N && (c <=? 90)%N) eqn:B; [|left; auto].
    apply andb_true_iff in B. rewrite !N.leb_le in B. right. auto.
  - injection H as H1 H2. apply IH; auto. inversion F; auto.
  - inversion H; subst. inversion F; subst. f_equal; [|apply IH; auto]. unfold lower_char.
    destruct H3 as [-> | [B <-]].
    + destruct ((65 <=? d)%N && (d <=? 90)%N) eqn:B; auto. apply andb_true_iff in B. rewrite !N.leb_le in B. lia.
    + replace ((65 <=? c)%N && (c <=? 90)%N) with true; auto. symmetry. apply andb_true_iff. rewrite !N.leb_le. lia.
Qed.

Lemma lower_letters : forall t, forallb (fun d => (97 <=? d)%N && (d <=? 122)%N) t = true -> Forall (fun d => (97 <= d <= 122)%N) t.
Proof.
  intros t H. apply Forall_forall. intros d I. rewrite forallb_forall in H. apply H in I. apply andb_true_iff in I. rewrite !N.leb_le in I. auto.
Qed.

Lemma attribute_spec : forall n a, schema_attribute n = Ok a -> attribute_says n a.
Proof.
  intros n a H. unfold schema_attribute in H.
  set (at_ := s_attrib n) in *. set (ty := match dget (py "type") at_ with Some t => t | None => py "str" end) in *.
  assert (TT : str_eqb ty (py "nx:NX_BOOLEAN") = true <-> dget (py "type") at_ = Some (py "nx:NX_BOOLEAN")).
  { unfold ty. split.
    - intros B. apply str_eqb_eq in B. destruct (dget (py "type") at_); [f_equal; auto|]. discriminate B.
    - intros ->. apply str_eqb_eq. auto. }
  destruct (if str_eqb ty (py "nx:NX_BOOLEAN") then _ else _) as [df|] eqn:D; [|discriminate]. cbn [rbind] in H. injection H as <-.
  unfold attribute_says. cbn [sa_name sa_required sa_type sa_default sa_enum sa_patterns]. fold at_. rewrite !values_at_spec.
  split; [auto|]. split.
  { split.
    - intros B. apply str_eqb_eq in B. match type of B with context [dget ?k at_] => change k with (py "use") in B end.
      destruct (dget (py "use") at_); [f_equal; auto|]. discriminate B.
    - intros B. match goal with |- context [dget ?k at_] => change k with (py "use") end. rewrite B. apply str_eqb_eq. auto. }
  split; [unfold ty; intros t ->; auto|]. split; [unfold ty; intros ->; auto|]. split; [|split; [|auto]].
  - intros NB. destruct (str_eqb ty (py "nx:NX_BOOLEAN")) eqn:B; [exfalso; apply NB, TT; auto|]. congruence.
  - intros B. apply TT in B. rewrite B in D. destruct (dget (py "default") at_) as [s|]; [|discriminate]. injection D as <-.
    exists s, (is_true s). split; [auto|]. split; [auto|]. unfold is_true. rewrite orb_true_iff, !str_eqb_eq.
    rewrite <- !spells_lower; [reflexivity| |]; apply lower_letters; reflexivity.
Qed.

Lemma attribute_key : forall n a, schema_attribute n = Ok a -> okey (sa_name a) = key_of n.
Proof. intros n a H. apply attribute_spec in H. destruct H as (-> & _). reflexivity. Qed.

(** ** Structures *)
Lemma filter_only : forall {A} (p : A -> bool) (P : A -> Prop), (forall x, p x = true <-> P x) ->
  forall l x, filter p l = [x] -> only_one P l x.
Proof.
  intros A p P HP. assert (Z : forall l, filter p l = [] -> none_of P l).
  { intros l F y I C. apply HP in C. assert (In y (filter p l)) as J by (apply filter_In; auto). rewrite F in J. destruct J. }
  unfold only_one. induction l as [|y l IH]; intros x H; cbn [filter] in H; [discriminate|].
  destruct (p y) eqn:B.
  - injection H as <- F. exists [], l. split; [auto|]. split; [apply HP; auto|]. split; [intros z []|]. apply Z. auto.
  - destruct (IH x H) as (l1 & l2 & -> & C & N1 & N2). exists (y :: l1), l2. split; [auto|]. split; [auto|]. split; [|auto].
    apply none_cons. split; auto. intros C'. apply HP in C'. congruence.
Qed.

Lemma named_only_tag : forall root tag value n, get_named_node root (Some tag) value = Ok n ->
  only_one (fun x => element tag x /\ called value x) root n.
Proof.
  intros root tag value n H. unfold get_named_node in H.
  match type of H with match filter ?p root with _ => _ end = _ => destruct (filter p root) as [|x [|]] eqn:F; try discriminate; injection H as ->;
    refine (filter_only p _ _ _ _ F) end.
  intros [|t a k].
  - split; [discriminate|intros [(? & ? & E) _]; discriminate].
  - rewrite andb_true_iff, str_eqb_eq, tag_element. split.
    + intros [-> B]. split; auto. destruct (dget (py "name") a) as [v|] eqn:V; [|discriminate]. apply str_eqb_eq in B. subst v.
      do 3 eexists. split; [reflexivity|auto].
    + intros [-> (? & ? & ? & E & D)]. injection E as <- <- <-. split; auto. rewrite D. apply str_eqb_eq. auto.
Qed.

Lemma tag_only : forall tag root n, s_named tag root = [n] -> only_one (element tag) root n.
Proof.
  intros tag root n H. refine (filter_only _ _ _ _ _ H). intros [|t a k]; cbn [s_is].
  - split; [discriminate|intros (? & ? & E); discriminate].
  - rewrite str_eqb_eq, tag_element. reflexivity.
Qed.

Lemma named_only : forall root value n, get_named_node root None value = Ok n -> only_named root value n.
Proof.
  intros root value n H. unfold get_named_node in H.
  set (p := fun n => _) in H.
  assert (P : forall x, p x = true <-> called value x).
  { intros [|t a k]; unfold p, called; cbn [andb].
    - split; [discriminate|intros (? & ? & ? & E & _); discriminate].
    - destruct (dget (py "name") a) as [v|] eqn:V.
      + split.
        * intros B. apply str_eqb_eq in B. subst v. do 3 eexists. split; [reflexivity|auto].
        * intros (? & ? & ? & E & D). injection E as <- <- <-. apply str_eqb_eq. congruence.
      + split; [discriminate|]. intros (? & ? & ? & E & D). injection E as <- <- <-. congruence. }
  destruct (filter p root) as [|x [|]] eqn:F; try discriminate. injection H as ->. exact (filter_only p _ P _ _ F).
Qed.

Definition tidy (c : content) : Prop := NoDup (map fst (fst c)) /\ NoDup (map fst (snd c)).

Section Kept.
  Context (root : list snode) (again : bool).

  Definition adds (c0 : content) (s : list statement) (c : content) : Prop :=
    keeps_attrs (fst c0) s (fst c) /\ keeps_children (element_says root again) (snd c0) s (snd c).

  Lemma adds_nil : forall c, adds c [] c.
  Proof.
    intros c. split; intros k; (split; [auto|]); intros n (l1 & l2 & E & _); destruct l1; discriminate.
  Qed.

  Lemma adds_app : forall c0 s1 c1 s2 c2, adds c0 s1 c1 -> adds c1 s2 c2 -> adds c0 (s1 ++ s2) c2.
  Proof.
    intros c0 s1 c1 s2 c2 [A1 B1] [A2 B2]. split; intros k.
    - destruct (A1 k) as [A1n A1s], (A2 k) as [A2n A2s]. split.
      + intros H. apply none_app in H. destruct H. rewrite A2n, A1n; auto.
      + intros n H. apply last_app in H. destruct H as [H|[H Hn]]; auto. rewrite A2n; auto.
    - destruct (B1 k) as [A1n A1s], (B2 k) as [A2n A2s]. split.
      + intros H. apply none_app in H. destruct H. rewrite A2n, A1n; auto.
      + intros n H. apply last_app in H. destruct H as [H|[H Hn]]; auto. rewrite A2n; auto.
  Qed.

  Lemma adds_attr : forall c n a, schema_attribute n = Ok a -> adds c [StAttr n] (add_attr a c).
  Proof.
    intros c n a H. pose proof (attribute_key _ _ H) as K. apply attribute_spec in H. unfold add_attr. rewrite K. split; intros k; cbn [fst snd]; split.
    - intros Hn. apply dget_dset_other. intros E. apply (Hn (StAttr n)); [left; auto|]. exists n. auto.
    - intros m L. apply last_cons in L. destruct L as [(l1 & l2 & E & _)|(E & (x & E' & K') & _)]; [destruct l1; discriminate|].
      injection E as ->. injection E' as <-. subst k. exists a. rewrite dget_dset_same. auto.
    - auto.
    - intros m L. apply last_cons in L. destruct L as [(l1 & l2 & E & _)|(E & _)]; [destruct l1; discriminate|discriminate].
  Qed.

  Lemma adds_child : forall c n o, element_says root again n o -> okey (sobj_name o) = key_of n -> adds c [StChild n] (add_child o c).
  Proof.
    intros c n a H K. unfold add_child. rewrite K. split; intros k; cbn [fst snd]; split.
    - auto.
    - intros m L. apply last_cons in L. destruct L as [(l1 & l2 & E & _)|(E & _)]; [destruct l1; discriminate|discriminate].
    - intros Hn. apply dget_dset_other. intros E. apply (Hn (StChild n)); [left; auto|]. exists n. auto.
    - intros m L. apply last_cons in L. destruct L as [(l1 & l2 & E & _)|(E & (x & E' & K') & _)]; [destruct l1; discriminate|].
      injection E as ->. injection E' as <-. subst k. exists a. rewrite dget_dset_same. auto.
  Qed.

  Lemma attr_called_dec : forall k st, {attr_called k st} + {~ attr_called k st}.
  Proof.
    intros k [n|n].
    - destruct (str_eqb_spec (key_of n) k) as [E|E]; [left; exists n; auto|right; intros (m & E1 & E2); congruence].
    - right. intros (m & E1 & E2). congruence.
  Qed.
  Lemma child_called_dec : forall k st, {child_called k st} + {~ child_called k st}.
  Proof.
    intros k [n|n].
    - right. intros (m & E1 & E2). congruence.
    - destruct (str_eqb_spec (key_of n) k) as [E|E]; [left; exists n; auto|right; intros (m & E1 & E2); congruence].
  Qed.

  Lemma adds_copy : forall c s o, adds ([], []) s o -> tidy o -> adds c s (copy_to o c).
  Proof.
    intros c s o [A B] [T1 T2]. unfold copy_to. split; intros k; cbn [fst snd]; rewrite dupdate_get by auto.
    - destruct (A k) as [An As]. split.
      + intros Hn. rewrite (An Hn). auto.
      + intros n L. destruct (As n L) as (a & -> & H). eauto.
    - destruct (B k) as [An As]. split.
      + intros Hn. rewrite (An Hn). auto.
      + intros n L. destruct (As n L) as (a & -> & H). eauto.
  Qed.

  Lemma tidy_copy : forall o c, tidy c -> tidy (copy_to o c).
  Proof. intros o c [H1 H2]. split; cbn [copy_to fst snd]; apply dupdate_NoDup; auto. Qed.
  Lemma tidy_attr : forall a c, tidy c -> tidy (add_attr a c).
  Proof. intros o c [H1 H2]. split; cbn [add_attr fst snd]; auto. apply dset_NoDup. auto. Qed.
  Lemma tidy_child : forall a c, tidy c -> tidy (add_child a c).
  Proof. intros o c [H1 H2]. split; cbn [add_child fst snd]; auto. apply dset_NoDup. auto. Qed.
  Lemma tidy_nil : tidy ([], []).
  Proof. split; constructor. Qed.

  (** a computation of a type, when a group was met before if [again] *)
  Definition right_type (st : option pystr -> SM content) : Prop :=
    forall ref b b' c, (again = true -> b = true) -> st ref b = (b', Ok c) ->
      (again = true -> b' = true) /\ tidy c
      /\ exists r nm n s, ref = Some r /\ after_colon r nm /\ only_named root nm n
           /\ states root InType (s_kids n) s /\ adds ([], []) s c.

  Context (st : option pystr -> SM content) (R : right_type st).

  Lemma inline_spec : forall l d d', inline_types d l = Ok d' -> keeps_attrs d (first_attributes l) d'.
  Proof.
    induction l as [|n l IH]; intros d d' H; cbn [inline_types] in H.
    { injection H as <-. apply (adds_nil (d, [])). }
    destruct n as [|tag a k]; [discriminate|]. destruct (str_eqb_spec tag (py "complexType")) as [-> | T].
    - destruct (s_named (py "attribute") k) as [|x xs] eqn:X; [discriminate|].
      destruct (schema_attribute x) as [y|] eqn:Y; [|discriminate]. cbn [rbind] in H. apply IH in H.
      unfold first_attributes. cbn [flat_map]. fold (first_attributes l).
      replace (str_eqb (py "complexType") (py "complexType")) with true by reflexivity. rewrite X. cbn [firstn map].
      refine (proj1 (adds_app (d, []) [StAttr x] (add_attr y (d, [])) (first_attributes l) (d', []) (adds_attr _ _ _ Y) _)).
      split; [exact H|]. intros j. split; [auto|]. intros m L. exfalso.
      apply last_P in L. destruct L as [_ I]. unfold first_attributes in I. apply in_flat_map in I. destruct I as (z & _ & I).
      destruct z as [|t a' k']; [destruct I|]. destruct (str_eqb t _); [|destruct I]. apply in_map_iff in I. destruct I as (w & E & _). discriminate.
    - destruct (str_eqb tag (py "annotation")); [|discriminate]. unfold first_attributes. cbn [flat_map]. fold (first_attributes l).
      replace (str_eqb tag (py "complexType")) with false; [auto|]. symmetry. destruct (str_eqb_spec tag (py "complexType")); congruence.
  Qed.

  Lemma element_spec : forall n b b' o, (again = true -> b = true) -> schema_element st n b = (b', Ok o) ->
    (again = true -> b' = true) /\ element_says root again n o /\ okey (sobj_name o) = key_of n.
  Proof.
    intros n b b' o Hb H. unfold schema_element in H. destruct (dget (py "type") (s_attrib n)) as [ty|] eqn:T.
    2:{ apply sbind_ok in H. destruct H as (b1 & at_ & H & H2). unfold slift in H. injection H as <- H. injection H2 as <- <-.
        split; [auto|]. split; [|reflexivity]. apply el_inline; auto. apply inline_spec. auto. }
    apply sbind_ok in H. destruct H as (b1 & nm & H0 & H2). unfold slift in H0. pose proof (f_equal snd H0) as H. cbn [snd] in H.
    apply (f_equal fst) in H0. cbn [fst] in H0. subst b1.
    unfold dgetitem in H. destruct (dget (py "name") (s_attrib n)) as [nm'|] eqn:Nm; [|discriminate]. assert (nm' = nm) by congruence. subst nm'.
    assert (Full : forall b0, (again = true -> b0 = true) -> ~ (again = true /\ group_element n) ->
      (sdo c <- st (Some ty) ; let c' := copy_to c ([], []) in sret (SElem (Some nm) (Some ty) (fst c') (snd c'))) b0 = (b', Ok o) ->
      (again = true -> b' = true) /\ element_says root again n o /\ okey (sobj_name o) = key_of n).
    { intros b0 Hb0 NG F. apply sbind_ok in F. destruct F as (b2 & c & F & F2). injection F2 as <- <-.
      destruct (R _ _ _ _ Hb0 F) as (Hb2 & Td & r & nm' & t & s & E & AC & ON & St & Ad). injection E as <-.
      split; [auto|]. split; [|unfold key_of; rewrite Nm; reflexivity]. rewrite <- Nm.
      destruct (adds_copy ([], []) s c Ad Td) as [KA KC].
      eapply el_type; eauto. }
    destruct (str_eqb_spec nm (py "group")) as [-> | G]; cbn [andb] in H2.
    - destruct (str_eqb_spec ty (py "nx:groupType")) as [-> | G].
      + apply sbind_ok in H2. destruct H2 as (b2 & started & H1 & H2). injection H1 as <- <-.
        apply sbind_ok in H2. destruct H2 as (b3 & u & H1 & H2). injection H1 as <- _.
        destruct b.
        * assert (b' = true) by (apply (f_equal fst) in H2; cbn in H2; congruence). subst b'.
          assert (Eo : o = SElem (dget (py "name") (s_attrib n)) (dget (py "type") (s_attrib n)) [] [(py "group", SRec)]).
          { rewrite Nm, T. apply (f_equal snd) in H2. unfold sret in H2. cbn [snd] in H2. congruence. }
          subst o. split; [auto|]. split; [|reflexivity]. apply el_again. split; auto.
        * eapply Full; [| |exact H2]; auto. intros [F _]. specialize (Hb F). discriminate.
      + eapply Full; [exact Hb| |exact H2]. intros (_ & _ & F). rewrite T in F. congruence.
    - eapply Full; [exact Hb| |exact H2]. intros (_ & F & _). rewrite Nm in F. congruence.
  Qed.

  Definition done (c : content) (p : place) (l : list snode) (b' : bool) (c' : content) : Prop :=
    (again = true -> b' = true) /\ (tidy c -> tidy c') /\ exists s, states root p l s /\ adds c s c'.

  Lemma sequence_spec : forall l c b b' c', (again = true -> b = true) -> parse_sequence st c l b = (b', Ok c') -> done c InSequence l b' c'.
  Proof.
    induction l as [|n l IH]; intros c b b' c' Hb H; cbn [parse_sequence] in H.
    { injection H as <- <-. split; [auto|]. split; [auto|]. exists []. split; [constructor|apply adds_nil]. }
    destruct n as [|tag a k]; [discriminate|]. destruct (str_eqb tag (py "element") || str_eqb tag (py "group")) eqn:T.
    - apply sbind_ok in H. destruct H as (b1 & o & H1 & H). destruct (element_spec _ _ _ _ Hb H1) as (Hb1 & El & K).
      destruct (IH _ _ _ _ Hb1 H) as (Hb' & Td & s & St & Ad). split; [auto|]. split; [intros; apply Td, tidy_child; auto|].
      exists (StChild (SN tag a k) :: s). split.
      + apply st_child; auto. apply orb_true_iff in T. rewrite !str_eqb_eq in T. destruct T; auto.
      + apply (adds_app c [StChild (SN tag a k)] (add_child o c) s c'); auto. apply adds_child; auto.
    - destruct (str_eqb_spec tag (py "any")) as [-> | T2]; [|discriminate].
      destruct (IH _ _ _ _ Hb H) as (Hb' & Td & s & St & Ad). split; [auto|]. split; [auto|]. exists s. split; auto.
      apply st_nothing; auto. right. right. apply tag_element. auto.
  Qed.

  Lemma extension_spec : forall l c b b' c', (again = true -> b = true) -> extension_content st c l b = (b', Ok c') -> done c InType l b' c'.
  Proof.
    induction l as [|n l IH]; intros c b b' c' Hb H; cbn [extension_content] in H.
    { injection H as <- <-. split; [auto|]. split; [auto|]. exists []. split; [constructor|apply adds_nil]. }
    destruct n as [|tag a k]; [discriminate|]. destruct (str_eqb_spec tag (py "annotation")) as [-> | T1].
    { destruct (IH _ _ _ _ Hb H) as (Hb' & Td & s & St & Ad). split; [auto|]. split; [auto|]. exists s. split; auto.
      apply st_nothing; auto. right. left. apply tag_element. auto. }
    destruct (str_eqb_spec tag (py "attribute")) as [-> | T2].
    { apply sbind_ok in H. destruct H as (b1 & o & H1 & H). unfold slift in H1. injection H1 as <- H1.
      destruct (IH _ _ _ _ Hb H) as (Hb' & Td & s & St & Ad). split; [auto|]. split; [intros; apply Td, tidy_attr; auto|].
      exists (StAttr (SN (py "attribute") a k) :: s). split; [apply st_attribute; auto|].
      apply (adds_app c [StAttr (SN (py "attribute") a k)] (add_attr o c) s c'); auto. apply adds_attr; auto. }
    destruct (str_eqb_spec tag (py "sequence")) as [-> | T3]; [|discriminate].
    apply sbind_ok in H. destruct H as (b1 & c1 & H1 & H). destruct (sequence_spec _ _ _ _ _ Hb H1) as (Hb1 & Td1 & s1 & St1 & Ad1).
    destruct (IH _ _ _ _ Hb1 H) as (Hb' & Td & s & St & Ad). split; [auto|]. split; [auto|]. exists (s1 ++ s). split; [apply st_sequence; auto|].
    eapply adds_app; eauto.
  Qed.

  Lemma complex_spec : forall l c b b' c', (again = true -> b = true) -> parse_complexContent st c l b = (b', Ok c') -> done c InType l b' c'.
  Proof.
    induction l as [|n l IH]; intros c b b' c' Hb H; cbn [parse_complexContent] in H.
    { injection H as <- <-. split; [auto|]. split; [auto|]. exists []. split; [constructor|apply adds_nil]. }
    destruct n as [|tag a k]; [discriminate|]. destruct (str_eqb_spec tag (py "extension")) as [-> | T1]; [|discriminate].
    destruct (dget (py "base") a) as [base|] eqn:B; [|discriminate]. destruct (negb _); [discriminate|].
    apply sbind_ok in H. destruct H as (b1 & o & H1 & H). destruct (R _ _ _ _ Hb H1) as (Hb1 & To & r & nm & n & s1 & E & AC & ON & St1 & Ad1).
    injection E as <-.
    apply sbind_ok in H. destruct H as (b2 & c2 & H2 & H). destruct (extension_spec _ _ _ _ _ Hb1 H2) as (Hb2 & Td2 & s2 & St2 & Ad2).
    destruct (IH _ _ _ _ Hb2 H) as (Hb' & Td & s & St & Ad). split; [auto|]. split; [intros; apply Td, Td2, tidy_copy; auto|].
    exists (s1 ++ s2 ++ s). split; [eapply st_extension; eauto|].
    eapply adds_app; [apply adds_copy; eauto|]. eapply adds_app; eauto.
  Qed.

  Lemma structure_spec : forall l c b b' c', (again = true -> b = true) -> type_structure st c l b = (b', Ok c') -> done c InType l b' c'.
  Proof.
    induction l as [|n l IH]; intros c b b' c' Hb H; cbn [type_structure] in H.
    { injection H as <- <-. split; [auto|]. split; [auto|]. exists []. split; [constructor|apply adds_nil]. }
    destruct n as [|tag a k].
    { destruct (IH _ _ _ _ Hb H) as (Hb' & Td & s & St & Ad). split; [auto|]. split; [auto|]. exists s. split; auto. constructor; auto. }
    destruct (str_eqb_spec tag (py "annotation")) as [-> | T1].
    { destruct (IH _ _ _ _ Hb H) as (Hb' & Td & s & St & Ad). split; [auto|]. split; [auto|]. exists s. split; auto.
      apply st_nothing; auto. right. left. apply tag_element. auto. }
    destruct (str_eqb_spec tag (py "attribute")) as [-> | T2].
    { apply sbind_ok in H. destruct H as (b1 & o & H1 & H). unfold slift in H1. injection H1 as <- H1.
      destruct (IH _ _ _ _ Hb H) as (Hb' & Td & s & St & Ad). split; [auto|]. split; [intros; apply Td, tidy_attr; auto|].
      exists (StAttr (SN (py "attribute") a k) :: s). split; [apply st_attribute; auto|].
      apply (adds_app c [StAttr (SN (py "attribute") a k)] (add_attr o c) s c'); auto. apply adds_attr; auto. }
    destruct (str_eqb tag (py "attributeGroup") || str_eqb tag (py "group")) eqn:T3.
    { apply sbind_ok in H. destruct H as (b1 & o & H1 & H). destruct (R _ _ _ _ Hb H1) as (Hb1 & To & r & nm & n & s1 & E & AC & ON & St1 & Ad1).
      destruct (IH _ _ _ _ Hb1 H) as (Hb' & Td & s & St & Ad). split; [auto|]. split; [intros; apply Td, tidy_copy; auto|].
      exists (s1 ++ s). split; [|eapply adds_app; [apply adds_copy; eauto|auto]].
      eapply st_reference; eauto. apply orb_true_iff in T3. rewrite !str_eqb_eq in T3. destruct T3; auto. right. split; auto. discriminate. }
    destruct (str_eqb_spec tag (py "complexContent")) as [-> | T4].
    { apply sbind_ok in H. destruct H as (b1 & c1 & H1 & H). destruct (complex_spec _ _ _ _ _ Hb H1) as (Hb1 & Td1 & s1 & St1 & Ad1).
      destruct (IH _ _ _ _ Hb1 H) as (Hb' & Td & s & St & Ad). split; [auto|]. split; [auto|]. exists (s1 ++ s). split; [apply st_content; auto|].
      eapply adds_app; eauto. }
    destruct (str_eqb_spec tag (py "sequence")) as [-> | T5]; [|discriminate].
    apply sbind_ok in H. destruct H as (b1 & c1 & H1 & H). destruct (sequence_spec _ _ _ _ _ Hb H1) as (Hb1 & Td1 & s1 & St1 & Ad1).
    destruct (IH _ _ _ _ Hb1 H) as (Hb' & Td & s & St & Ad). split; [auto|]. split; [auto|]. exists (s1 ++ s). split; [apply st_sequence; auto|].
    eapply adds_app; eauto.
  Qed.
End Kept.

Lemma schema_type_right : forall root again fuel, right_type root again (schema_type fuel root).
Proof.
  induction fuel as [|fuel IH]; intros ref b b' c Hb H; cbn [schema_type] in H; [discriminate|].
  destruct ref as [r|]; [|discriminate]. apply sbind_ok in H. destruct H as (b1 & n & H1 & H). unfold slift in H1. injection H1 as <- H1.
  destruct (structure_spec root again _ IH _ _ _ _ _ Hb H) as (Hb' & Td & s & St & Ad).
  split; [auto|]. split; [apply Td, tidy_nil|]. exists r, (strip_ns r), n, s. split; [auto|]. split; [apply strip_after_colon|].
  split; [apply named_only; auto|]. auto.
Qed.

(** ** The root *)
Definition sh_content (g : shared) : content := (sh_attrs g, sh_children g).

Section TheRoot.
  Context (root : list snode) (again : bool) (fuel : nat).
  Definition gdone (g : shared) (l : list snode) (g' : shared) : Prop :=
    (again = true -> sh_started g' = true)
    /\ exists s, states root InRoot l s /\ adds root again (sh_content g) s (sh_content g').

  Lemma gbind_ok : forall {A B} (m : GM A) (f : A -> GM B) g g' r, gbind m f g = (g', Ok r) ->
    exists g1 a, m g = (g1, Ok a) /\ f a g1 = (g', Ok r).
  Proof. unfold gbind. intros A B m f b b' r H. destruct (m b) as [b1 [a|e]]; [eauto|discriminate]. Qed.
  Lemma of_sm_ok : forall {A} (m : SM A) g g' r, of_sm m g = (g', Ok r) ->
    m (sh_started g) = (sh_started g', Ok r) /\ sh_content g' = sh_content g.
  Proof. unfold of_sm. intros A m g g' r H. destruct (m (sh_started g)) as [b x]. injection H as <- ->. auto. Qed.
  Lemma change_ok : forall f g g' r, change f g = (g', Ok r) -> sh_started g' = sh_started g /\ sh_content g' = f (sh_content g).
  Proof. unfold change. intros f g g' r H. injection H as <- <-. split; auto. cbn. destruct (f (sh_content g)) eqn:E; unfold sh_content in *; cbn [sh_attrs sh_children]; rewrite E; auto. Qed.

  Lemma root_sequence_spec : forall l g g' u, (again = true -> sh_started g = true) ->
    root_sequence fuel root l g = (g', Ok u) -> gdone g l g'.
  Proof.
    induction l as [|n l IH]; intros g g' u Hb H; cbn [root_sequence] in H.
    { injection H as <- <-. split; [auto|]. exists []. split; [constructor|apply adds_nil]. }
    destruct n as [|tag a k]; [discriminate|].
    destruct (str_eqb_spec tag (py "element")) as [-> | T1].
    { apply gbind_ok in H. destruct H as (g1 & o & H1 & H). apply of_sm_ok in H1. destruct H1 as [H1 E1].
      apply gbind_ok in H. destruct H as (g2 & u2 & H2 & H). apply change_ok in H2. destruct H2 as [S2 E2].
      destruct (element_spec root again _ (schema_type_right root again fuel) _ _ _ _ Hb H1) as (Hb1 & El & K).
      destruct (IH g2 g' u) as (Hb' & s & St & Ad); auto. { rewrite S2. auto. }
      split; [auto|]. exists (StChild (SN (py "element") a k) :: s). split; [apply st_child; auto|].
      rewrite E2, E1 in Ad. apply (adds_app root again _ [StChild (SN (py "element") a k)] _ s _ (adds_child _ _ _ _ _ El K) Ad). }
    destruct (str_eqb_spec tag (py "group")) as [-> | T2]; [|discriminate].
    apply gbind_ok in H. destruct H as (g1 & o & H1 & H). apply of_sm_ok in H1. destruct H1 as [H1 E1].
    apply gbind_ok in H. destruct H as (g2 & u2 & H2 & H). apply change_ok in H2. destruct H2 as [S2 E2].
    destruct (schema_type_right root again fuel _ _ _ _ Hb H1) as (Hb1 & To & r & nm & n & s1 & E & AC & ON & St1 & Ad1).
    destruct (IH g2 g' u) as (Hb' & s & St & Ad); auto. { rewrite S2. auto. }
    split; [auto|]. exists (s1 ++ s). split.
    - eapply st_reference; eauto. right. split; auto. discriminate.
    - rewrite E2, E1 in Ad. eapply adds_app; [apply adds_copy; eauto|auto].
  Qed.

  Lemma root_content_spec : forall l g g' u, (again = true -> sh_started g = true) ->
    root_content fuel root l g = (g', Ok u) -> gdone g l g'.
  Proof.
    induction l as [|n l IH]; intros g g' u Hb H; cbn [root_content] in H.
    { injection H as <- <-. split; [auto|]. exists []. split; [constructor|apply adds_nil]. }
    destruct n as [|tag a k]; [discriminate|].
    destruct (str_eqb_spec tag (py "attribute")) as [-> | T1].
    { apply gbind_ok in H. destruct H as (g1 & o & H1 & H). unfold glift in H1. injection H1 as <- H1.
      apply gbind_ok in H. destruct H as (g2 & u2 & H2 & H). apply change_ok in H2. destruct H2 as [S2 E2].
      destruct (IH g2 g' u) as (Hb' & s & St & Ad); auto. { rewrite S2. auto. }
      split; [auto|]. exists (StAttr (SN (py "attribute") a k) :: s). split; [apply st_attribute; auto|].
      rewrite E2 in Ad. apply (adds_app root again _ [StAttr (SN (py "attribute") a k)] _ s _ (adds_attr _ _ _ _ _ H1) Ad). }
    destruct (str_eqb_spec tag (py "attributeGroup")) as [-> | T2].
    { apply gbind_ok in H. destruct H as (g1 & o & H1 & H). apply of_sm_ok in H1. destruct H1 as [H1 E1].
      apply gbind_ok in H. destruct H as (g2 & u2 & H2 & H). apply change_ok in H2. destruct H2 as [S2 E2].
      destruct (schema_type_right root again fuel _ _ _ _ Hb H1) as (Hb1 & To & r & nm & n & s1 & E & AC & ON & St1 & Ad1).
      destruct (IH g2 g' u) as (Hb' & s & St & Ad); auto. { rewrite S2. auto. }
      split; [auto|]. exists (s1 ++ s). split.
      - eapply st_reference; eauto.
      - rewrite E2, E1 in Ad. eapply adds_app; [apply adds_copy; eauto|auto]. }
    destruct (str_eqb_spec tag (py "sequence")) as [-> | T3].
    { apply gbind_ok in H. destruct H as (g1 & o & H1 & H). destruct (root_sequence_spec _ _ _ _ Hb H1) as (Hb1 & s1 & St1 & Ad1).
      destruct (IH g1 g' u) as (Hb' & s & St & Ad); auto.
      split; [auto|]. exists (s1 ++ s). split; [apply st_sequence; auto|]. eapply adds_app; eauto. }
    destruct (str_eqb_spec tag (py "annotation")) as [-> | T4]; [|discriminate].
    destruct (IH g g' u) as (Hb' & s & St & Ad); auto.
    split; [auto|]. exists s. split; auto. apply st_nothing; auto. right. left. apply tag_element. auto.
  Qed.
End TheRoot.

Lemma manager_spec : forall E fuel d g g' m, schema_manager E fuel d g = (g', Ok m) ->
  exists root el ty nm t s, xd_nxdl d = Some root /\ only_one (element (py "element")) root el
    /\ dget (py "type") (s_attrib el) = Some ty /\ after_colon ty nm
    /\ only_one (fun n => element (py "complexType") n /\ called nm n) root t
    /\ states root InRoot (s_kids t) s /\ adds root (sh_started g) (sh_content g) s (sh_content g')
    /\ parse_nxdlTypes (xd_types d) = Ok (sm_types m, sm_units m) /\ sm_schema_types m = sh_children g'.
Proof.
  intros E fuel d g g' m H. unfold schema_manager in H. destruct (xd_nxdl d) as [root|]; [|discriminate].
  destruct (s_named (py "element") root) as [|el [|]] eqn:El; try discriminate.
  destruct (dget (py "type") (s_attrib el)) as [ty|] eqn:Ty; [|discriminate].
  apply gbind_ok in H. destruct H as (g1 & t & H1 & H). unfold glift in H1. pose proof (f_equal snd H1) as T. apply (f_equal fst) in H1. cbn [fst snd] in *. subst g1.
  apply gbind_ok in H. destruct H as (g1 & u & H1 & H). destruct (root_content_spec root (sh_started g) fuel _ _ _ _ (fun x => x) H1) as (_ & s & St & Ad).
  apply gbind_ok in H. destruct H as (g2 & tu & H2 & H). unfold glift in H2. pose proof (f_equal snd H2) as P. apply (f_equal fst) in H2. cbn [fst snd] in *. subst g2.
  apply gbind_ok in H. destruct H as (g2 & ps & H2 & H). unfold glift in H2. apply (f_equal fst) in H2. cbn [fst] in H2. subst g2.
  injection H as <- <-. cbn [sm_types sm_units sm_schema_types].
  exists root, el, ty, (strip_ns ty), t, s. split; [auto|]. split; [apply tag_only; auto|]. split; [auto|]. split; [apply strip_after_colon|].
  split; [apply named_only_tag; auto|]. split; [auto|]. split; [auto|]. split; [|auto]. rewrite P. destruct tu; auto.
Qed.

(** ** What is stated is determined by the schema *)
Lemma only_unique : forall {A} (P : A -> Prop) l x y, only_one P l x -> only_one P l y -> x = y.
Proof.
  intros A P l x y (l1 & l2 & -> & H & N1 & N2) (m1 & m2 & E & H' & M1 & M2).
  assert (I : In y (l1 ++ x :: l2)) by (rewrite E; apply in_or_app; right; left; auto).
  apply in_app_or in I. destruct I as [I|[I|I]]; auto.
  - exfalso. exact (N1 y I H').
  - exfalso. exact (N2 y I H').
Qed.
Lemma after_colon_unique : forall s t t', after_colon s t -> after_colon s t' -> t = t'.
Proof. intros s t t' H H'. apply after_colon_strip in H. apply after_colon_strip in H'. congruence. Qed.

Ltac no_tag := match goal with
  | H : element _ (SN _ _ _) |- _ => apply tag_element in H; no_tag
  | H : _ \/ _ |- _ => destruct H; no_tag
  | H : _ /\ _ |- _ => destruct H; no_tag
  | _ => exfalso; subst; first [discriminate | congruence]
  end.

Lemma states_unique : forall root p l s, states root p l s -> forall s', states root p l s' -> s = s'.
Proof.
  induction 1; intros s0 H'; inversion H'; subst; clear H'; try reflexivity; try (no_tag; fail); auto.
  - f_equal. auto.
  - f_equal. auto.
  - match goal with A : dget (py "ref") a = Some ref, B : dget (py "ref") a = Some ?r |- _ => tryif constr_eq r ref then fail else (assert (r = ref) by congruence; subst r) end.
    match goal with A : after_colon ref nm, B : after_colon ref ?m |- _ => tryif constr_eq m nm then fail else (pose proof (after_colon_unique _ _ _ A B); subst m) end.
    match goal with A : only_named root nm n, B : only_named root nm ?m |- _ => tryif constr_eq m n then fail else (pose proof (only_unique _ _ _ _ A B); subst m) end.
    f_equal; auto.
  - f_equal; auto.
  - f_equal; auto.
  - match goal with A : dget (py "base") a = Some base, B : dget (py "base") a = Some ?r |- _ => tryif constr_eq r base then fail else (assert (r = base) by congruence; subst r) end.
    match goal with A : after_colon base nm, B : after_colon base ?m |- _ => tryif constr_eq m nm then fail else (pose proof (after_colon_unique _ _ _ A B); subst m) end.
    match goal with A : only_named root nm n, B : only_named root nm ?m |- _ => tryif constr_eq m n then fail else (pose proof (only_unique _ _ _ _ A B); subst m) end.
    f_equal; auto. f_equal; auto.
Qed.
