(** * Substitution in the catalogue of nxdl.xsd: what the objects are at the end

    Every object of the heap comes from an element of the schema, its origin; a copy has the
    origin of what was copied.  The invariant relates the objects to their origins. *)

From Coq Require Import List NArith ZArith Bool String Lia.
From Verif Require Import PyBase PyFacts H5 SchemaMgr NxdlSchema.
Import ListNotations.
Open Scope string_scope.
Open Scope list_scope.

(** ** Origins *)
Definition kind_of (n : lnode) : okind :=
  if l_is (py "attribute") n then KAttribute else if l_is (py "element") n then KElement else KGroup.
Definition key_of (n : lnode) : option pystr :=
  match kind_of n with
  | KAttribute => Some (local_name (match l_attr "type" n with Some t => t | None => py "nx:NX_CHAR" end))
  | KElement => Some (local_name (match l_attr "type" n with Some t => t | None => py "str" end))
  | KGroup => option_map local_name (l_attr "ref" n)
  end.
Definition inline (n : lnode) : list lnode :=
  match kind_of n with
  | KAttribute => []
  | KElement => match l_named "complexType" n with
                | [t] => l_path2 "sequence" "element" t ++ l_named "attribute" t
                | _ => []
                end
  | KGroup => l_path2 "sequence" "element" n
  end.
Definition inline_patterns (n : lnode) : list pystr :=
  match flat_map (l_named "pattern") (l_path2 "simpleType" "restriction" n) with
  | [p] => match l_attr "value" p with Some v => [v] | None => [] end
  | _ => []
  end.
Definition use_required (n : lnode) : bool :=
  match l_attr "use" n with Some u => str_eqb u (py "required") | None => false end.
Definition org (g : list lnode) (i : nat) : lnode := nth i g LComment.
Definition is_rec (n : lnode) : bool :=
  match kind_of n, key_of n with KGroup, Some k => str_eqb k (py "groupGroup") | _, _ => false end.

Lemma org_app : forall g b i, i < List.length g -> org (g ++ b) i = org g i.
Proof. intros g b i H. unfold org. apply app_nth1. exact H. Qed.
Lemma org_last : forall g n, org (g ++ [n]) (List.length g) = n.
Proof. intros g n. unfold org. rewrite app_nth2 by lia. rewrite Nat.sub_diag. reflexivity. Qed.
Lemma map_org_app : forall g b l, (forall c, In c l -> c < List.length g) -> map (org (g ++ b)) l = map (org g) l.
Proof. intros g b l H. apply map_ext_in. intros c Hc. apply org_app. apply H. exact Hc. Qed.

Lemma nth_error_snoc : forall (h : heap) o, nth_error (h ++ [o]) (List.length h) = Some o.
Proof. intros h o. rewrite nth_error_app2 by lia. rewrite Nat.sub_diag. reflexivity. Qed.
Lemma nth_error_lt : forall {A} (h : list A) i o, nth_error h i = Some o -> i < List.length h.
Proof. intros A h i o H. apply nth_error_Some. congruence. Qed.
Lemma nth_error_app_cases : forall (h a : heap) i o, nth_error (h ++ a) i = Some o ->
  (i < List.length h /\ nth_error h i = Some o) \/ (List.length h <= i /\ nth_error a (i - List.length h) = Some o).
Proof.
  intros h a i o H. destruct (Nat.lt_ge_cases i (List.length h)) as [L|L].
  - left. rewrite nth_error_app1 in H by exact L. auto.
  - right. rewrite nth_error_app2 in H by exact L. auto.
Qed.
Lemma nth_error_app_some : forall (h a : heap) i o, nth_error h i = Some o -> nth_error (h ++ a) i = Some o.
Proof. intros h a i o H. rewrite nth_error_app1; [exact H | eapply nth_error_lt; eauto]. Qed.

Lemma hset_length : forall h i o, List.length (hset h i o) = List.length h.
Proof. induction h as [|x h IH]; intros [|i] o; cbn; auto. Qed.
Lemma hset_same : forall h i o, i < List.length h -> nth_error (hset h i o) i = Some o.
Proof. induction h as [|x h IH]; intros [|i] o H; cbn in *; try lia; auto. apply IH. lia. Qed.
Lemma hset_other : forall h i j o, i <> j -> nth_error (hset h i o) j = nth_error h j.
Proof. induction h as [|x h IH]; intros [|i] [|j] o H; cbn; auto; try congruence. Qed.
Lemma hset_cases : forall h i j o oj, nth_error (hset h i o) j = Some oj ->
  (j = i /\ oj = o) \/ (j <> i /\ nth_error h j = Some oj).
Proof.
  intros h i j o oj H. destruct (Nat.eq_dec j i) as [->|N].
  - left. assert (L : i < List.length h) by (rewrite <- (hset_length h i o); eapply nth_error_lt; eauto).
    rewrite hset_same in H by exact L. split; congruence.
  - right. rewrite hset_other in H by congruence. auto.
Qed.
Lemma hupd_some : forall f i h o, nth_error h i = Some o -> hupd f i h = hset h i (f o).
Proof. intros f i h o H. unfold hupd. rewrite H. reflexivity. Qed.
Lemma hset_hset : forall h i a b, hset (hset h i a) i b = hset h i b.
Proof. induction h as [|x h IH]; intros [|i] a b; cbn; auto. rewrite IH. reflexivity. Qed.
Lemma hset_app : forall h a i o, i < List.length h -> hset (h ++ a) i o = hset h i o ++ a.
Proof. induction h as [|x h IH]; intros a [|i] o H; cbn in *; try lia; auto. rewrite IH by lia. reflexivity. Qed.

(** splits conjunctions, but not the invariant *)
Ltac sp := repeat match goal with
  | |- _ /\ _ => split
  | |- forall c, In c _ -> _ <= c < _ => let H := fresh "H" in intros ? H; split
  end.

Section Substitution.
  Variables (h0 : heap) (g0 : list lnode) (own : nat -> nat) (P : nat -> Prop) (d : nat)
            (schema : dict schemaref) (types : dict simple) (D : pystr).

  Definition keyed (n : lnode) : option pystr :=
    match key_of n with Some k => if dmem k schema then Some k else None | None => None end.
  Definition todo (o : sobj) : bool := match so_key o with Some k => dmem k schema | None => false end.
  Definition done (n : lnode) (o : sobj) : Prop := exists k, keyed n = Some k /\ so_key o = Some (py "__" ++ k).

  (** the rules of an attribute once its type is substituted *)
  Definition final_rules (k : pystr) (n : lnode) : list pystr * option Z :=
    match dget k schema with
    | Some (RSimple s) => match dget s types with
                          | Some v => (sm_patterns v, sm_maxLength v)
                          | None => (inline_patterns n, None)
                          end
    | _ => (inline_patterns n, None)
    end.

  Record fit (n : lnode) (o : sobj) : Prop := {
    f_kind : so_kind o = kind_of n;
    f_name : so_name o = l_attr "name" n;
    f_key : match keyed n with
            | None => so_key o = key_of n
            | Some k => so_key o = Some k \/ so_key o = Some (py "__" ++ k)
            end;
    f_attr : kind_of n = KAttribute ->
             so_children o = [] /\ so_required o = use_required n /\ so_default o = l_attr "default" n;
    f_rules : kind_of n = KAttribute -> todo o = true \/ keyed n = None ->
              so_patterns o = inline_patterns n /\ so_maxLength o = None;
    f_final : kind_of n = KAttribute -> forall k, keyed n = Some k -> todo o = false ->
              (so_patterns o, so_maxLength o) = final_rules k n;
    f_occurs : kind_of n <> KAttribute ->
               so_minOccurs o = l_attr "minOccurs" n /\ so_maxOccurs o = l_attr "maxOccurs" n
  }.

  Definition items (k : pystr) : list nat :=
    match dget k schema with
    | Some (RList l) => l
    | Some (RGroup g) => children_at h0 g
    | _ => []
    end.
  Definition ref_nodes (k : pystr) : list lnode := filter (fun n => negb (is_rec n)) (map (org g0) (items k)).

  Definition copyable (i : nat) : Prop :=
    i < List.length h0 /\ (kind_of (org g0 i) = KAttribute \/ (~ P (own i) /\ i <> d)).
  Definition static (i : nat) : Prop :=
    i < List.length h0 /\ kind_of (org g0 i) <> KAttribute /\ ~ P (own i) /\ i <> d.
  Definition visit (i : nat) : Prop :=
    List.length h0 <= i \/ (i < List.length h0 /\ (kind_of (org g0 i) = KAttribute \/ P (own i))).

  Hypothesis H_len : List.length g0 = List.length h0.
  Hypothesis H_plain : forall k, dmem k schema = true -> startswith k (py "__") = false.
  Hypothesis H_fit : forall i o, nth_error h0 i = Some o -> fit (org g0 i) o.
  Hypothesis H_fresh : forall i o, nth_error h0 i = Some o -> so_key o = key_of (org g0 i).
  Hypothesis H_children : forall i o, i <> d -> nth_error h0 i = Some o ->
    map (org g0) (so_children o) = inline (org g0 i).
  Hypothesis H_own : forall i o c, i <> d -> nth_error h0 i = Some o -> In c (so_children o) ->
    c < i /\ own c = own i.
  Hypothesis H_own_le : forall i, i < List.length h0 -> i <= own i.
  Hypothesis H_d : d < List.length h0 /\ own d = d /\ kind_of (org g0 d) = KElement /\ ~ P d.
  Hypothesis H_d_children : forall o c, nth_error h0 d = Some o -> In c (so_children o) -> visit c /\ c < List.length h0.
  Hypothesis H_items : forall k i, k <> D -> In i (items k) -> copyable i.
  Hypothesis H_groups : forall k g, dget k schema = Some (RGroup g) -> static g.
  Hypothesis H_D : forall i, i <> d -> i < List.length h0 -> key_of (org g0 i) <> Some D.

  Lemma no_d_child : forall i o c, i <> d -> nth_error h0 i = Some o -> In c (so_children o) -> c <> d.
  Proof.
    intros i o c Hi Ho Hc ->. destruct (H_own i o d Hi Ho Hc) as [L E].
    destruct H_d as (_ & E2 & _). assert (L2 := H_own_le i (nth_error_lt _ _ _ Ho)). lia.
  Qed.

  Lemma marked_not_todo : forall k, dmem k schema = true -> dmem (py "__" ++ k) schema = false.
  Proof.
    intros k Hk. destruct (dmem (py "__" ++ k) schema) eqn:E; [|reflexivity].
    apply H_plain in E. rewrite startswith_app in E. discriminate E.
  Qed.
  Lemma marked_ne : forall k : pystr, k <> py "__" ++ k.
  Proof. intros k H. apply (f_equal (@List.length N)) in H. rewrite app_length in H. cbn in H. lia. Qed.
  Lemma keyed_key : forall n k, keyed n = Some k -> key_of n = Some k /\ dmem k schema = true.
  Proof.
    intros n k H. unfold keyed in H. destruct (key_of n) as [x|]; [|discriminate].
    destruct (dmem x schema) eqn:E; [|discriminate]. injection H as <-. auto.
  Qed.
  Lemma done_not_todo : forall n o, done n o -> todo o = false.
  Proof.
    intros n o (k & H1 & H2). unfold todo. rewrite H2. apply marked_not_todo.
    apply keyed_key in H1. apply H1.
  Qed.
  Lemma todo_keyed : forall n o, fit n o -> todo o = true ->
    exists k, keyed n = Some k /\ so_key o = Some k /\ dmem k schema = true.
  Proof.
    intros n o F T. unfold todo in T. destruct (so_key o) as [x|] eqn:E; [|discriminate].
    assert (K := f_key _ _ F). destruct (keyed n) as [k|] eqn:Ek.
    - destruct K as [K|K].
      + exists k. rewrite E in K. injection K as ->. auto.
      + rewrite E in K. injection K as ->. apply keyed_key in Ek.
        assert (X := marked_not_todo k (proj2 Ek)). unfold py in X. cbn in X, T. rewrite X in T. discriminate.
    - unfold keyed in Ek. rewrite E in K. rewrite <- K in Ek. rewrite T in Ek. discriminate.
  Qed.
  Lemma not_todo_done : forall n o k, fit n o -> keyed n = Some k -> todo o = false -> done n o.
  Proof.
    intros n o k F Hk T. assert (K := f_key _ _ F). rewrite Hk in K. destruct K as [K|K].
    - unfold todo in T. rewrite K in T. apply keyed_key in Hk. destruct Hk. congruence.
    - exists k. auto.
  Qed.
  Lemma fresh_not_done : forall n o, so_key o = key_of n -> ~ done n o.
  Proof.
    intros n o E (k & H1 & H2). apply keyed_key in H1. destruct H1 as [H1 _].
    rewrite E, H1 in H2. injection H2 as H2. exact (marked_ne k H2).
  Qed.

  (** ** The invariant; [stk]: the objects being processed, and [d] *)
  Record Inv (h : heap) (g : list lnode) (stk : list nat) : Prop := {
    i_len : List.length g = List.length h;
    i_ext : exists b, g = g0 ++ b;
    i_fit : forall i o, nth_error h i = Some o -> fit (org g i) o;
    i_ch : forall i o c, nth_error h i = Some o -> In c (so_children o) -> c < List.length h;
    i_vis : forall i o c, nth_error h i = Some o -> visit i -> In c (so_children o) -> visit c;
    i_org : forall i o, nth_error h i = Some o -> ~ In i stk -> kind_of (org g i) <> KAttribute ->
      (done (org g i) o -> forall k, keyed (org g i) = Some k ->
         map (org g) (so_children o) = inline (org g i) ++ ref_nodes k) /\
      (~ done (org g i) o -> map (org g) (so_children o) = inline (org g i));
    i_closed : forall i o c oc, nth_error h i = Some o -> ~ In i stk -> done (org g i) o ->
      In c (so_children o) -> nth_error h c = Some oc -> todo oc = false;
    i_stk : forall i, In i stk -> i = d \/ exists o, nth_error h i = Some o /\ todo o = false;
    i_static : forall i, static i -> nth_error h i = nth_error h0 i;
    i_D : forall i, i <> d -> i < List.length h -> key_of (org g i) <> Some D;
    i_d : In d stk
  }.

  Lemma inv_h0_le : forall h g stk, Inv h g stk -> List.length h0 <= List.length h.
  Proof.
    intros h g stk I. destruct (i_ext _ _ _ I) as [b ->]. rewrite <- (i_len _ _ _ I), app_length, H_len. lia.
  Qed.
  Lemma inv_org0 : forall h g stk i, Inv h g stk -> i < List.length h0 -> org g i = org g0 i.
  Proof. intros h g stk i I L. destruct (i_ext _ _ _ I) as [b ->]. apply org_app. lia. Qed.
  Lemma inv_stk_lt : forall h g stk i, Inv h g stk -> In i stk -> i < List.length h.
  Proof.
    intros h g stk i I H. destruct (i_stk _ _ _ I i H) as [->|(o & Ho & _)].
    - assert (L := inv_h0_le _ _ _ I). destruct H_d. lia.
    - eapply nth_error_lt; eauto.
  Qed.

  (** a new object *)
  Lemma inv_alloc : forall h g stk n o, Inv h g stk -> fit n o ->
    (forall c, In c (so_children o) -> List.length h0 <= c < List.length h) ->
    (kind_of n <> KAttribute -> ~ done n o /\ map (org g) (so_children o) = inline n) ->
    key_of n <> Some D ->
    Inv (h ++ [o]) (g ++ [n]) stk.
  Proof.
    intros h g stk n o I F Hc Hi HD.
    assert (Lg := i_len _ _ _ I). assert (L0 := inv_h0_le _ _ _ I).
    assert (OLD : forall i, i < List.length h -> org (g ++ [n]) i = org g i) by (intros i Hi'; apply org_app; lia).
    assert (NEW : org (g ++ [n]) (List.length h) = n) by (rewrite <- Lg; apply org_last).
    assert (CASE : forall i x, nth_error (h ++ [o]) i = Some x ->
              (i < List.length h /\ nth_error h i = Some x) \/ (i = List.length h /\ x = o)).
    { intros i x Hx. apply nth_error_app_cases in Hx. destruct Hx as [Hx|[L Hx]]; [left; exact Hx|right].
      destruct (i - List.length h) as [|m] eqn:Em; cbn in Hx.
      - split; [lia|congruence].
      - destruct m; discriminate. }
    constructor.
    - rewrite !app_length. cbn. lia.
    - destruct (i_ext _ _ _ I) as [b ->]. exists (b ++ [n]). rewrite app_assoc. reflexivity.
    - intros i x Hx. destruct (CASE i x Hx) as [[L E]|[-> ->]].
      + rewrite OLD by exact L. apply (i_fit _ _ _ I _ _ E).
      + rewrite NEW. exact F.
    - intros i x c Hx Hin. rewrite app_length. destruct (CASE i x Hx) as [[L E]|[-> ->]].
      + assert (X := i_ch _ _ _ I _ _ _ E Hin). cbn. lia.
      + apply Hc in Hin. cbn. lia.
    - intros i x c Hx Hv Hin. destruct (CASE i x Hx) as [[L E]|[-> ->]].
      + exact (i_vis _ _ _ I _ _ _ E Hv Hin).
      + left. apply Hc in Hin. lia.
    - intros i x Hx Hn Hk. destruct (CASE i x Hx) as [[L E]|[-> ->]].
      + rewrite OLD in * by exact L.
        assert (M : map (org (g ++ [n])) (so_children x) = map (org g) (so_children x)).
        { apply map_org_app. intros c Hcc. rewrite Lg. exact (i_ch _ _ _ I _ _ _ E Hcc). }
        rewrite M. apply (i_org _ _ _ I _ _ E Hn Hk).
      + rewrite NEW in *. destruct (Hi Hk) as [N1 N2].
        assert (M : map (org (g ++ [n])) (so_children o) = map (org g) (so_children o)).
        { apply map_org_app. intros c Hcc. apply Hc in Hcc. lia. }
        rewrite M. split; [intros Hd; contradiction | intros _; exact N2].
    - intros i x c oc Hx Hn Hd Hin Hoc. destruct (CASE i x Hx) as [[L E]|[-> ->]].
      + rewrite OLD in Hd by exact L. assert (Lc := i_ch _ _ _ I _ _ _ E Hin).
        destruct (CASE c oc Hoc) as [[_ Ec]|[-> _]]; [|lia].
        exact (i_closed _ _ _ I _ _ _ _ E Hn Hd Hin Ec).
      + rewrite NEW in Hd. destruct (kind_of n) eqn:Ek.
        * destruct (f_attr _ _ F Ek) as [E0 _]. rewrite E0 in Hin. destruct Hin.
        * destruct (Hi ltac:(discriminate)) as [N _]. contradiction.
        * destruct (Hi ltac:(discriminate)) as [N _]. contradiction.
    - intros i Hin. destruct (i_stk _ _ _ I i Hin) as [->|(x & Hx & T)]; [left; reflexivity|right].
      exists x. split; [apply nth_error_app_some; exact Hx | exact T].
    - intros i Hs. rewrite nth_error_app1; [exact (i_static _ _ _ I i Hs)|]. destruct Hs. lia.
    - intros i Hid Hl. rewrite app_length in Hl. cbn in Hl.
      destruct (Nat.eq_dec i (List.length h)) as [->|N].
      + rewrite NEW. exact HD.
      + rewrite OLD by lia. apply (i_D _ _ _ I); [exact Hid | lia].
    - exact (i_d _ _ _ I).
  Qed.

  (** ** Copies *)
  Definition copied (h : heap) (g : list lnode) (stk : list nat) (ids : list nat) (h' : heap) (new : list nat) : Prop :=
    exists a b, h' = h ++ a /\ Inv (h ++ a) (g ++ b) stk /\
      map (org (g ++ b)) new = map (org g0) ids /\
      (forall c, In c new -> List.length h <= c < List.length (h ++ a)).

  Lemma set_children_fit : forall n o l, fit n o -> (kind_of n = KAttribute -> l = []) -> fit n (so_set_children l o).
  Proof.
    intros n o l F Hl. destruct F. constructor; cbn; auto.
    intros Hk. destruct (f_attr0 Hk) as (_ & A & B). repeat split; auto.
  Qed.

  Lemma copies : forall fuel
    (IH : forall i h g stk r, Inv h g stk -> copyable i -> deepcopy fuel i h = Ok r ->
            copied h g stk [i] (fst r) [snd r])
    ids h g stk r, Inv h g stk -> (forall i, In i ids -> copyable i) ->
    alloc_all (deepcopy fuel) ids h = Ok r -> copied h g stk ids (fst r) (snd r).
  Proof.
    intros fuel IH ids. induction ids as [|i ids IHl]; intros h g stk r I Hc Hr.
    - cbn in Hr. injection Hr as <-. exists [], []. cbn. rewrite !app_nil_r. sp; auto. intros c Hc0; destruct Hc0.
    - cbn [alloc_all] in Hr. destruct (deepcopy fuel i h) as [r1|e] eqn:E1; [|discriminate]. cbn in Hr.
      destruct (alloc_all (deepcopy fuel) ids (fst r1)) as [r2|e] eqn:E2; [|discriminate]. cbn in Hr. injection Hr as <-.
      destruct (IH i h g stk r1 I (Hc i (or_introl eq_refl)) E1) as (a & b & Ea & Ia & Ma & Ra).
      rewrite Ea in E2.
      destruct (IHl _ _ _ _ Ia (fun j Hj => Hc j (or_intror Hj)) E2) as (a2 & b2 & Ea2 & Ia2 & Ma2 & Ra2).
      exists (a ++ a2), (b ++ b2). cbn [fst snd]. rewrite !app_assoc. sp.
      + exact Ea2.
      + exact Ia2.
      + cbn [map]. rewrite <- Ma2. f_equal. injection Ma as Ma. rewrite <- Ma.
        apply org_app. assert (X := Ra _ (or_introl eq_refl)). rewrite (i_len _ _ _ Ia). lia.
      + destruct H as [<-|H].
        * apply (Ra _ (or_introl eq_refl)).
        * apply Ra2 in H. rewrite app_length in H. lia.
      + destruct H as [<-|H].
        * assert (X := Ra _ (or_introl eq_refl)). rewrite (app_length (h ++ a)). lia.
        * apply Ra2 in H. lia.
  Qed.

  Lemma copyable_child : forall i o c, copyable i -> kind_of (org g0 i) <> KAttribute ->
    nth_error h0 i = Some o -> In c (so_children o) -> copyable c.
  Proof.
    intros i o c [L [K|[N1 N2]]] Hk Ho Hc; [contradiction|].
    destruct (H_own i o c N2 Ho Hc) as [Lc Ec]. split; [lia|]. right. split.
    - rewrite Ec. exact N1.
    - exact (no_d_child i o c N2 Ho Hc).
  Qed.

  Lemma deepcopy_ok : forall fuel i h g stk r, Inv h g stk -> copyable i -> deepcopy fuel i h = Ok r ->
    copied h g stk [i] (fst r) [snd r].
  Proof.
    induction fuel as [|fuel IH]; intros i h g stk r I Hc Hr; [discriminate|].
    cbn [deepcopy] in Hr. destruct (nth_error h i) as [o|] eqn:Eo; [|discriminate].
    destruct (alloc_all (deepcopy fuel) (so_children o) h) as [r1|e] eqn:E1; [|discriminate]. cbn in Hr. injection Hr as <-.
    unfold alloc. cbn [fst snd].
    assert (Hl0 : i < List.length h0) by apply Hc.
    assert (Eorg : org g i = org g0 i) by (apply (inv_org0 _ _ _ _ I Hl0)).
    assert (F := i_fit _ _ _ I _ _ Eo). rewrite Eorg in F.
    assert (HD : key_of (org g0 i) <> Some D).
    { apply H_D; [|exact Hl0]. intros ->. destruct Hc as [_ [K|[_ N]]]; [|contradiction].
      destruct H_d as (_ & _ & E & _). congruence. }
    destruct (kind_of (org g0 i)) eqn:Ek.
    - destruct (f_attr _ _ F Ek) as [E0 _]. rewrite E0 in E1. cbn in E1. injection E1 as <-. cbn [fst snd].
      exists [so_set_children [] o], [org g0 i].
      assert (I' : Inv (h ++ [so_set_children [] o]) (g ++ [org g0 i]) stk).
      { apply inv_alloc; auto.
        - apply set_children_fit; auto.
        - cbn. intros c [].
        - intros N. congruence. }
      sp; auto.
      + cbn [map]. f_equal. rewrite <- (i_len _ _ _ I). apply org_last.
      + destruct H as [<-|[]]. lia.
      + destruct H as [<-|[]]. rewrite app_length. cbn. lia.
    - assert (St : static i).
      { destruct Hc as [_ [K|[N1 N2]]]; [congruence|]. repeat split; auto. congruence. }
      assert (E0 := i_static _ _ _ I i St). rewrite Eo in E0. symmetry in E0.
      assert (Nd : i <> d) by apply St.
      destruct (copies fuel IH (so_children o) h g stk r1 I) as (a & b & Ea & Ia & Ma & Ra).
      { intros c Hin. apply (copyable_child i o c Hc ltac:(congruence) E0 Hin). }
      { exact E1. }
      exists (a ++ [so_set_children (snd r1) o]), (b ++ [org g0 i]). rewrite Ea, !app_assoc.
      assert (I' : Inv ((h ++ a) ++ [so_set_children (snd r1) o]) ((g ++ b) ++ [org g0 i]) stk).
      { apply inv_alloc; auto.
        - apply set_children_fit; auto. congruence.
        - cbn. intros c Hin. apply Ra in Hin. assert (L := inv_h0_le _ _ _ I). lia.
        - intros _. split.
          + apply fresh_not_done. cbn. apply (H_fresh i o E0).
          + cbn. rewrite Ma. apply (H_children i o Nd E0). }
      sp; auto.
      + cbn [map]. f_equal. rewrite <- (i_len _ _ _ Ia). apply org_last.
      + destruct H as [<-|[]]. rewrite app_length. lia.
      + destruct H as [<-|[]]. rewrite (app_length (h ++ a)). cbn. lia.
    - assert (St : static i).
      { destruct Hc as [_ [K|[N1 N2]]]; [congruence|]. repeat split; auto. congruence. }
      assert (E0 := i_static _ _ _ I i St). rewrite Eo in E0. symmetry in E0.
      assert (Nd : i <> d) by apply St.
      destruct (copies fuel IH (so_children o) h g stk r1 I) as (a & b & Ea & Ia & Ma & Ra).
      { intros c Hin. apply (copyable_child i o c Hc ltac:(congruence) E0 Hin). }
      { exact E1. }
      exists (a ++ [so_set_children (snd r1) o]), (b ++ [org g0 i]). rewrite Ea, !app_assoc.
      assert (I' : Inv ((h ++ a) ++ [so_set_children (snd r1) o]) ((g ++ b) ++ [org g0 i]) stk).
      { apply inv_alloc; auto.
        - apply set_children_fit; auto. congruence.
        - cbn. intros c Hin. apply Ra in Hin. assert (L := inv_h0_le _ _ _ I). lia.
        - intros _. split.
          + apply fresh_not_done. cbn. apply (H_fresh i o E0).
          + cbn. rewrite Ma. apply (H_children i o Nd E0). }
      sp; auto.
      + cbn [map]. f_equal. rewrite <- (i_len _ _ _ Ia). apply org_last.
      + destruct H as [<-|[]]. rewrite app_length. lia.
      + destruct H as [<-|[]]. rewrite (app_length (h ++ a)). cbn. lia.
  Qed.

  (** ** Changes of one object *)
  Lemma inv_upd : forall h g stk stk' i o o', Inv h g stk -> nth_error h i = Some o ->
    stk' = stk \/ stk' = i :: stk -> ~ static i -> i <> d ->
    fit (org g i) o' -> todo o' = false ->
    (forall c, In c (so_children o') -> c < List.length h) ->
    (forall c, visit i -> In c (so_children o') -> visit c) ->
    (kind_of (org g i) <> KAttribute -> In i stk') ->
    Inv (hset h i o') g stk'.
  Proof.
    intros h g stk stk' i o o' I Ho Hs Hns Hd F T Hc Hv Hk.
    assert (SUB : forall j, In j stk -> In j stk') by (destruct Hs as [-> | ->]; cbn; auto).
    assert (L : i < List.length h) by (eapply nth_error_lt; eauto).
    constructor.
    - rewrite hset_length. apply (i_len _ _ _ I).
    - apply (i_ext _ _ _ I).
    - intros j x Hx. apply hset_cases in Hx. destruct Hx as [[-> ->]|[N Hx]]; [exact F|exact (i_fit _ _ _ I _ _ Hx)].
    - intros j x c Hx Hin. rewrite hset_length. apply hset_cases in Hx.
      destruct Hx as [[-> ->]|[N Hx]]; [auto|exact (i_ch _ _ _ I _ _ _ Hx Hin)].
    - intros j x c Hx Hvj Hin. apply hset_cases in Hx.
      destruct Hx as [[-> ->]|[N Hx]]; [auto|exact (i_vis _ _ _ I _ _ _ Hx Hvj Hin)].
    - intros j x Hx Hn Hkj. apply hset_cases in Hx.
      destruct Hx as [[-> ->]|[N Hx]]; [exfalso; auto|].
      apply (i_org _ _ _ I _ _ Hx); auto.
    - intros j x c oc Hx Hn Hdn Hin Hoc. apply hset_cases in Hx.
      destruct Hx as [[-> ->]|[N Hx]].
      + destruct (kind_of (org g i)) eqn:Ek; try (exfalso; apply Hn; apply Hk; congruence).
        destruct (f_attr _ _ F Ek) as [E0 _]. rewrite E0 in Hin. destruct Hin.
      + apply hset_cases in Hoc. destruct Hoc as [[-> ->]|[Nc Hoc]]; [exact T|].
        apply (i_closed _ _ _ I j x c oc Hx); auto.
    - intros j Hj. assert (Hj' : j = i \/ In j stk).
      { destruct Hs as [-> | ->]; [right; exact Hj|]. destruct Hj as [<-|Hj]; auto. }
      destruct (Nat.eq_dec j i) as [->|N].
      + right. exists o'. split; [apply hset_same; exact L | exact T].
      + destruct Hj' as [E|Hj']; [contradiction|].
        destruct (i_stk _ _ _ I j Hj') as [->|(x & Hx & Tx)]; [left; reflexivity|right].
        exists x. rewrite hset_other by congruence. auto.
    - intros j Hj. rewrite hset_other; [exact (i_static _ _ _ I j Hj)|]. intros ->. contradiction.
    - intros j Hjd Hjl. rewrite hset_length in Hjl. exact (i_D _ _ _ I j Hjd Hjl).
    - apply SUB. exact (i_d _ _ _ I).
  Qed.

  (** the object is finished *)
  Lemma inv_pop : forall h g stk i o k, Inv h g (i :: stk) -> i <> d -> nth_error h i = Some o ->
    keyed (org g i) = Some k -> done (org g i) o ->
    map (org g) (so_children o) = inline (org g i) ++ ref_nodes k ->
    (forall c oc, In c (so_children o) -> nth_error h c = Some oc -> todo oc = false) ->
    Inv h g stk.
  Proof.
    intros h g stk i o k I Hd Ho Hk Hdn Hm Hcl.
    assert (X : forall j, ~ In j stk -> j <> i -> ~ In j (i :: stk)) by (intros j A B [E|E]; [congruence|contradiction]).
    constructor; try apply I.
    - intros j x Hx Hn Hkj. destruct (Nat.eq_dec j i) as [->|N].
      + rewrite Ho in Hx. injection Hx as <-. split.
        * intros _ k' Hk'. rewrite Hk in Hk'. injection Hk' as <-. exact Hm.
        * intros N. contradiction.
      + apply (i_org _ _ _ I _ _ Hx); auto.
    - intros j x c oc Hx Hn Hdj Hin Hoc. destruct (Nat.eq_dec j i) as [->|N].
      + rewrite Ho in Hx. injection Hx as <-. eapply Hcl; eauto.
      + apply (i_closed _ _ _ I j x c oc Hx); auto.
    - intros j Hj. apply (i_stk _ _ _ I). right. exact Hj.
    - destruct (i_d _ _ _ I) as [E|E]; [congruence|exact E].
  Qed.

  (** ** Substitution *)
  Definition Mon (stk : list nat) (h h' : heap) : Prop :=
    forall j o, nth_error h j = Some o -> In j stk \/ todo o = false -> nth_error h' j = Some o.
  Lemma Mon_refl : forall stk h, Mon stk h h.
  Proof. intros stk h j o H _. exact H. Qed.
  Lemma Mon_trans : forall stk a b c, Mon stk a b -> Mon stk b c -> Mon stk a c.
  Proof. intros stk a b c H1 H2 j o H X. apply H2; auto. Qed.

  Lemma is_recursion_org : forall h g stk i, Inv h g stk -> copyable i -> is_recursion h i = is_rec (org g0 i).
  Proof.
    intros h g stk i I Hc. unfold is_recursion, is_rec.
    assert (Hl : i < List.length h0) by apply Hc.
    assert (L0 := inv_h0_le _ _ _ I).
    destruct (nth_error h i) as [o|] eqn:Eo.
    2:{ apply nth_error_None in Eo. lia. }
    assert (F := i_fit _ _ _ I _ _ Eo). rewrite (inv_org0 _ _ _ _ I Hl) in F.
    rewrite (f_kind _ _ F). destruct (kind_of (org g0 i)) eqn:Ek; auto.
    assert (St : static i).
    { destruct Hc as [_ [K|[N1 N2]]]; [congruence|]. repeat split; auto. congruence. }
    assert (E0 := i_static _ _ _ I i St). rewrite Eo in E0. symmetry in E0.
    rewrite (H_fresh i o E0). reflexivity.
  Qed.

  Definition add_copy (fuel i : nat) (item : nat) (h : heap) : res heap :=
    if is_recursion h item then Ok h
    else dor r <- deepcopy fuel item h ;
         Ok (hupd (fun p => so_set_children (so_children p ++ [snd r]) p) i (fst r)).

  Lemma add_copies : forall fuel i ids h g stk h' o, Inv h g (i :: stk) -> i <> d -> ~ static i -> visit i ->
    kind_of (org g i) <> KAttribute -> nth_error h i = Some o -> todo o = false ->
    (forall c, In c ids -> copyable c) ->
    for_each (add_copy fuel i) ids h = Ok h' ->
    exists b new, Inv h' (g ++ b) (i :: stk) /\
      nth_error h' i = Some (so_set_children (so_children o ++ new) o) /\
      map (org (g ++ b)) new = filter (fun n => negb (is_rec n)) (map (org g0) ids) /\
      (forall c, In c new -> visit c) /\
      (forall j x, j <> i -> nth_error h j = Some x -> nth_error h' j = Some x) /\
      List.length h <= List.length h'.
  Proof.
    intros fuel i ids. induction ids as [|c ids IH]; intros h g stk h' o I Hd Hns Hv Hk Ho T Hc Hr.
    - cbn in Hr. injection Hr as <-. exists [], []. rewrite !app_nil_r. sp; auto.
      + destruct o; exact Ho.
      + contradiction.
    - cbn [for_each] in Hr. unfold add_copy at 1 in Hr.
      rewrite (is_recursion_org _ _ _ c I (Hc c (or_introl eq_refl))) in Hr.
      cbn [map filter]. destruct (is_rec (org g0 c)) eqn:Er.
      + cbn [rbind] in Hr. cbn [negb].
        destruct (IH h g stk h' o I Hd Hns Hv Hk Ho T (fun j Hj => Hc j (or_intror Hj)) Hr) as (b & new & X).
        exists b, new. exact X.
      + cbn [negb]. destruct (deepcopy fuel c h) as [r1|e] eqn:E1; [|discriminate]. cbn [rbind] in Hr.
        destruct (deepcopy_ok fuel c h g (i :: stk) r1 I (Hc c (or_introl eq_refl)) E1) as (a & b & Ea & Ia & Ma & Ra).
        assert (Rc := Ra _ (or_introl eq_refl)). assert (L0 := inv_h0_le _ _ _ I).
        assert (Li : i < List.length h) by (eapply nth_error_lt; eauto).
        assert (Hoa : nth_error (fst r1) i = Some o) by (rewrite Ea; apply nth_error_app_some; exact Ho).
        rewrite (hupd_some _ _ _ _ Hoa) in Hr.
        assert (Oi : org (g ++ b) i = org g i) by (apply org_app; rewrite (i_len _ _ _ I); exact Li).
        assert (I2 : Inv (hset (fst r1) i (so_set_children (so_children o ++ [snd r1]) o)) (g ++ b) (i :: stk)).
        { rewrite Ea in *. eapply inv_upd with (stk := i :: stk); eauto.
          - rewrite Oi. apply set_children_fit; [exact (i_fit _ _ _ I _ _ Ho)|]. intros N. contradiction.
          - cbn. intros j Hj. apply in_app_or in Hj. destruct Hj as [Hj|[<-|[]]]; [|apply Rc].
            rewrite app_length. assert (X := i_ch _ _ _ I _ _ _ Ho Hj). lia.
          - cbn. intros j _ Hj. apply in_app_or in Hj. destruct Hj as [Hj|[<-|[]]].
            + exact (i_vis _ _ _ I _ _ _ Ho Hv Hj).
            + left. lia.
          - intros _. left. reflexivity. }
        assert (Ho2 : nth_error (hset (fst r1) i (so_set_children (so_children o ++ [snd r1]) o)) i
                      = Some (so_set_children (so_children o ++ [snd r1]) o)).
        { apply hset_same. rewrite Ea, app_length. lia. }
        destruct (IH _ (g ++ b) stk h' (so_set_children (so_children o ++ [snd r1]) o) I2 Hd Hns Hv)
          as (b2 & new & J1 & J2 & J3 & J4 & J5 & J6); auto.
        { rewrite Oi. exact Hk. }
        { intros j Hj. apply Hc. right. exact Hj. }
        exists (b ++ b2), (snd r1 :: new). rewrite app_assoc. sp.
        * exact J1.
        * rewrite J2. cbn. rewrite <- app_assoc. reflexivity.
        * cbn [map]. rewrite J3. f_equal. injection Ma as Ma. rewrite <- Ma. apply org_app.
          rewrite (i_len _ _ _ Ia). apply Rc.
        * intros j [<-|Hj]; [left; lia | auto].
        * intros j x Hj Hx. apply J5; [exact Hj|]. rewrite hset_other by congruence.
          rewrite Ea. apply nth_error_app_some. exact Hx.
        * rewrite hset_length, Ea, app_length in J6. lia.
  Qed.

  Definition rec_ok (recurse : nat -> heap -> res heap) : Prop :=
    forall i h g stk h', Inv h g stk -> i < List.length h -> (forall c, In c (children_at h i) -> visit c) ->
      recurse i h = Ok h' ->
      exists b, Inv h' (g ++ b) stk /\ Mon stk h h' /\
        (forall c oc, In c (children_at h i) -> nth_error h' c = Some oc -> todo oc = false).

  Lemma not_visit_static : forall i, visit i -> ~ static i /\ i <> d.
  Proof.
    intros i [L|[L [K|K]]].
    - split; [intros (X & _); lia|]. intros ->. destruct H_d. lia.
    - split; [intros (_ & X & _); contradiction|]. intros ->. destruct H_d as (_ & _ & E & _). congruence.
    - split; [intros (_ & _ & X & _); contradiction|]. intros ->. destruct H_d as (_ & E & _ & N). rewrite E in K. contradiction.
  Qed.

  Lemma set_key_fit : forall n o k, fit n o -> kind_of n <> KAttribute -> keyed n = Some k ->
    fit n (so_set_key (py "__" ++ k) o).
  Proof.
    intros n o k F Hk Hn. constructor; cbn; try apply F; try contradiction.
    rewrite Hn. right. reflexivity.
  Qed.
  Lemma set_rules_fit : forall n o p m, fit n o -> kind_of n <> KAttribute -> fit n (so_set_rules p m o).
  Proof. intros n o p m F Hk. destruct F. constructor; cbn; auto; contradiction. Qed.

  Lemma substitute_ok : forall fuel recurse, rec_ok recurse ->
    forall i h g stk h', Inv h g stk -> visit i -> i < List.length h ->
    substitute fuel recurse schema types i h = Ok h' ->
    exists b, Inv h' (g ++ b) stk /\ Mon stk h h' /\ (forall o, nth_error h' i = Some o -> todo o = false).
  Proof.
    intros fuel recurse HR i h g stk h' I Hv Hl Hr.
    unfold substitute in Hr. destruct (nth_error h i) as [o|] eqn:Ho; [|discriminate].
    assert (F := i_fit _ _ _ I _ _ Ho).
    destruct (todo o) eqn:T.
    2:{ assert (h' = h).
        { unfold todo in T. destruct (so_key o) as [k|]; [|congruence].
          destruct (dget k schema) as [r|] eqn:E; [|congruence].
          assert (X : dmem k schema = true) by (unfold dmem, amem; unfold dget in E; rewrite E; reflexivity). congruence. }
        subst h'. exists []. rewrite app_nil_r. sp; auto using Mon_refl.
        intros o' Ho'. rewrite Ho in Ho'. injection Ho' as <-. exact T. }
    destruct (todo_keyed _ _ F T) as (k & Hk & Hko & Hmem).
    rewrite Hko in Hr.
    destruct (dget k schema) as [ref|] eqn:Eref; [|discriminate (f_equal (fun x => x) _) || idtac].
    2:{ exfalso. unfold dmem, amem in Hmem. unfold dget in Eref. rewrite Eref in Hmem. discriminate. }
    destruct (not_visit_static i Hv) as [Hns Hd].
    assert (Hni : ~ In i stk).
    { intros Hin. destruct (i_stk _ _ _ I i Hin) as [E|(x & Hx & Tx)]; [contradiction|].
      rewrite Ho in Hx. injection Hx as <-. congruence. }
    assert (KD : k <> D).
    { intros ->. apply keyed_key in Hk. apply (i_D _ _ _ I i Hd Hl). apply Hk. }
    set (o1 := so_set_key (py "__" ++ k) o) in *.
    rewrite (hupd_some _ _ _ _ Ho) in Hr. fold o1 in Hr.
    assert (T1 : todo o1 = false) by (unfold todo; cbn; apply marked_not_todo; exact Hmem).
    rewrite (f_kind _ _ F) in Hr.
    assert (MonI : forall x, nth_error h i = Some x -> In i stk \/ todo x = false -> False).
    { intros x Hx [A|A]; [contradiction|]. rewrite Ho in Hx. injection Hx as <-. congruence. }
    (* an element or group *)
    assert (MAIN : kind_of (org g i) <> KAttribute ->
      (dor h2 <- (dor h1 <- for_each (add_copy fuel i)
                    match ref with RSimple _ => [] | RList l => l | RGroup g1 => children_at (hset h i o1) g1 end
                    (hset h i o1) ; recurse i h1) ;
       match ref with
       | RSimple s => match dget s types with
                      | Some v => Ok (hupd (so_set_rules (sm_patterns v) (sm_maxLength v)) i h2)
                      | None => Ok h2
                      end
       | _ => Ok h2
       end) = Ok h' ->
      exists b, Inv h' (g ++ b) stk /\ Mon stk h h' /\ (forall o, nth_error h' i = Some o -> todo o = false)).
    { clear Hr. intros KA Hr.
      assert (I1 : Inv (hset h i o1) g (i :: stk)).
      { eapply inv_upd with (stk := stk); eauto.
        - apply set_key_fit; auto.
        - cbn. intros c Hc. exact (i_ch _ _ _ I _ _ _ Ho Hc).
        - cbn. intros c _ Hc. exact (i_vis _ _ _ I _ _ _ Ho Hv Hc).
        - intros _. left. reflexivity. }
      assert (Ho1 : nth_error (hset h i o1) i = Some o1) by (apply hset_same; exact Hl).
      set (its := match ref with RSimple _ => [] | RList l => l | RGroup g1 => children_at (hset h i o1) g1 end) in *.
      assert (Eits : its = items k).
      { unfold its, items. rewrite Eref. destruct ref as [s|l|gr]; auto.
        unfold children_at. rewrite (i_static _ _ _ I1 gr (H_groups k gr Eref)). reflexivity. }
      destruct (for_each (add_copy fuel i) its (hset h i o1)) as [h2|e] eqn:E2; [|discriminate].
      cbn [rbind] in Hr.
      destruct (add_copies fuel i its _ g stk h2 o1 I1 Hd Hns Hv KA Ho1 T1) as (b2 & new & I2 & Ho2 & M2 & V2 & J2 & L2).
      { rewrite Eits. intros c Hc. exact (H_items k c KD Hc). }
      { exact E2. }
      destruct (recurse i h2) as [h3|e] eqn:E3; [|discriminate]. cbn [rbind] in Hr.
      rewrite hset_length in L2.
      assert (Hch : children_at h2 i = so_children o1 ++ new) by (unfold children_at; rewrite Ho2; reflexivity).
      destruct (HR i h2 (g ++ b2) (i :: stk) h3 I2 ltac:(lia)) as (b3 & I3 & Mo3 & C3).
      { intros c Hc. rewrite Hch in Hc. apply in_app_or in Hc. destruct Hc as [Hc|Hc]; [|auto].
        exact (i_vis _ _ _ I _ _ _ Ho Hv Hc). }
      { exact E3. }
      assert (Ho3 : nth_error h3 i = Some (so_set_children (so_children o1 ++ new) o1)).
      { apply Mo3; [exact Ho2|]. left. left. reflexivity. }
      set (o2 := so_set_children (so_children o1 ++ new) o1) in *.
      assert (Oi : forall b, org (g ++ b) i = org g i).
      { intros b. apply org_app. rewrite (i_len _ _ _ I). exact Hl. }
      assert (FIN : exists o3, nth_error h' i = Some o3 /\ Inv h' ((g ++ b2) ++ b3) (i :: stk) /\
                so_children o3 = so_children o2 /\ so_key o3 = so_key o2 /\
                (forall j, j <> i -> nth_error h' j = nth_error h3 j)).
      { destruct ref as [s|l|gr]; try (injection Hr as <-; exists o2; sp; auto; fail).
        destruct (dget s types) as [v|]; [|injection Hr as <-; exists o2; sp; auto].
        rewrite (hupd_some _ _ _ _ Ho3) in Hr. injection Hr as <-.
        exists (so_set_rules (sm_patterns v) (sm_maxLength v) o2).
        assert (L3 : i < List.length h3) by (eapply nth_error_lt; eauto).
        sp.
        - apply hset_same. exact L3.
        - eapply inv_upd with (stk := i :: stk); eauto.
          + apply set_rules_fit; [exact (i_fit _ _ _ I3 _ _ Ho3)|]. rewrite <- app_assoc, Oi. exact KA.
          + cbn. intros c Hc. exact (i_ch _ _ _ I3 _ _ _ Ho3 Hc).
          + cbn. intros c _ Hc. exact (i_vis _ _ _ I3 _ _ _ Ho3 Hv Hc).
          + intros _. left. reflexivity.
        - reflexivity.
        - reflexivity.
        - intros j Hj. apply hset_other. congruence. }
      destruct FIN as (o3 & Ho4 & I4 & C4 & K4 & J4).
      exists (b2 ++ b3). rewrite app_assoc.
      assert (T4 : todo o3 = false) by (unfold todo in *; rewrite K4; exact T1).
      sp.
      + apply inv_pop with (i := i) (o := o3) (k := k); auto.
        * rewrite <- app_assoc, Oi. exact Hk.
        * exists k. rewrite <- app_assoc, Oi. split; [exact Hk|]. rewrite K4. reflexivity.
        * rewrite C4. cbn [so_children so_set_children o2]. rewrite map_app. f_equal.
          -- rewrite <- app_assoc. rewrite map_org_app.
             ++ rewrite Oi. apply (i_org _ _ _ I _ _ Ho Hni KA).
                intros (k' & A & B). rewrite Hko in B. injection B as B. rewrite Hk in A. injection A as <-. exact (marked_ne k B).
             ++ intros c Hc. rewrite (i_len _ _ _ I). exact (i_ch _ _ _ I _ _ _ Ho Hc).
          -- rewrite map_org_app.
             ++ rewrite M2, Eits. reflexivity.
             ++ intros c Hc. rewrite (i_len _ _ _ I2). apply (i_ch _ _ _ I2 _ _ _ Ho2). cbn. apply in_or_app. right. exact Hc.
        * intros c oc Hc Hoc. rewrite C4 in Hc. destruct (Nat.eq_dec c i) as [->|N].
          -- rewrite Ho4 in Hoc. injection Hoc as <-. exact T4.
          -- rewrite J4 in Hoc by exact N. apply (C3 c oc); [|exact Hoc]. rewrite Hch. exact Hc.
      + intros j x Hx Hj. destruct (Nat.eq_dec j i) as [->|N]; [exfalso; eapply MonI; eauto|].
        rewrite J4 by exact N. apply Mo3.
        * apply J2; [exact N|]. rewrite hset_other by congruence. exact Hx.
        * destruct Hj as [Hj|Hj]; [left; right; exact Hj | right; exact Hj].
      + intros x Hx. rewrite Ho4 in Hx. injection Hx as <-. exact T4. }
    destruct (kind_of (org g i)) eqn:Ek.
    - (* an attribute *)
      destruct (f_attr _ _ F Ek) as (C0 & R0 & D0).
      destruct (f_rules _ _ F Ek (or_introl T)) as [P0 M0].
      assert (DONE : exists o2, h' = hset h i o2 /\ fit (org g i) o2 /\ todo o2 = false /\ so_children o2 = []).
      { cbn [rbind] in Hr.
        assert (FIN : forall p m, (p, m) = final_rules k (org g i) ->
                  fit (org g i) (so_set_rules p m o1)).
        { intros p m E. constructor; cbn.
          - exact (f_kind _ _ F).
          - exact (f_name _ _ F).
          - rewrite Hk. right. reflexivity.
          - intros _. sp; auto.
          - intros _ [X|X]; [|congruence]. unfold todo in T1, X. cbn in T1, X. congruence.
          - intros _ k' Hk' _. rewrite Hk in Hk'. injection Hk' as <-. exact E.
        - intros N. congruence. }
        assert (SAME : so_set_rules (inline_patterns (org g i)) None o1 = o1).
        { unfold so_set_rules, o1, so_set_key. cbn. rewrite P0, M0. reflexivity. }
        destruct ref as [s|l|gr].
        - destruct (dget s types) as [v|] eqn:Ev.
          + rewrite (hupd_some _ _ _ o1) in Hr by (apply hset_same; exact Hl). rewrite hset_hset in Hr.
            injection Hr as <-. exists (so_set_rules (sm_patterns v) (sm_maxLength v) o1). split; [reflexivity|]. split; [|split; [exact T1|exact C0]].
            apply FIN. unfold final_rules. rewrite Eref, Ev. reflexivity.
          + injection Hr as <-. exists o1. split; [reflexivity|]. split; [|split; [exact T1|exact C0]].
            rewrite <- SAME. apply FIN. unfold final_rules. rewrite Eref, Ev. reflexivity.
        - injection Hr as <-. exists o1. split; [reflexivity|]. split; [|split; [exact T1|exact C0]].
          rewrite <- SAME. apply FIN. unfold final_rules. rewrite Eref. reflexivity.
        - injection Hr as <-. exists o1. split; [reflexivity|]. split; [|split; [exact T1|exact C0]].
          rewrite <- SAME. apply FIN. unfold final_rules. rewrite Eref. reflexivity. }
      destruct DONE as (o2 & -> & F2 & T2 & C2).
      exists []. rewrite app_nil_r. split; [|split].
      + eapply inv_upd with (stk := stk); eauto; try (rewrite C2; intros; contradiction). congruence.
      + intros j x Hx Hj. destruct (Nat.eq_dec j i) as [->|N]; [exfalso; eapply MonI; eauto|].
        rewrite hset_other by congruence. exact Hx.
      + intros x Hx. apply hset_cases in Hx. destruct Hx as [[_ ->]|[N _]]; [exact T2|congruence].
    - exact (MAIN ltac:(discriminate) Hr).
    - exact (MAIN ltac:(discriminate) Hr).
  Qed.

  Lemma apply_ok : forall fuel, rec_ok (apply_substitutions fuel schema types).
  Proof.
    induction fuel as [|fuel IH]; intros i h g stk h' I Hl Hv Hr; [discriminate|].
    cbn [apply_substitutions] in Hr.
    assert (Hl2 : forall c, In c (children_at h i) -> c < List.length h).
    { intros c Hc. unfold children_at in Hc. destruct (nth_error h i) as [o|] eqn:Eo; [|destruct Hc].
      exact (i_ch _ _ _ I _ _ _ Eo Hc). }
    revert Hr Hv Hl2. generalize (children_at h i). intros cs. clear Hl i. revert h g h' I.
    induction cs as [|c cs IHc]; intros h g h' I Hr Hv Hl.
    - cbn in Hr. injection Hr as <-. exists []. rewrite app_nil_r. sp; auto using Mon_refl. contradiction.
    - cbn [for_each] in Hr.
      destruct (substitute (S fuel) (apply_substitutions fuel schema types) schema types c h) as [h1|e] eqn:E1; [|discriminate].
      cbn [rbind] in Hr.
      destruct (substitute_ok (S fuel) _ IH c h g stk h1 I (Hv c (or_introl eq_refl)) (Hl c (or_introl eq_refl)) E1)
        as (b1 & I1 & M1 & C1).
      assert (L1 : List.length h <= List.length h1).
      { rewrite <- (i_len _ _ _ I), <- (i_len _ _ _ I1), app_length. lia. }
      destruct (IHc h1 (g ++ b1) h' I1 Hr) as (b2 & I2 & M2 & C2).
      { intros j Hj. apply Hv. right. exact Hj. }
      { intros j Hj. assert (X := Hl j (or_intror Hj)). lia. }
      exists (b1 ++ b2). rewrite app_assoc. sp; auto.
      + eapply Mon_trans; eauto.
      + intros j oj [<-|Hj] Hoj; [|exact (C2 j oj Hj Hoj)].
        assert (Lc := Hl c (or_introl eq_refl)).
        destruct (nth_error h1 c) as [oc|] eqn:Eoc.
        2:{ apply nth_error_None in Eoc. lia. }
        assert (Tc := C1 oc eq_refl).
        assert (X := M2 c oc Eoc (or_intror Tc)). rewrite Hoj in X. injection X as ->. exact Tc.
  Qed.

  (** the start, and the end *)
  Lemma inv_start : Inv h0 g0 [d].
  Proof.
    constructor; auto.
    - exists []. rewrite app_nil_r. reflexivity.
    - intros i o c Ho Hc. destruct (Nat.eq_dec i d) as [->|N].
      + apply (H_d_children o c Ho Hc).
      + destruct (H_own i o c N Ho Hc) as [X _]. assert (Y := nth_error_lt _ _ _ Ho). lia.
    - intros i o c Ho Hv Hc. destruct (not_visit_static i Hv) as [_ N].
      destruct (H_own i o c N Ho Hc) as [X Y]. assert (L := nth_error_lt _ _ _ Ho).
      destruct Hv as [V|[_ [K|K]]]; [lia| |].
      + destruct (f_attr _ _ (H_fit i o Ho) K) as [E _]. rewrite E in Hc. destruct Hc.
      + right. split; [lia|]. right. rewrite Y. exact K.
    - intros i o Ho Hn Hk. assert (N : i <> d) by (intros ->; apply Hn; left; reflexivity).
      split.
      + intros X. exfalso. exact (fresh_not_done _ _ (H_fresh i o Ho) X).
      + intros _. exact (H_children i o N Ho).
    - intros i o c oc Ho Hn X. exfalso. exact (fresh_not_done _ _ (H_fresh i o Ho) X).
    - intros i [<-|[]]. left. reflexivity.
    - left. reflexivity.
  Qed.

  Lemma apply_end : forall fuel h', apply_substitutions fuel schema types d h0 = Ok h' ->
    exists b, Inv h' (g0 ++ b) [d] /\ nth_error h' d = nth_error h0 d /\
      (forall c oc, In c (children_at h0 d) -> nth_error h' c = Some oc -> todo oc = false).
  Proof.
    intros fuel h' Hr. destruct (apply_ok fuel d h0 g0 [d] h' inv_start) as (b & I & M & C); auto.
    - apply H_d.
    - intros c Hc. unfold children_at in Hc. destruct (nth_error h0 d) as [o|] eqn:Eo; [|destruct Hc].
      apply (H_d_children o c eq_refl Hc).
    - exists b. sp; auto. destruct (nth_error h0 d) as [o|] eqn:Eo.
      + apply M; [exact Eo|]. left. left. reflexivity.
      + apply nth_error_None in Eo. destruct H_d. lia.
  Qed.
End Substitution.
