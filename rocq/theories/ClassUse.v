(** * Runs with two collections of classes that agree on the classes the file names *)

From Coq Require Import List NArith ZArith Bool String Lia.
From Verif Require Import PyBase PyFacts Regex Utf8 H5 Findings Nxdl Core Catalog ItemName AttributeCheck
  GroupChecks AppDef DefaultPlot Validate H5Tree CheckFacts Spec_Copy Spec_Classes.
Import ListNotations.

Section Use.
  Variables (E : env) (w : world) (p : pystr) (pats : dict (list pystr)) (rl : nat) (fm : option Z).
  Local Notation CC := (mkCtx E w (open_root p) pats rl fm).
  Local Notation named := (names_class E w p).
  Local Notation inside h := (part_of w p (h_file h)).
  Local Definition used (n : pystr) : Prop := named n \/ n = py "NXroot" \/ n = py "NXentry".

  (** ** the files *)
  Lemma part_link : forall h n x q, inside h -> dget n (links_of w h) = Some (LExt x q) -> part_of w p x.
  Proof.
    intros h n x q I D. apply dget_In in D. unfold links_of, obj_of, get_obj in D.
    destruct (dget (h_file h) w) as [[objs|]|] eqn:F; try contradiction D. destruct (nth_error objs (h_oid h)) as [ob|] eqn:N1; [|contradiction D].
    destruct (ob_kind ob) as [links| |] eqn:K; try contradiction D. apply nth_error_In in N1.
    assert (L : linked w (h_file h) x) by (eapply linked_direct; eauto).
    apply part_linked. destruct I as [|f I]; [exact L|]. eapply linked_step; eassumption.
  Qed.
  Lemma resolve_part : forall nl cs h t, inside h -> resolve nl w h cs = Ok t -> inside t.
  Proof.
    induction nl as [|nl IHn]; induction cs as [|c cs IHc]; intros h t I H; try (cbn in H; congruence);
      cbn [resolve] in H; destruct (dget c (links_of w h)) as [[o|q|x q]|] eqn:L; try discriminate H.
    - destruct (get_obj w (h_file h) o); [|discriminate H]. eapply IHc; [|exact H]. exact I.
    - destruct (get_obj w (h_file h) o); [|discriminate H]. eapply IHc; [|exact H]. exact I.
    - destruct (resolve nl w (if is_abs q then root_handle (h_file h) else h) (path_comps q)) as [y|e] eqn:R; [|destruct e; discriminate H].
      apply IHn in R; [|destruct (is_abs q); exact I]. eapply IHc; [|exact H]. exact R.
    - destruct (get_obj w x 0); [|discriminate H]. destruct (resolve nl w (root_handle x) (path_comps q)) as [y|e] eqn:R; [|destruct e; discriminate H].
      apply IHn in R; [|eapply part_link; eassumption]. eapply IHc; [|exact H]. exact R.
  Qed.
  Lemma getitem_part : forall h n t, inside h -> getitem w h n = Ok t -> inside t.
  Proof. intros h [|a n] t I H; [discriminate|]. unfold getitem in H. cbv zeta in H. apply resolve_part in H; [exact H|]. destruct (is_abs (a :: n)); exact I. Qed.
  Lemma attrs_named : forall h v n, inside h -> In (py "NX_class", v) (attrs_of w h) -> decode_byte_string E v = Ok (VStr n) -> used n.
  Proof.
    intros h v n I A D. left. unfold attrs_of, obj_of, get_obj in A. destruct (dget (h_file h) w) as [[objs|]|] eqn:F; try contradiction A.
    destruct (nth_error objs (h_oid h)) as [ob|] eqn:N1; [|contradiction A]. apply nth_error_In in N1. eapply names_attribute; eauto.
  Qed.

  (** ** items *)
  Record good (it : vitem) : Prop := {
    g_inside : forall h, it_obj it = ONode h -> inside h;
    g_class : forall n, it_nxclass it = Some n -> used n;
    g_value : it_name it = Some (py "NX_class") -> forall v n, it_obj it = OVal v -> decode_byte_string E v = Ok (VStr n) -> used n
  }.
  Lemma good_vals : forall it v, good it -> good (set_vals it v).
  Proof. intros it v []. split; assumption. Qed.
  Lemma good_node : forall q h it, inside h -> node_item E w q h = Ok it -> good it.
  Proof.
    intros q h it I H. unfold node_item in H. cbv zeta in H.
    destruct (determine_NeXus_classpath E w _ h _) as [cn|] eqn:D; [|discriminate H]. cbn [rbind] in H.
    destruct (identify_object_type E w (ONode h)); [|discriminate H]. cbn [rbind] in H. injection H as <-. split; cbn [it_obj it_nxclass it_name].
    - intros h0 H. injection H as <-. exact I.
    - intros n Hn. unfold determine_NeXus_classpath in D.
      repeat match type of D with
      | (if ?b then _ else _) = _ => destruct b
      | match ?o with None => _ | Some _ => _ end = _ => destruct o
      end; try discriminate D; try (injection D as <-; discriminate Hn).
      destruct (dget (py "NX_class") (attrs_of w h)) as [v|] eqn:A.
      + destruct (decode_byte_string E v) as [x|] eqn:V; [|discriminate D]. cbn [rbind] in D.
        destruct x; try (injection D as <-; discriminate Hn). destruct (startswith s _) in D; [|injection D as <-; discriminate Hn].
        injection D as <-. cbn [snd] in Hn. injection Hn as <-. eapply attrs_named; [exact I|apply dget_In; exact A|exact V].
      + cbn [rbind] in D. injection D as <-. discriminate Hn.
    - intros _ v n H. discriminate H.
  Qed.
  Lemma good_attr : forall i it v n, (n = Some (py "NX_class") -> forall t, decode_byte_string E v = Ok (VStr t) -> used t) -> good (attr_item i it v n).
  Proof.
    intros i it v n H. unfold attr_item. destruct (str_eqb (it_cp it) NON_NEXUS); split; cbn; try discriminate;
      intros Hn v0 t Ev; injection Ev as <-; apply H; exact Hn.
  Qed.

  (** ** states *)
  Definition agree (cl cl' : classes) : Prop := forall n, used n -> dget n cl = dget n cl'.
  Inductive srel : vstate -> vstate -> Prop :=
  | srel_intro : forall l a c f k cl cl', Forall good l -> agree cl cl' -> srel (mkSt l a c f k cl) (mkSt l a c f k cl').
  Definition both {A} (P : A -> Prop) (m m' : M A) : Prop :=
    forall s s', srel s s' -> srel (fst (m s)) (fst (m' s')) /\ snd (m s) = snd (m' s') /\ (forall a, snd (m s) = Ok a -> P a).
  Definition any {A} (a : A) : Prop := True.
  Ltac three := split; [|split; [reflexivity|]]; [|try solve [intros; exact I | intros ? X; discriminate X]].

  Lemma b_weak : forall A (P Q : A -> Prop) m m', both P m m' -> (forall a, P a -> Q a) -> both Q m m'.
  Proof. intros A P Q m m' H HQ s s' S. destruct (H s s' S) as (S1 & R & V). split; [exact S1|]. split; [exact R|]. auto. Qed.
  Lemma b_ret : forall A (P : A -> Prop) a, P a -> both P (ret a) (ret a).
  Proof. intros A P a H s s' S. three; [exact S|]. intros x X. injection X as <-. exact H. Qed.
  Lemma b_raise : forall A (P : A -> Prop) e, both P (raise e) (raise e).
  Proof. intros A P e s s' S. three. exact S. Qed.
  Lemma b_lift : forall A (P : A -> Prop) r, (forall a, r = Ok a -> P a) -> both P (lift r) (lift r).
  Proof. intros A P r H s s' S. three; [exact S|exact H]. Qed.
  Lemma b_bind : forall A B (P : A -> Prop) (Q : B -> Prop) m m' f f', both P m m' -> (forall a, P a -> both Q (f a) (f' a)) -> both Q (bind m f) (bind m' f').
  Proof.
    intros A B P Q m m' f f' H Hf s s' S. unfold bind. destruct (H s s' S) as (S1 & R & V). destruct (m s) as [s1 r], (m' s') as [s1' r']. cbn [fst snd] in *. subst r'.
    destruct r as [a|e]; [apply Hf; [apply V; reflexivity|exact S1]|]. three. exact S1.
  Qed.
  Lemma b_get : forall B (Q : B -> Prop) f f', (forall s s', srel s s' -> both Q (f s) (f' s')) -> both Q (bind get f) (bind get f').
  Proof. intros B Q f f' H s s' S. unfold bind, get. apply H; exact S. Qed.
  Lemma b_item : forall i, both good (item i) (item i).
  Proof.
    intros i s s' S. pose proof S as S0. destruct S as [l a c f k cl cl' G A]. unfold item. cbn [st_items]. destruct (nth_error l i) as [it|] eqn:N1; cbn [fst snd].
    - three; [exact S0|]. intros x X. injection X as <-. apply nth_error_In in N1. rewrite Forall_forall in G. apply G. exact N1.
    - three. exact S0.
  Qed.
  Lemma b_new : forall it, good it -> both any (new_item it) (new_item it).
  Proof.
    intros it R s s' S. destruct S as [l a c f k cl cl' G A]. unfold new_item, set_items. cbn. three.
    constructor; [|exact A]. apply Forall_app. split; [exact G|]. constructor; [exact R|constructor].
  Qed.
  Lemma b_address : forall a, both any (address_item a) (address_item a).
  Proof. intros x s s' S. pose proof S as S0. destruct S. unfold address_item. cbn [st_addr]. destruct (aget ostr_eqb x a); three; exact S0. Qed.
  Lemma b_classpath : forall k, both any (classpath_list k) (classpath_list k).
  Proof. intros x s s' S. pose proof S as S0. destruct S. unfold classpath_list. cbn [st_cp]. three; exact S0. Qed.
  Lemma b_last : forall k, both any (last_of_classpath k) (last_of_classpath k).
  Proof. intros x s s' S. pose proof S as S0. destruct S. unfold last_of_classpath. cbn [st_cp]. destruct (dget x c) as [y|]; [destruct (rev y)|]; three; exact S0. Qed.
  Lemma b_add_address : forall a i, both any (add_address a i) (add_address a i).
  Proof. intros x i s s' S. destruct S. unfold add_address. cbn. three; constructor; assumption. Qed.
  Lemma b_add_classpath : forall a i, both any (add_classpath a i) (add_classpath a i).
  Proof. intros x i s s' S. destruct S. unfold add_classpath. cbn. three; constructor; assumption. Qed.
  Lemma b_regexp : forall k q, both any (cached_regexp k q) (cached_regexp k q).
  Proof.
    intros x q s s' S. pose proof S as S0. destruct S. unfold cached_regexp. cbn [st_cache]. destruct (dget x k); [three; exact S0|].
    destruct (re_compile q); three; try exact S0; constructor; assumption.
  Qed.
  Lemma update_good : forall i (f : vitem -> vitem) l, (forall x, good x -> good (f x)) -> Forall good l -> Forall good (update_nth i f l).
  Proof. intros i f l Hf H. revert i. induction H; intros [|i]; cbn; constructor; auto. Qed.
  Lemma b_record : forall i k st cm, both any (record_finding i k st cm) (record_finding i k st cm).
  Proof.
    intros i k st cm. unfold record_finding. eapply b_bind; [apply b_item|]. intros it R s s' S. destruct S. cbn. three. constructor; [|assumption].
    apply update_good; [|assumption]. intros x. apply good_vals.
  Qed.
  Lemma b_store : forall a n z, both any (store_minOccurs a n z) (store_minOccurs a n z).
  Proof.
    intros a n z s s' S. destruct S as [l ad c f k cl cl' G A]. unfold store_minOccurs, set_classes. cbn [fst snd st_items st_addr st_cp st_find st_cache st_classes].
    split; [|split; [reflexivity|intros; exact I]]. constructor; [exact G|]. intros m U.
    destruct (str_eq_dec a m) as [->|N1].
    - rewrite (A m U). destruct (dget m cl') as [d|] eqn:D; [|apply A; exact U].
      destruct (dget n (d_groups d)); [rewrite !dget_dset_same; reflexivity|apply A; exact U].
    - assert (X : forall cl0, dget m (match dget a cl0 with Some d => match dget n (d_groups d) with Some g => dset a (set_d_groups d (dset n (set_minOccurs z g) (d_groups d))) cl0 | None => cl0 end | None => cl0 end) = dget m cl0).
      { intros cl0. destruct (dget a cl0) as [d|]; [|reflexivity]. destruct (dget n (d_groups d)); [|reflexivity]. apply dget_dset_other. auto. }
      rewrite !X. apply A. exact U.
  Qed.
  Lemma b_for_in : forall A (f g : A -> M unit) l, (forall x, In x l -> both any (f x) (g x)) -> both any (for_each f l) (for_each g l).
  Proof.
    intros A f g l. induction l as [|x l IH]; intros H; [apply b_ret; exact I|]. cbn [for_each]. eapply b_bind; [apply H; left; reflexivity|]. intros; apply IH. intros y Hy. apply H. right. exact Hy.
  Qed.

  Ltac step :=
    match goal with
    | |- both _ (ret _) _ => first [apply (b_ret _ any); exact I | apply b_ret]
    | |- both _ (raise _) _ => first [apply (b_raise _ any) | apply b_raise]
    | |- both any (item _) _ => eapply b_weak; [apply b_item|intros; exact I]
    | |- both _ (item _) _ => apply b_item
    | |- both _ (address_item _) _ => apply b_address
    | |- both _ (classpath_list _) _ => apply b_classpath
    | |- both _ (last_of_classpath _) _ => apply b_last
    | |- both _ (add_address _ _) _ => apply b_add_address
    | |- both _ (add_classpath _ _) _ => apply b_add_classpath
    | |- both _ (cached_regexp _ _) _ => apply b_regexp
    | |- both _ (record_finding _ _ _ _) _ => apply b_record
    | |- both _ (store_minOccurs _ _ _) _ => apply b_store
    | |- both any (lift _) _ => apply b_lift; intros; exact I
    | |- both _ (lift ?r) _ => apply (b_lift _ any); intros; exact I
    | |- both _ (bind get _) _ => fail 1
    | |- both _ (bind _ _) _ => eapply b_bind; [|intros]
    | |- both _ (for_each _ _) _ => apply b_for_in; intros
    | |- both _ (match ?x with _ => _ end) (match ?x with _ => _ end) => destruct x
    | |- both _ (let '(_, _) := ?x in _) _ => destruct x
    end.
  Ltac go := repeat (step; cbv beta).

  Lemma b_register : forall it, good it -> both any (register it) (register it).
  Proof. intros it G. unfold register. eapply b_bind; [apply b_new; exact G|]. intros. go. Qed.
  Lemma b_get_subject : forall q h, inside h -> both any (get_subject CC q h) (get_subject CC q h).
  Proof.
    intros q h H. unfold get_subject. cbn [c_env c_world].
    eapply b_bind with (P := any); [go|]. intros q1 _. eapply b_bind with (P := good); [apply b_lift; intros it Ht; eapply good_node; eassumption|].
    intros it G. eapply b_bind; [apply b_register; exact G|]. intros i _. eapply b_bind; [apply b_for_in|intros; go].
    intros [k v] Hk. cbn [fst snd]. eapply b_bind; [apply b_register; apply good_attr|intros; go].
    intros X t D. injection X as ->. eapply attrs_named; [exact H| |exact D]. apply sorted_by_In in Hk. exact Hk.
  Qed.
  Lemma b_catalog : forall n q h, inside h -> both any (group_address_catalog n CC q h) (group_address_catalog n CC q h).
  Proof.
    induction n as [|n IH]; intros q h H; cbn [group_address_catalog]; [go|].
    eapply b_bind; [apply b_get_subject; exact H|]. intros obj _. eapply b_bind; [apply b_item|]. intros it G.
    eapply b_bind; [apply b_last|]. intros pp _. cbn [c_world]. apply b_for_in. intros m _.
    eapply b_bind with (P := fun y => inside y); [apply b_lift; intros y Y; eapply getitem_part; eassumption|]. intros y Y.
    destruct (isHdf5Group w y); [apply IH; exact Y|]. eapply b_bind; [apply b_get_subject; exact Y|]. intros. go.
  Qed.
  Lemma b_first_match : forall o l, both any (first_match CC o l) (first_match CC o l).
  Proof. intros o l. induction l as [|[k q] l IH]; cbn [first_match]; [go|]. repeat first [exact IH | step; cbv beta]. Qed.
  Lemma b_match_key : forall o, both any (validItemName_match_key CC o) (validItemName_match_key CC o).
  Proof. intros o. unfold validItemName_match_key. eapply b_bind; [apply b_first_match|]. intros; go. Qed.
  Lemma b_match_text : forall s, both any (match_key_text CC s) (match_key_text CC s).
  Proof. intros s. apply b_match_key. Qed.
  Lemma b_match_name : forall n, both any (match_key_name CC n) (match_key_name CC n).
  Proof. intros [n|]; [apply b_match_text|]. apply b_match_key. Qed.
  Lemma b_item_name : forall i, both any (item_name_verify CC i) (item_name_verify CC i).
  Proof.
    intros i. unfold item_name_verify, handle_NX_class, handle_any_attribute, handle_groups_and_fields.
    repeat first [apply b_first_match | apply b_match_name | step; cbv beta].
  Qed.
  Lemma b_parent : forall it, both good (parent_item it) (parent_item it).
  Proof. intros it. unfold parent_item. go. Qed.
  Lemma b_axes : forall i, both any (axes_handler CC i) (axes_handler CC i).
  Proof.
    intros i. unfold axes_handler, axis_check. repeat first [apply b_match_key | apply b_parent | step; cbv beta].
  Qed.
  Lemma b_signal : forall i, both any (signal_handler CC i) (signal_handler CC i).
  Proof. intros i. unfold signal_handler, generic_handler. repeat first [apply b_match_key | apply b_parent | step; cbv beta]. Qed.
  Lemma b_target_parts : forall i l a, both any (target_parts CC i a l) (target_parts CC i a l).
  Proof. intros i. induction l as [|q l IH]; intros a; cbn [target_parts]; [go|]. repeat first [apply b_match_text | apply IH | step; cbv beta]. Qed.
  Lemma b_target : forall i, both any (target_handler CC i) (target_handler CC i).
  Proof. intros i. unfold target_handler. repeat first [apply b_target_parts | step; cbv beta]. Qed.
  Lemma srel_classes : forall s s' n, srel s s' -> used n -> dget n (st_classes s) = dget n (st_classes s').
  Proof. intros s s' n S U. destruct S as [l a c f k cl cl' G A]. apply A. exact U. Qed.
  Lemma item_at : forall B i it (f : vitem -> M B) s, nth_error (st_items s) i = Some it -> bind (item i) f s = f it s.
  Proof. intros B i it f s H. unfold bind, item. rewrite H. reflexivity. Qed.
  Definition class_known (i : nat) (it : vitem) : M unit :=
    let* v := lift (decode_obj E (it_obj it)) in
    let* s := get in
    match v with
    | OVal (VStr nx_class) =>
        match dget nx_class (st_classes s) with
        | None => record_finding i ATTR_TEST ERROR ((py "not a recognized NXDL class: ") ++ nx_class)
        | Some d =>
            if isBaseClassNXDL d
            then record_finding i ATTR_TEST OK ((py "recognized NXDL base class: ") ++ nx_class)
            else record_finding i ATTR_TEST ERROR ((py "incorrect use of @NX_class attribute: ") ++ nx_class)
        end
    | _ => raise TypeError
    end.
  Lemma b_known : forall i it, good it -> it_name it = Some (py "NX_class") -> both any (class_known i it) (class_known i it).
  Proof.
    intros i it G Hn. unfold class_known. eapply b_bind with (P := fun v => decode_obj E (it_obj it) = Ok v); [apply b_lift; auto|]. intros v V. apply b_get. intros t t' T.
    destruct v as [h|v]; [go|]. destruct v; try solve [go]. assert (U : used s).
    { destruct (it_obj it) as [h|v] eqn:O; [discriminate V|]. cbn [decode_obj] in V. destruct (decode_byte_string E v) as [x|] eqn:D; [|discriminate V]. cbn [rmap] in V.
      injection V as ->. eapply g_value; eauto. }
    rewrite <- (srel_classes _ _ _ T U). go.
  Qed.
  Lemma b_attribute : forall i, both any (attribute_verify CC i) (attribute_verify CC i).
  Proof.
    intros i s s' S. unfold attribute_verify.
    destruct (nth_error (st_items s) i) as [it|] eqn:N1.
    - assert (N2 : nth_error (st_items s') i = Some it) by (destruct S; exact N1). rewrite (item_at _ _ _ _ _ N1), (item_at _ _ _ _ _ N2).
      assert (G : good it). { destruct S as [l a c f k cl cl' G A]. rewrite Forall_forall in G. apply G. eapply nth_error_In. exact N1. }
      destruct (it_addr it); [|apply b_ret; [exact I|exact S]]. destruct (negb (has_char ch_at p0)); [apply b_ret; [exact I|exact S]|].
      destruct (it_name it) as [n|] eqn:Hn; [|apply b_raise; exact S]. destruct (str_eqb_spec n (py "NX_class")) as [->|_].
      + assert (X : forall t, nth_error (st_items t) i = Some it -> nxclass_handler CC i t = class_known i it t).
        { intros t Ht. unfold nxclass_handler. rewrite (item_at _ _ _ _ _ Ht). reflexivity. }
        rewrite (X s N1), (X s' N2). apply b_known; assumption.
      + destruct (str_eqb n (py "target")); [apply b_target; exact S|]. destruct (str_eqb n (py "signal")); [apply b_signal; exact S|].
        destruct (str_eqb n (py "axes")); [apply b_axes; exact S|]. apply b_record. exact S.
    - assert (N2 : nth_error (st_items s') i = None) by (destruct S; exact N1). unfold bind, item. rewrite N1, N2. three. exact S.
  Qed.

  (** ** groups *)
  Lemma base_use : forall s s' n, srel s s' -> used n -> usedAsBaseClass (st_classes s) n = usedAsBaseClass (st_classes s') n.
  Proof. intros s s' n S U. unfold usedAsBaseClass. rewrite (srel_classes _ _ _ S U). reflexivity. Qed.
  Lemma dgetitem_use : forall s s' n, srel s s' -> used n -> dgetitem n (st_classes s) = dgetitem n (st_classes s').
  Proof. intros s s' n S U. unfold dgetitem. rewrite (srel_classes _ _ _ S U). reflexivity. Qed.
  Lemma dmem_use : forall s s' n, srel s s' -> used n -> dmem n (st_classes s) = dmem n (st_classes s').
  Proof. intros s s' n S U. pose proof (srel_classes _ _ _ S U) as X. unfold dmem, amem, dget in *. rewrite X. reflexivity. Qed.
  Lemma b_nx_attr : forall i n, used n -> both any (validate_NX_class_attribute i n) (validate_NX_class_attribute i n).
  Proof.
    intros i n U. unfold validate_NX_class_attribute. apply b_get. intros s s' S. cbv zeta.
    rewrite <- (dmem_use _ _ _ S U), <- (base_use _ _ _ S U), <- (dgetitem_use _ _ _ S U). go.
  Qed.
  Lemma b_group_attribute : forall i d kv, both any (group_attribute CC i d kv) (group_attribute CC i d kv).
  Proof. intros i d kv. unfold group_attribute, child_exists. cbv zeta. go. Qed.
  Lemma b_group_child : forall h d n, both any (group_child CC h d n) (group_child CC h d n).
  Proof. intros h d n. unfold group_child. go. Qed.
  Lemma b_base_items : forall i cls d, both any (base_class_items_verify CC i cls d) (base_class_items_verify CC i cls d).
  Proof. intros i cls d. unfold base_class_items_verify, base_field, base_group. go. Qed.
  Lemma class_used : forall it n, good it -> group_class it = Ok n -> used n.
  Proof.
    intros it n G H. unfold group_class in H. destruct (startswith _ _).
    - destruct (it_nxclass it) eqn:X; [|discriminate H]. cbn [need_text] in H. injection H as ->. eapply g_class; eauto.
    - destruct (str_eqb _ _); [|discriminate H]. injection H as <-. right. left. reflexivity.
  Qed.
  Lemma b_validate_group : forall i, both any (validate_group CC i) (validate_group CC i).
  Proof.
    intros i. unfold validate_group. eapply b_bind; [apply b_item|]. intros it G. destruct (str_eqb (it_cp it) NON_NEXUS); [go|].
    eapply b_bind with (P := used); [apply b_lift; intros n Hn; eapply class_used; eassumption|]. intros n U.
    eapply b_bind; [apply b_nx_attr; exact U|]. intros _ _. apply b_get. intros s s' S. rewrite <- (srel_classes _ _ _ S U).
    destruct (dget n (st_classes s)) as [d|]; [|go]. unfold verify_group_attributes, verify_group_children.
    repeat first [apply b_group_attribute | apply b_group_child | apply b_base_items | step; cbv beta].
  Qed.

  (** ** application definitions *)
  Lemma good_field : forall i it o n h vi, good it -> o = it_obj it -> hobj_getopt w o n = Ok h -> field_item E w i it h = Ok vi -> good vi.
  Proof.
    intros i it o n h vi G -> H F. destruct h as [h|]; cbn [field_item] in F.
    - eapply good_node; [|exact F]. destruct (it_obj it) as [g|] eqn:O; [|discriminate H]. cbn [hobj_getopt] in H. destruct (is_group_obj w g); [|discriminate H].
      unfold getopt in H. destruct (getitem w g n) as [t|e] eqn:Gi; [|destruct e; discriminate H]. injection H as ->. eapply getitem_part; [|exact Gi].
      eapply g_inside; eauto.
    - injection F as <-. apply good_attr. discriminate.
  Qed.
  Lemma b_ad_field : forall i it n fs, good it -> both any (ad_field CC i it n fs) (ad_field CC i it n fs).
  Proof.
    intros i it n fs G. unfold ad_field. cbn [c_world c_env]. cbv zeta.
    eapply b_bind with (P := fun h => hobj_getopt w (it_obj it) (fst fs) = Ok h); [apply b_lift; auto|]. intros h H.
    eapply b_bind with (P := good); [apply b_lift; intros vi V; eapply good_field; eauto|]. intros vi V.
    eapply b_bind; [apply b_new; exact V|]. intros v _. go.
  Qed.
  Lemma definition_used : forall it n, good it -> definition_name CC it = Ok n -> used n.
  Proof.
    intros it n G H. unfold definition_name in H. cbn [c_world c_env] in H. destruct (it_obj it) as [g|] eqn:O; [|discriminate H]. cbn [hobj_getitem] in H.
    destruct (is_group_obj w g); [|discriminate H]. destruct (getitem w g (py "definition")) as [t|] eqn:Gi; [|discriminate H]. cbn [rbind] in H.
    destruct (read_data w t) as [v|] eqn:V; [|discriminate H]. cbn [rbind] in H. destruct (first_if_array v) as [v0|] eqn:V0; [|discriminate H]. cbn [rbind] in H.
    destruct (decode_byte_string E v0) as [d|] eqn:D; [|discriminate H]. cbn [rbind] in H. injection H as <-. left. eapply names_definition; eauto. eapply g_inside; eauto.
  Qed.
  Lemma b_app : forall i, both any (application_definition_verify CC i) (application_definition_verify CC i).
  Proof.
    intros i. unfold application_definition_verify. eapply b_bind; [apply b_item|]. intros it G.
    eapply b_bind with (P := used); [apply b_lift; intros n Hn; eapply definition_used; eassumption|]. intros n U. apply b_get. intros s s' S. cbv zeta.
    rewrite <- (srel_classes _ _ _ S U). destruct (dget n (st_classes s)) as [d|]; [|go].
    repeat first [apply b_ad_field; exact G | step; cbv beta].
  Qed.
  Lemma b_check_definition : forall i, both any (check_definition CC i) (check_definition CC i).
  Proof. intros i. unfold check_definition. repeat first [apply b_app | step; cbv beta]. Qed.

  (** ** default plot *)
  Lemma b_v3_item : forall i, both any (v3_item CC i) (v3_item CC i).
  Proof. intros i. unfold v3_item. cbv zeta. go. Qed.
  Lemma b_v3_loop : forall l a n, both any (v3_loop CC a n l) (v3_loop CC a n l).
  Proof. induction l as [|i l IH]; intros a n; cbn [v3_loop]; [go|]. eapply b_bind; [apply b_v3_item|]. intros r _. destruct r; [go|apply IH]. Qed.
  Lemma b_v2_item : forall r i, both any (v2_item CC r i) (v2_item CC r i).
  Proof. intros r i. unfold v2_item. cbv zeta. repeat first [apply b_parent | step; cbv beta]. Qed.
  Lemma b_v2_collect : forall l r, both any (v2_collect CC r l) (v2_collect CC r l).
  Proof. induction l as [|i l IH]; intros r; cbn [v2_collect]; [go|]. eapply b_bind; [apply b_v2_item|]. intros r2 _. apply IH. Qed.
  Lemma b_v2_decide : forall l a, both any (v2_decide a l) (v2_decide a l).
  Proof. induction l as [|[g [|i [|j x]]] l IH]; intros a; cbn [v2_decide]; [go|apply IH| |]; repeat first [apply b_parent | apply IH | step; cbv beta]. Qed.
  Lemma b_default_plot : both any (default_plot_verify CC) (default_plot_verify CC).
  Proof.
    unfold default_plot_verify. eapply b_bind; [apply b_address|]. intros obj _. eapply b_bind with (P := any).
    - cbn [try_methods]. eapply b_bind with (P := any); [unfold default_plot_v3; eapply b_bind; [apply b_classpath|]; intros l _; apply b_v3_loop|].
      intros a _. destruct a; [go|]. eapply b_bind with (P := any).
      { unfold default_plot_v2. apply b_get. intros s s' S. destruct S. cbn [st_cp]. eapply b_bind; [apply b_v2_collect|]. intros rv _. apply b_v2_decide. }
      intros a _. destruct a; [go|]. unfold default_plot_v1. go.
    - intros r _. destruct r as [[k ad]|]; [go|]. apply b_get. intros s s' S.
      assert (X : no_plot_status (st_classes s) = no_plot_status (st_classes s')).
      { unfold no_plot_status. rewrite (dgetitem_use _ _ (py "NXentry") S); [reflexivity|]. right. right. reflexivity. }
      rewrite <- X. go.
  Qed.

  (** ** everything *)
  Lemma b_check_item : forall i, both any (check_item CC i) (check_item CC i).
  Proof. intros i. unfold check_item. eapply b_bind; [apply b_item_name|]. intros _ _. apply b_attribute. Qed.
  Lemma b_check_group : forall i, both any (check_group CC i) (check_group CC i).
  Proof. intros i. unfold check_group. repeat first [apply b_validate_group | step; cbv beta]. Qed.
  Lemma b_validate : both any (validate_open CC) (validate_open CC).
  Proof.
    unfold validate_open. eapply b_bind; [unfold build_address_catalog; cbn [c_reclimit c_root]; apply b_catalog; apply part_self|]. intros _ _.
    eapply b_bind with (P := any).
    { unfold step1. apply b_get. intros s s' S. destruct S. cbn [st_cp]. apply b_for_in. intros. apply b_check_item. }
    intros _ _. eapply b_bind with (P := any).
    { unfold step2. apply b_get. intros s s' S. destruct S. cbn [st_addr]. apply b_for_in. intros. apply b_check_group. }
    intros _ _. eapply b_bind with (P := any).
    { unfold step3. apply b_get. intros s s' S. destruct S. cbn [st_cp]. apply b_for_in. intros. apply b_check_definition. }
    intros _ _. apply b_default_plot.
  Qed.
End Use.

Theorem validate_use : forall u w v v' p,
  same_definitions (u_env u) w p (st_classes (v_st v)) (st_classes (v_st v')) -> same_but_classes v v' ->
  same_but_classes (fst (validate u w v p)) (fst (validate u w v' p)) /\ snd (validate u w v p) = snd (validate u w v' p)
  /\ same_definitions (u_env u) w p (st_classes (v_st (fst (validate u w v p)))) (st_classes (v_st (fst (validate u w v' p)))).
Proof.
  intros u w v v' p D B. unfold validate. destruct (dget p w) as [[objs|]|] eqn:Hp.
  - assert (S : srel (u_env u) w p (fresh_state (st_classes (v_st v))) (fresh_state (st_classes (v_st v')))) by (constructor; [constructor|exact D]).
    destruct (b_validate (u_env u) w p (u_patterns u) (u_reclimit u) (u_field_minOccurs u) _ _ S) as (S1 & R & _).
    change (mkCtx (u_env u) w (open_root p) (u_patterns u) (u_reclimit u) (u_field_minOccurs u)) with (mk_ctx u w p) in *.
    destruct (validate_open (mk_ctx u w p) (fresh_state (st_classes (v_st v)))) as [s r]. destruct (validate_open (mk_ctx u w p) (fresh_state (st_classes (v_st v')))) as [s' r'].
    cbn [fst snd v_st] in *. split; [|split; [exact R|]]; destruct S1 as [l a c f k cl cl' G A]; [unfold same_but_classes; cbn; repeat split|exact A].
  - cbn [fst snd]. split; [|split; [reflexivity|exact D]]. destruct B as (B1 & B2 & B3 & B4 & B5 & B6). unfold same_but_classes. cbn. repeat split; assumption.
  - split; [exact B|split; [reflexivity|exact D]].
Qed.
