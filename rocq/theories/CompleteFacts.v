(** * When a validation completes *)

From Coq Require Import List NArith ZArith Bool String Lia Permutation.
From Verif Require Import PyBase PyFacts Regex Utf8 H5 Findings Nxdl Core Catalog ItemName AttributeCheck
  GroupChecks AppDef DefaultPlot Validate Trace CheckFacts CatalogFacts Spec_Names Spec_Run NameFacts RunFacts NameRun StepOne Spec_Catalog PathFacts CatalogRun CatalogEnd CatalogTerm
  Spec_Number NumberFacts Spec_Attributes PresenceFacts AttrRun AttrTotal AddressFacts AddrRecord Spec_Groups GroupRun Spec_AppDef AppFacts PlotFacts PlotLink Spec_Complete.
Import ListNotations.

(** ** Computations that return *)
Definition goes {A} (m : M A) (s : vstate) : Prop := exists s' a, m s = (s', Ok a).

Lemma goes_bind : forall A B (m : M A) (f : A -> M B) s, goes m s -> (forall s' a, m s = (s', Ok a) -> goes (f a) s') -> goes (bind m f) s.
Proof. intros A B m f s [s1 [a E]] H. destruct (H _ _ E) as [s2 [b E2]]. exists s2, b. unfold bind. rewrite E. exact E2. Qed.
Lemma goes_ret : forall A (a : A) s, goes (ret a) s.
Proof. intros. exists s, a. reflexivity. Qed.
Lemma goes_bind_lift : forall A B (r : res A) (f : A -> M B) a s, r = Ok a -> goes (f a) s -> goes (bind (lift r) f) s.
Proof. intros A B r f a s -> H. exact H. Qed.
Lemma goes_bind_get : forall B (f : vstate -> M B) s, goes (f s) s -> goes (bind get f) s.
Proof. intros B f s H. exact H. Qed.
Lemma goes_bind_item : forall B i (f : vitem -> M B) it s, nth_error (st_items s) i = Some it -> goes (f it) s -> goes (bind (item i) f) s.
Proof. intros B i f it s H [s1 [b E]]. exists s1, b. unfold bind, item. rewrite H. exact E. Qed.
Lemma goes_returns : forall A (m : M A) s P, returns m s P -> goes m s.
Proof. intros A m s P [s1 [a [E _]]]. exists s1, a. exact E. Qed.
Lemma goes_record : forall i k st cm s, there i s -> goes (record_finding i k st cm) s.
Proof. intros. eapply goes_returns. apply returns_record. auto. Qed.

Lemma goes_for_each : forall A (f : A -> M unit) (I : vstate -> Prop) l s, I s ->
  (forall x s, In x l -> I s -> goes (f x) s) -> (forall x s s' r, In x l -> I s -> f x s = (s', r) -> I s') -> goes (for_each f l) s.
Proof.
  induction l as [|x l IH]; intros s HI Hf Hi; cbn [for_each]; [apply goes_ret|]. apply goes_bind; [apply Hf; auto; left; auto|].
  intros s1 u E. apply IH; eauto.
  - eapply Hi; eauto. left. auto.
  - intros. apply Hf; auto. right. auto.
  - intros. eapply Hi; eauto. right. auto.
Qed.

(** ... with a value such that [P] *)
Definition gives {A} (m : M A) (s : vstate) (P : A -> Prop) : Prop := exists s' a, m s = (s', Ok a) /\ P a.
Lemma gives_goes : forall A (m : M A) s P, gives m s P -> goes m s.
Proof. intros A m s P [s' [a [H _]]]. exists s', a. exact H. Qed.
Lemma gives_bind : forall A B (m : M A) (f : A -> M B) s P, goes m s -> (forall s' a, m s = (s', Ok a) -> gives (f a) s' P) -> gives (bind m f) s P.
Proof. intros A B m f s P [s1 [a E]] H. destruct (H _ _ E) as [s2 [b [E2 Hb]]]. exists s2, b. split; auto. unfold bind. rewrite E. exact E2. Qed.
Lemma gives_ret : forall A (a : A) s (P : A -> Prop), P a -> gives (ret a) s P.
Proof. intros. exists s, a. split; auto. Qed.
Lemma gives_bind_item : forall B i (f : vitem -> M B) it s P, nth_error (st_items s) i = Some it -> gives (f it) s P -> gives (bind (item i) f) s P.
Proof. intros B i f it s P H [s1 [b [E X]]]. exists s1, b. split; auto. unfold bind, item. rewrite H. exact E. Qed.
Lemma gives_bind_lift : forall A B (r : res A) (f : A -> M B) a s P, r = Ok a -> gives (f a) s P -> gives (bind (lift r) f) s P.
Proof. intros A B r f a s P -> H. exact H. Qed.
Lemma gives_bind_gives : forall A B (m : M A) (f : A -> M B) s Q P, gives m s Q -> (forall s' a, m s = (s', Ok a) -> Q a -> gives (f a) s' P) -> gives (bind m f) s P.
Proof. intros A B m f s Q P [s1 [a [E X]]] H. destruct (H _ _ E X) as [s2 [b [E2 Hb]]]. exists s2, b. split; auto. unfold bind. rewrite E. exact E2. Qed.

Lemma aset_in : forall K V (eq : K -> K -> bool) (k : K) (v : V) d x, In x (aset eq k v d) -> snd x = v /\ (fst x = k \/ exists v', In (fst x, v') d) \/ In x d.
Proof.
  induction d as [|[k' v'] d IH]; cbn [aset]; intros x Hx.
  - destruct Hx as [<-|[]]. left. auto.
  - destruct (eq k k').
    + destruct Hx as [<-|Hx]; [left; split; auto; right; exists v'; left; auto|right; right; auto].
    + destruct Hx as [<-|Hx]; [right; left; auto|]. destruct (IH _ Hx) as [[A [B|[v2 B]]]|A]; [left; auto|left; split; auto; right; exists v2; right; auto|right; right; auto].
Qed.

Section Complete.
  Variable u : setup.
  Variable w : world.
  Variable fname : pystr.
  Variable f : h5file.
  Variable cl : classes.
  Hypothesis R : ready u w fname f cl.
  Let c := mk_ctx u w fname.
  Let E := u_env u.

  Let Hfile := rd_file _ _ _ _ _ R.
  Let Hplain := rd_plain _ _ _ _ _ R.
  Let Hopen := rd_open _ _ _ _ _ R.

  (** ** Cataloguing *)
  Lemma ready_described : described E w fname.
  Proof.
    intros h k v Hr Hin Hk. pose proof (ga_checkable _ _ _ _ _ _ _ (rd_attributes _ _ _ _ _ R h k v Hr Hin)) as C. left.
    destruct Hk as [-> | ->]; inversion C; subst; eauto;
      match goal with X : ~ In _ _ |- _ => exfalso; apply X; simpl; auto end.
  Qed.

  Lemma ready_builds : exists s1, build_address_catalog c (fresh_state cl) = (s1, Ok tt).
  Proof. apply (build_completes c fname eq_refl Hopen ready_described). exact (rd_shallow _ _ _ _ _ R). Qed.

  Variable s1 : vstate.
  Hypothesis Hbuild : build_address_catalog c (fresh_state cl) = (s1, Ok tt).

  Lemma HI : cinv c s1.
  Proof. destruct (build_spec _ _ _ _ Hbuild) as [A _]. exact A. Qed.
  Lemma classes1 : st_classes s1 = cl.
  Proof. destruct (build_spec _ _ _ _ Hbuild) as [_ [[_ [_ [_ A]]] _]]. exact A. Qed.
  Lemma unique : NoDup (oaddrs (st_items s1)).
  Proof. eapply (catalog_unique u w fname f Hfile Hplain (rd_distinct _ _ _ _ _ R) (rd_names _ _ _ _ _ R)). exact Hbuild. Qed.
  Lemma rec_all : forall h, reachable w fname h -> recorded c (st_items s1) h.
  Proof. intros h [k H]. destruct (build_spec _ _ _ _ Hbuild) as [_ [_ A]]. apply A; auto. eapply chain_below; exact H. Qed.

  (** states reached from there *)
  Definition live (s : vstate) : Prop := ext s1 s /\ rel c s1 s.
  Lemma live1 : live s1.
  Proof. split; [apply ext_refl|apply rel_refl]. Qed.
  Lemma live_logs : forall P A (m : M A) s s' r, logs c P m -> live s -> m s = (s', r) -> live s'.
  Proof.
    intros P A m s s' r HL [X Y] H. destruct (logs_run _ _ _ _ _ _ _ HL H) as [log [T [_ Z]]].
    split; [eapply ext_trans; [exact X|exists log; exact T]|eapply rel_trans; eauto].
  Qed.

  Definition has (i : nat) (it : vitem) : Prop := nth_error (st_items s1) i = Some it.
  Lemma live_item : forall s i it0, live s -> has i it0 -> exists it, nth_error (st_items s) i = Some it /\ it_parent it = it_parent it0 /\ it_obj it = it_obj it0
    /\ it_name it = it_name it0 /\ it_addr it = it_addr it0 /\ it_cp it = it_cp it0 /\ it_nxclass it = it_nxclass it0.
  Proof.
    intros s i it0 [X _] H. destruct (ext_item _ _ _ _ X H) as [it [A B]]. exists it. split; auto. apply skel_eq in B. exact B.
  Qed.
  Lemma live_there : forall s i it0, live s -> has i it0 -> there i s.
  Proof. intros s i it0 L H. destruct (live_item _ _ _ L H) as [it [A _]]. exists it. auto. Qed.
  Lemma live_addr : forall s, live s -> st_addr s = st_addr s1.
  Proof. intros s [[log T] _]. exact (tr_addr _ _ _ T). Qed.
  Lemma live_cp : forall s, live s -> st_cp s = st_cp s1.
  Proof. intros s [[log T] _]. exact (tr_cp _ _ _ T). Qed.

  Lemma addr_get : forall s i it a, live s -> has i it -> it_addr it = Some a -> address_item (Some a) s = (s, Ok i).
  Proof.
    intros s i it a L H Ha. unfold address_item. rewrite (live_addr _ L). destruct (aget ostr_eqb (Some a) (st_addr s1)) as [j|] eqn:G.
    - apply aget_In in G; [|apply ostr_eqb_eq]. destruct (ci_addrof _ _ HI _ _ G) as [jt [H1 H2]].
      rewrite (oaddrs_unique _ unique _ _ _ _ _ H H1 Ha H2). reflexivity.
    - exfalso. pose proof (ci_addrall _ _ HI _ _ H) as X. rewrite Ha in X. apply in_map_iff in X as [[b j] [Eb Hin]]. cbn [fst] in Eb. subst b.
      clear - G Hin. induction (st_addr s1) as [|[b k] l IH]; [destruct Hin|]. cbn [aget] in G. destruct (ostr_eqb (Some a) b) eqn:Q; [congruence|].
      destruct Hin as [Hin|Hin]; [|auto]. injection Hin as -> ->. rewrite (proj2 (ostr_eqb_eq _ _) eq_refl) in Q. congruence.
  Qed.

  Lemma goes_bind_addr : forall B (g : nat -> M B) s i it a, live s -> has i it -> it_addr it = Some a -> goes (g i) s -> goes (bind (address_item (Some a)) g) s.
  Proof. intros B g s i it a L H Ha [s2 [b X]]. exists s2, b. unfold bind. rewrite (addr_get _ _ _ _ L H Ha). exact X. Qed.

  (** ** Items *)
  Lemma node_reach : forall i it h, has i it -> it_obj it = ONode h -> reachable w fname h.
  Proof.
    intros i it h H Ho. destruct (cinv_sound _ _ HI _ _ H) as [A _]. apply A in Ho. change (c_root c) with (open_root fname) in Ho.
    destruct (below_chain _ _ _ Ho) as [k K]. exists k. exact K.
  Qed.
  Lemma leads_nice : forall p o b, leads f o p b -> Forall nice p.
  Proof.
    intros p o b H. destruct (leads_names f Hplain (rd_names _ _ _ _ _ R) _ _ _ H) as [A B]. apply Forall_forall. intros n Hn.
    rewrite Forall_forall in A, B. split; auto.
  Qed.

  Lemma node_path : forall i it h, has i it -> it_obj it = ONode h -> exists p, h_file h = fname /\ Forall nice p /\ leads f 0 p (h_oid h) /\ h_name h = path_text p
      /\ it_addr it = Some (path_text p) /\ (p = [] <-> i = 0) /\ (i = 0 -> h = open_root fname) /\ (i <> 0 -> h_isfile h = false) /\ class_path E f p (it_cp it).
  Proof.
    intros i it h H Ho. destruct (catalog_paths u w fname f Hfile Hplain _ HI _ _ _ H Ho) as [p [A [B [C [D [F [G [K [L N]]]]]]]]].
    exists p. repeat (split; auto). all: try (eapply leads_nice; eauto); apply G.
  Qed.

  Lemma attr_own : forall i it v, has i it -> it_obj it = OVal v -> exists p pit h k, has p pit /\ it_obj pit = ONode h /\ In (k, v) (attrs_of w h) /\ it = attr_item p pit v (Some k)
    /\ reachable w fname h /\ good_attribute E w fname cl h k v.
  Proof.
    intros i it v H Ho. destruct (cinv_sound _ _ HI _ _ H) as [_ A]. destruct (A v Ho) as [p [pit [h [k [B1 [B2 [B3 [B4 B5]]]]]]]].
    assert (Hr : reachable w fname h) by (eapply node_reach; [exact B1|exact B2]).
    exists p, pit, h, k. split; auto. split; auto. split; auto. split; auto. split; auto. apply (rd_attributes _ _ _ _ _ R); auto.
  Qed.

  (** ** Class paths *)
  Definition plain_part (x : pystr) : Prop := x <> [] /\ ~ In 47%N x /\ ~ In 64%N x.
  Definition parts_text (l : list pystr) : pystr := List.concat (map (fun n => 47%N :: n) l).

  Lemma parts_snoc : forall l x, parts_text (l ++ [x]) = parts_text l ++ 47%N :: x.
  Proof. intros. unfold parts_text. rewrite map_app, concat_app. simpl. rewrite app_nil_r. reflexivity. Qed.
  Lemma parts_no_slash_end : forall l, Forall plain_part l -> ~ ends_with_slash (parts_text l).
  Proof.
    intros l H [d X]. destruct l as [|x l] using rev_ind; [destruct d; discriminate|]. clear IHl. rewrite parts_snoc in X. apply Forall_app in H as [_ H]. inversion H as [|? ? [H1 [H2 H3]] _]; subst.
    destruct x as [|y x] using rev_ind; [congruence|]. clear IHx. change (47%N :: x ++ [y]) with ((47%N :: x) ++ [y]) in X. rewrite app_assoc in X. apply app_inj_tail in X as [_ X]. subst.
    apply H2. apply in_or_app. right. left. auto.
  Qed.
  Lemma parts_no_at : forall l, Forall plain_part l -> ~ In 64%N (parts_text l).
  Proof.
    intros l H X. unfold parts_text in X. apply in_concat in X as [y [Y1 Y2]]. apply in_map_iff in Y1 as [x [<- Hx]]. rewrite Forall_forall in H.
    destruct Y2 as [Y2|Y2]; [discriminate|]. destruct (H _ Hx) as [_ [_ Z]]. auto.
  Qed.
  Lemma parts_not_non_nexus : forall l, parts_text l <> non_nexus.
  Proof. intros [|x l]; discriminate. Qed.

  Lemma path_reach : forall p o, leads f 0 p o -> exists h, reachable w fname h /\ h_oid h = o /\ h_name h = path_text p /\ h_file h = fname.
  Proof.
    intros p o H. destruct (path_below w fname f Hfile Hplain) with (p := p) (o := o) as [h [B1 [B2 [B3 [B4 B5]]]]]; auto.
    - intros h n Hb Hin. destruct (below_chain _ _ _ Hb) as [k K]. apply Hopen; auto. exists k. exact K.
    - exists h. destruct (below_chain _ _ _ B1) as [k K]. split; [exists k; exact K|]. auto.
  Qed.

  Lemma class_parts : forall p cp, class_path E f p cp -> cp = non_nexus \/ exists l, List.length l = List.length p /\ Forall plain_part l /\ cp = parts_text l.
  Proof.
    induction 1 as [|p pcp n o cp H1 IH H2 H3]; [right; exists []; split; [auto|split; [constructor|reflexivity]]|].
    pose proof (leads_nice _ _ _ H2) as Hn. apply Forall_app in Hn as [_ Hn]. inversion Hn as [|? ? [[N1 [N2 N3]] N4] _]; subst.
    assert (S : forall x, pcp <> non_nexus -> plain_part x -> cp = pcp ++ 47%N :: x -> cp = non_nexus \/ exists l, List.length l = List.length (p ++ [n]) /\ Forall plain_part l /\ cp = parts_text l).
    { intros x Hx P ->. destruct IH as [IH|[l [L1 [L2 L3]]]]; [contradiction|]. right. exists (l ++ [x]). split; [rewrite !app_length; simpl; lia|].
      split; [apply Forall_app; auto|]. rewrite parts_snoc, L3. reflexivity. }
    destruct H3 as [A|cls A B C D|A B C D|A B C|A B].
    - left. auto.
    - apply (S cls); auto. destruct (path_reach _ _ H2) as [h [Hr [Ho [Hna Hfi]]]].
      rewrite <- Ho, <- (attrs_attributes w fname f Hfile h Hfi) in D. destruct (rd_class_names _ _ _ _ _ R _ _ Hr D) as [X Y].
      destruct D as [v [t [_ [_ ->]]]]. split; [discriminate|]. auto.
    - left. auto.
    - apply (S n); auto. split; auto.
    - exfalso. destruct IH as [IH|[l [L1 [L2 L3]]]]; [contradiction|]. subst pcp. exact (parts_no_slash_end _ L2 B).
  Qed.

  Lemma node_cp : forall i it h, has i it -> it_obj it = ONode h -> it_cp it = non_nexus \/ exists l, Forall plain_part l /\ it_cp it = parts_text l.
  Proof.
    intros i it h H Ho. destruct (node_path _ _ _ H Ho) as [p [_ [_ [_ [_ [_ [_ [_ [_ P]]]]]]]]]. destruct (class_parts _ _ P) as [X|[l [_ X]]]; [auto|right; eauto].
  Qed.
  Lemma node_cp_no_at : forall i it h, has i it -> it_obj it = ONode h -> ~ In 64%N (it_cp it).
  Proof.
    intros i it h H Ho. destruct (node_cp _ _ _ H Ho) as [->|[l [P ->]]]; [|apply parts_no_at; auto].
    intros X. unfold non_nexus in X. cbn in X. repeat (destruct X as [X|X]; [discriminate|]). destruct X.
  Qed.
  Lemma node_addr_no_at : forall i it h, has i it -> it_obj it = ONode h -> exists a, it_addr it = Some a /\ ~ In 64%N a.
  Proof. intros i it h H Ho. destruct (node_path _ _ _ H Ho) as [p [_ [P [_ [_ [A _]]]]]]. exists (path_text p). split; auto. apply path_text_no_at. auto. Qed.

  (** ** Step 1 *)
  Lemma pat : Forall compiles (item_patterns c).
  Proof. exact (proj1 (rd_patterns _ _ _ _ _ R)). Qed.
  Lemma root_group : is_group_obj w (open_root fname) = true.
  Proof.
    destruct (rd_root _ _ _ _ _ R) as [ob [links [A B]]]. unfold is_group_obj, obj_of, get_obj, open_root. cbn [h_file h_oid]. rewrite Hfile, A, B. reflexivity.
  Qed.

  Lemma goes_match : forall B n (g : option pystr -> M B) s, live s -> (forall s' k, live s' -> goes (g k) s') -> goes (bind (match_key_text c n) g) s.
  Proof.
    intros B n g s L H. apply goes_bind; [eapply goes_returns; apply (returns_match c (OVal (VStr n)) n s pat); reflexivity|].
    intros s' k X. apply H. eapply live_logs; [apply (logs_match_key c (fun _ => True))|exact L|exact X].
  Qed.

  Lemma link_decides : forall h, reachable w fname h -> h <> open_root fname -> exists b, isHdf5Link w h = Ok b.
  Proof.
    intros h Hr Hn. pose proof Hr as [k K]. apply chain_below in K. destruct (below_path w fname f Hfile Hplain _ K) as [p [A [B [C [D [F G]]]]]].
    destruct p as [|n p _] using rev_ind; [destruct (Hn (F eq_refl))|].
    assert (P : p ++ [n] <> []) by (destruct p; discriminate). unfold isHdf5Link, dirname_comps. rewrite D, (proj1 (path_comps_text _ P B)), A, removelast_last, last_last.
    apply leads_app in C as [m [C1 C2]]. apply Forall_app in B as [B1 B2].
    destruct (resolve_known w fname f Hfile Hplain Hopen p (root_handle fname) B1 (root_known w fname)) as [[t [T1 [T2 T3]]]|[_ X]].
    - rewrite T1. cbn [rbind]. rewrite (links_known w fname f Hfile t T2). rewrite (leads_fun _ _ _ _ T3 _ C1).
      inversion C2 as [|? ? ? o ? D1 D2 D3|? ? ? tx o ? D1 D2 D3]; subst; rewrite D1; eauto.
    - exfalso. exact (X _ C1).
  Qed.

  Lemma name_goes : forall i it0 s, has i it0 -> live s -> goes (item_name_verify c i) s.
  Proof.
    intros i it0 s H L. unfold item_name_verify. destruct (live_item _ _ _ L H) as [it [Hi [I1 [I2 [I3 [I4 [I5 I6]]]]]]].
    eapply goes_bind_item; [exact Hi|]. rewrite I1. destruct (it_parent it0) as [pi|] eqn:Ep; [|apply goes_ret].
    destruct (name_done it); [apply goes_ret|]. rewrite I4, I5.
    destruct (it_obj it0) as [h|v] eqn:Eo.
    - destruct (node_addr_no_at _ _ _ H Eo) as [a [A1 A2]]. rewrite A1.
      assert (N1 : endswith a (py "@NX_class") = false).
      { destruct (endswith a (py "@NX_class")) eqn:X; auto. apply endswith_spec in X as [d ->]. exfalso. apply A2. apply in_or_app. right. left. reflexivity. }
      rewrite N1. assert (N2 : has_char ch_at (it_cp it0) = false).
      { destruct (has_char ch_at (it_cp it0)) eqn:X; auto. apply has_char_spec in X. exfalso. exact (node_cp_no_at _ _ _ H Eo X). }
      rewrite N2, I2. assert (B : exists b, is_named_object c (ONode h) = Ok b).
      { unfold is_named_object. destruct (_ || _); eauto. cbn [hobj_islink]. apply link_decides; [eapply node_reach; eauto|].
        intros ->. destruct (node_path _ _ _ H Eo) as [p [_ [P [_ [Y [_ [Z _]]]]]]].
        assert (H0 : p = []) by (apply path_text_inj; [apply nice_link; exact P|constructor|exact (eq_sym Y)]).
        apply Z in H0. subst i. destruct (ci_origin _ _ HI _ _ H) as [X1 X2 X3|q qit hp h' name X1 X2 X3 X4 X5 X6|q qit h' k v X1 X2 X3 X4 X5]; [congruence|lia|lia]. }
      destruct B as [b B]. eapply goes_bind_lift; [exact B|]. destruct b; [|destruct (str_eqb _ _); [apply goes_ret|apply goes_record; eapply live_there; eauto]].
      unfold handle_groups_and_fields. eapply goes_bind_item; [exact Hi|]. rewrite I3.
      assert (N : exists n, it_name it0 = Some n).
      { destruct (ci_origin _ _ HI _ _ H) as [X1 X2 X3|q qit hp h' name X1 X2 X3 X4 X5 X6|q qit h' k v X1 X2 X3 X4 X5].
        - apply node_item_spec in X3 as [_ [_ [_ [_ X3]]]]. eauto.
        - apply node_item_spec in X6 as [_ [_ [_ [_ X6]]]]. eauto.
        - subst it0. destruct (attr_item_spec q qit v (Some k)) as [Y _]. congruence. }
      destruct N as [n ->]. unfold match_key_name. apply goes_match; auto. intros s' k L'.
      destruct (contains_sub _ _); [apply goes_record; eapply live_there; eauto|].
      destruct k as [k|]; [destruct (startswith _ _)|]; apply goes_record; eapply live_there; eauto.
    - destruct (attr_own _ _ _ H Eo) as [p [pit [h [k [P1 [P2 [P3 [P4 [P5 P6]]]]]]]]].
      destruct (attr_item_spec p pit v (Some k)) as [_ [_ [Q1 [Q2 _]]]]. rewrite <- P4 in Q1, Q2. rewrite Ep in Q1. inversion Q1; subst pi. clear Q1.
      assert (KEY : match it_addr it0 with Some a => endswith a (py "@NX_class") | None => false end = true -> k = py "NX_class").
      { intros X. rewrite P4 in X. unfold attr_item in X. destruct (str_eqb _ _); cbn [it_addr] in X; [discriminate|]. apply endswith_spec in X as [d X].
        destruct (node_addr_no_at _ _ _ P1 P2) as [a [A1 A2]]. rewrite A1 in X. cbn [ostr] in X. change ([ch_at] ++ k) with (64%N :: k) in X. symmetry in X. change (py "@NX_class") with (64%N :: py "NX_class") in X.
        apply at_split in X; [symmetry; apply X|exact A2|]. exact (ga_name _ _ _ _ _ _ _ P6). }
      destruct (match it_addr it0 with Some a => endswith a (py "@NX_class") | None => false end).
      + specialize (KEY eq_refl). subst k. unfold handle_NX_class. eapply goes_bind_item; [exact Hi|].
        destruct (rd_patterns _ _ _ _ _ R) as [_ [l [L1 [L2 L3]]]]. unfold class_patterns in L1. change (u_patterns u) with (c_patterns c) in L1.
        eapply goes_bind_lift; [unfold dgetitem; rewrite L1; reflexivity|].
        pose proof (ga_checkable _ _ _ _ _ _ _ P6) as C. assert (T : exists x, decode_byte_string E v = Ok (VStr x)).
        { inversion C; subst; eauto; match goal with X : ~ In _ _ |- _ => exfalso; apply X; simpl; auto end. }
        destruct T as [x T]. apply goes_bind.
        * eapply goes_returns. apply (returns_first c _ x).
          -- clear - L3. generalize 0. induction L3 as [|q l Hq HF IH]; intros n; constructor; auto.
          -- rewrite I2. cbn [decode_obj]. change (c_env c) with E. rewrite T. reflexivity.
        * intros s' m X. assert (L' : live s').
          { eapply live_logs; [apply (logs_first_match c (fun _ => True)); apply (enum_patterns_keys c l l 0 L1); reflexivity|exact L|exact X]. }
          destruct m as [[k' p']|]; [apply goes_record; eapply live_there; eauto|]. destruct (rev l) as [|y l'] eqn:Er; [|apply goes_record; eapply live_there; eauto].
          exfalso. apply L2. rewrite <- (rev_involutive l), Er. reflexivity.
      + destruct (has_char ch_at (it_cp it0)).
        * destruct (live_item _ _ _ L P1) as [pit' [Hp [_ [J2 [_ [J4 _]]]]]]. eapply goes_bind_item; [exact Hp|].
          assert (B : exists b, isNeXusLinkTarget c pit' = Ok b).
          { unfold isNeXusLinkTarget. rewrite J2, P2. cbn [hobj_attrs rbind]. change (c_world c) with w. destruct (dget (py "target") (attrs_of w h)) as [tv|] eqn:Et; [|eauto].
            apply dget_In in Et. destruct (ga_decodes _ _ _ _ _ _ _ (rd_attributes _ _ _ _ _ R _ _ _ P5 Et)) as [x Hx]. change (c_env c) with E. fold E in Hx. rewrite Hx. cbn [rbind].
            destruct x, (it_addr pit'); eauto. }
          destruct B as [b B]. eapply goes_bind_lift; [exact B|]. destruct b; [apply goes_ret|]. unfold handle_any_attribute. eapply goes_bind_item; [exact Hi|].
          rewrite I3, Q2. unfold match_key_name. apply goes_match; auto. intros s' k' L'. apply goes_record. eapply live_there; eauto.
        * rewrite I2. eapply goes_bind_lift; [reflexivity|]. cbn iota. destruct (str_eqb _ _); [apply goes_ret|apply goes_record; eapply live_there; eauto].
  Qed.

  Lemma attribute_goes : forall i it0 s, has i it0 -> live s -> goes (attribute_verify c i) s.
  Proof.
    intros i it0 s H L. destruct (live_item _ _ _ L H) as [it [Hi [I1 [I2 [I3 [I4 [I5 I6]]]]]]].
    destruct (it_obj it0) as [h|v] eqn:Eo.
    - destruct (node_addr_no_at _ _ _ H Eo) as [a [A1 A2]]. unfold attribute_verify. eapply goes_bind_item; [exact Hi|]. rewrite I4, A1.
      destruct (has_char ch_at a) eqn:X; [apply has_char_spec in X; contradiction|]. apply goes_ret.
    - destruct (attr_own _ _ _ H Eo) as [p [pit [h [k [P1 [P2 [P3 [P4 [P5 P6]]]]]]]]].
      destruct (attr_item_spec p pit v (Some k)) as [_ [_ [Q1 [Q2 _]]]]. rewrite <- P4 in Q1, Q2.
      destruct (it_addr it0) as [a|] eqn:Ea; [|unfold attribute_verify; eapply goes_bind_item; [exact Hi|]; rewrite I4; apply goes_ret].
      assert (Hat : In 64%N a). { rewrite P4 in Ea. unfold attr_item in Ea. destruct (str_eqb _ _); cbn [it_addr] in Ea; [discriminate|]. inversion Ea. apply in_or_app. right. left. reflexivity. }
      destruct (live_item _ _ _ L P1) as [pit' [Hp [_ [J2 _]]]].
      destruct (proj2 (attribute_check_total c pat root_group i s it pit' p h v a k Hi (eq_trans I1 Q1) Hp (eq_trans J2 P2) I2 I4 Hat (eq_trans I3 Q2)) (ga_checkable _ _ _ _ _ _ _ P6)) as [s' X].
      exists s', tt. exact X.
  Qed.

  Lemma step1_goes : forall s, live s -> goes (step1 c) s.
  Proof.
    intros s L. unfold step1. apply goes_bind_get. apply goes_for_each with (I := live); auto.
    - intros i s' Hin L'. rewrite (live_cp _ L) in Hin. eapply Permutation_in in Hin; [|apply (ci_cpperm _ _ HI)]. apply in_seq in Hin as [_ Hin]. simpl in Hin.
      apply nth_error_Some in Hin. destruct (nth_error (st_items s1) i) as [it0|] eqn:H; [|congruence]. clear Hin. fold (has i it0) in H.
      unfold check_item. apply goes_bind; [eapply name_goes; eauto|]. intros s2 x X. eapply attribute_goes; eauto. eapply live_logs; [apply item_name_verify_logs|exact L'|exact X].
    - intros i s' s2 r _ L' X. eapply live_logs; [apply check_item_logs|exact L'|exact X].
  Qed.

  (** ** Step 2 *)
  Lemma live_class : forall s n d', live s -> dget n (st_classes s) = Some d' -> exists d, dget n cl = Some d /\ strip_def d' = strip_def d.
  Proof.
    intros s n d' [_ [_ X]] H. rewrite classes1 in X. apply (strip_get _ _ n) in X. rewrite H in X. destruct (dget n cl) as [d|]; cbn [option_map] in X; [|discriminate].
    exists d. split; auto. congruence.
  Qed.
  Lemma live_class_some : forall s n d, live s -> dget n cl = Some d -> exists d', dget n (st_classes s) = Some d' /\ strip_def d' = strip_def d.
  Proof.
    intros s n d [_ [_ X]] H. rewrite classes1 in X. apply (strip_get _ _ n) in X. rewrite H in X. destruct (dget n (st_classes s)) as [d'|]; cbn [option_map] in X; [|discriminate].
    exists d'. split; auto. congruence.
  Qed.

  Lemma same_item : forall i it h, has i it -> it_obj it = ONode h -> forall k v, In (k, v) (attrs_of w h) -> exists j, has j (attr_item i it v (Some k)).
  Proof.
    intros i it h H Ho k v Hin. destruct (rec_all h (node_reach _ _ _ H Ho)) as [i' [it' [A [B C]]]].
    assert (i' = i). { eapply oaddrs_unique; [exact unique|exact A|exact H| |]; eapply node_addr; try exact HI; eauto. }
    subst i'. rewrite H in A. inversion A; subst it'. destruct (C k v Hin) as [j J]. exists j. exact J.
  Qed.
  Lemma reach_item : forall h, reachable w fname h -> exists i it, has i it /\ it_obj it = ONode h /\ it_addr it = Some (h_name h).
  Proof. intros h Hr. destruct (rec_all h Hr) as [i [it [A [B _]]]]. exists i, it. split; auto. split; auto. eapply node_addr; [exact HI|exact A|exact B]. Qed.

  Lemma carrier_cp : forall p pit hp, carrier (st_items s1) p pit hp -> it_cp pit = non_nexus \/ it_obj pit = ONode hp.
  Proof.
    intros p pit hp [A B|q qit v k A1 A2 A3 A4 A5 A6]; [auto|]. left. subst pit. unfold attr_item. rewrite A5, str_eqb_refl. reflexivity.
  Qed.

  Lemma group_known_class : forall i it h, has i it -> it_obj it = ONode h -> isHdf5Group w h = true -> it_cp it <> non_nexus ->
    exists cls, it_nxclass it = Some cls /\ nexus_class E (attrs_of w h) cls /\ startswith (it_cp it) (py "/NX") = true.
  Proof.
    intros i it h H Ho Hg Hc. assert (Hi : i <> 0).
    { intros ->. destruct (node_path _ _ _ H Ho) as [p [_ [_ [_ [_ [_ [_ [Z _]]]]]]]]. rewrite (Z eq_refl) in Hg. unfold isHdf5Group in Hg. cbn in Hg. rewrite andb_false_r in Hg. discriminate. }
    destruct (ci_origin _ _ HI _ _ H) as [X1 X2 X3|q qit hp h' name X1 X2 X3 X4 X5 X6|q qit h' k v X1 X2 X3 X4 X5]; [lia| |subst it; destruct (attr_item_spec q qit v (Some k)) as [Y _]; congruence].
    pose proof (node_item_spec _ _ _ _ _ X6) as [N1 _]. assert (h' = h) by congruence. subst h'.
    assert (K : kept_name (it_cp it)). { eapply (cinv_group_class u w fname); [exact HI|exact H|exact Ho|auto]. }
    assert (NS : startswith (it_cp it) (py "/NX") = true).
    { destruct K as [K|[[t K]|K]]; [|rewrite K; reflexivity|contradiction]. exfalso.
      destruct (node_path _ _ _ H Ho) as [p [_ [_ [_ [_ [_ [Z [_ [_ P]]]]]]]]]. destruct (class_parts _ _ P) as [Y|[l [L1 [L2 L3]]]]; [contradiction|].
      rewrite K in L3. destruct l as [|x l]; [|discriminate]. destruct p; [|discriminate]. apply Hi, Z. reflexivity. }
    unfold node_item in X6. destruct (determine_NeXus_classpath _ _ _ _ _) as [[cp nc]|e] eqn:Ed; [|discriminate].
    cbn [rbind] in X6. destruct (identify_object_type _ _ _); [|discriminate]. cbn [rbind] in X6. inversion X6; subst it. cbn [it_nxclass it_cp fst snd] in *. clear X6.
    unfold determine_NeXus_classpath in Ed.
    match type of Ed with (if str_eqb ?n slash then _ else _) = _ => destruct (str_eqb n slash) end; [exfalso; injection Ed as <- _; vm_compute in NS; congruence|]. cbn [option_map snd] in Ed.
    destruct (str_eqb_spec (it_cp qit) NON_NEXUS) as [Y|Y]; [inversion Ed; subst; destruct (Hc eq_refl)|].
    destruct (endswith (it_cp qit) slash) eqn:Es.
    { exfalso. apply endswith_spec in Es. destruct (carrier_cp _ _ _ X2) as [Z|Z]; [contradiction|]. pose proof (carrier_nth _ _ _ _ X2) as Hq.
      destruct (node_cp _ _ _ Hq Z) as [W|[l [L1 L2]]]; [contradiction|]. rewrite L2 in Es. exact (parts_no_slash_end _ L1 Es). }
    change (c_world c) with w in Ed. change (c_env c) with E in Ed. rewrite Hg in Ed. destruct (dget (py "NX_class") (attrs_of w h)) as [v|] eqn:Ev.
    - destruct (decode_byte_string E v) as [x|] eqn:Dv; [|discriminate]. cbn [rbind] in Ed. destruct x; try (inversion Ed; subst; destruct (Hc eq_refl); fail).
      destruct (startswith s (py "NX")) eqn:Sx; inversion Ed; subst; [|destruct (Hc eq_refl)]. exists s. split; auto. split; auto. apply startswith_spec in Sx as [t ->]. exists v, t. auto.
    - cbn [rbind] in Ed. inversion Ed; subst. destruct (Hc eq_refl).
  Qed.

  Definition grouplike (h : handle) : Prop := isHdf5Group w h = true \/ h = open_root fname.
  Lemma grouplike_obj : forall h, grouplike h -> is_group_obj w h = true.
  Proof. intros h [H| ->]; [apply isHdf5Group_obj; auto|apply root_group]. Qed.

  Lemma group_class_ok : forall i it h, has i it -> it_obj it = ONode h -> grouplike h -> it_cp it <> non_nexus ->
    exists cls, group_class it = Ok cls /\ class_of E w fname h cls.
  Proof.
    intros i it h H Ho Hg Hc. unfold group_class. destruct Hg as [Hg|Hg].
    - destruct (group_known_class _ _ _ H Ho Hg Hc) as [cls [A [B C]]]. exists cls. rewrite C, A. split; auto. right. auto.
    - subst h. exists (py "NXroot"). split; [|left; auto]. assert (it_cp it = []).
      { destruct (node_path _ _ _ H Ho) as [p [_ [P [_ [Y [_ [Z [_ [_ W]]]]]]]]].
        assert (p = []) by (apply path_text_inj; [apply nice_link; exact P|constructor|exact (eq_sym Y)]). subst p.
        destruct (class_parts _ _ W) as [V|[l [L1 [L2 L3]]]]; [contradiction|]. destruct l; [exact L3|discriminate]. }
      rewrite H0. reflexivity.
  Qed.

  Lemma in_text : forall h x, is_group_obj w h = true -> exists b, hobj_in (c_world c) (VStr x) (ONode h) = Ok b.
  Proof. intros h x H. eexists. cbn [hobj_in]. apply (group_in w h x H). Qed.

  Lemma child_exists_goes : forall t x it h ai s, it_obj it = ONode h -> is_group_obj w h = true -> (exists a, it_addr it = Some a) -> there ai s -> goes (child_exists c t (VStr x) it ai) s.
  Proof.
    intros t x it h ai s Ho Hg [a Ha] T. unfold child_exists. rewrite Ho. destruct (in_text h x Hg) as [b B]. eapply goes_bind_lift; [exact B|].
    rewrite Ha. eapply goes_bind_lift; [reflexivity|]. eapply goes_bind_lift; [reflexivity|]. apply goes_record. auto.
  Qed.

  Lemma logs_true_record : forall i k st cm, logs c (fun _ => True) (record_finding i k st cm).
  Proof. intros. apply logs_record. auto. Qed.

  Lemma goes_then : forall B i k st cm (g : M B) s, live s -> there i s -> (forall s', live s' -> goes g s') -> goes (record_finding i k st cm ;;; g) s.
  Proof.
    intros B i k st cm g s L T H. apply goes_bind; [apply goes_record; auto|]. intros s' x X. apply H. eapply live_logs; [apply logs_true_record|exact L|exact X].
  Qed.

  Lemma group_attribute_goes : forall i it0 h cls d d' kv s, live s -> has i it0 -> it_obj it0 = ONode h -> grouplike h -> it_cp it0 <> non_nexus -> class_of E w fname h cls ->
    dget cls cl = Some d -> strip_def d' = strip_def d -> In kv (attrs_of w h) -> goes (group_attribute c i d' kv) s.
  Proof.
    intros i it0 h cls d d' [k v] s L H Ho Hg Hc Hcls Hd Hs Hin. unfold group_attribute. cbn [fst snd].
    destruct (live_item _ _ _ L H) as [it [Hi [I1 [I2 [I3 [I4 [I5 I6]]]]]]]. eapply goes_bind_item; [exact Hi|].
    pose proof (rd_attributes _ _ _ _ _ R h k v (node_reach _ _ _ H Ho) Hin) as GA. destruct (ga_decodes _ _ _ _ _ _ _ GA) as [x Hx]. change (c_env c) with E. fold E in Hx.
    eapply goes_bind_lift; [exact Hx|]. pose proof (node_addr _ _ HI _ _ _ H Ho) as Ha. rewrite I4, Ha. eapply goes_bind_lift; [reflexivity|].
    destruct (same_item _ _ _ H Ho _ _ Hin) as [j J].
    assert (Ja : it_addr (attr_item i it0 v (Some k)) = Some (h_name h ++ [ch_at] ++ k)).
    { unfold attr_item. destruct (str_eqb_spec (it_cp it0) NON_NEXUS) as [X|X]; [contradiction|]. cbn [it_addr]. rewrite Ha. reflexivity. }
    eapply goes_bind_addr; [exact L|exact J|exact Ja|]. apply goes_then; [exact L|eapply live_there; eauto|]. intros s' L'.
    apply strip_def_eq in Hs as [_ [_ [Hs _]]]. rewrite Hs. destruct (dget k (d_attrs d)) as [spec|] eqn:Ek; [|apply goes_ret].
    apply goes_bind.
    - destruct (na_enums spec) as [|e en] eqn:En; [apply goes_ret|].
      destruct (ga_enum _ _ _ _ _ _ _ GA cls d spec (grouplike_obj _ Hg) Hcls Hd Ek) as [y Hy]; [congruence|]. assert (x = VStr y) by (unfold as_text in Hy; fold E in Hy; congruence). subst x.
      eapply goes_bind_lift; [reflexivity|]. apply goes_record. eapply live_there; eauto.
    - intros s2 y X. assert (L2 : live s2).
      { destruct (na_enums spec) as [|e en]; [inversion X; subst; exact L'|]. apply bind_ok in X as [cmt [s3 [X1 X2]]]. apply lift_ok in X1 as [-> _]. eapply live_logs; [apply logs_true_record|exact L'|exact X2]. }
      destruct (str_eqb_spec k (py "default")) as [Kd|Kd]; cbn [andb].
      { destruct (ga_text _ _ _ _ _ _ _ GA (grouplike_obj _ Hg) (or_introl Kd)) as [z Hz]. assert (x = VStr z) by (unfold as_text in Hz; fold E in Hz; congruence). subst x.
        destruct (_ || _); [eapply child_exists_goes; [rewrite I2; exact Ho|apply grouplike_obj; auto|rewrite I4; eauto|eapply live_there; eauto]|].
        subst k. apply goes_record. eapply live_there; eauto. }
      destruct (str_eqb_spec k (py "signal")) as [Ks|Ks].
      { destruct (ga_text _ _ _ _ _ _ _ GA (grouplike_obj _ Hg) (or_intror Ks)) as [z Hz]. assert (x = VStr z) by (unfold as_text in Hz; fold E in Hz; congruence). subst x.
        eapply child_exists_goes; [rewrite I2; exact Ho|apply grouplike_obj; auto|rewrite I4; eauto|eapply live_there; eauto]. }
      destruct (str_eqb_spec k (py "target")) as [Kt|Kt].
      { exfalso. destruct (proj1 (rd_classes _ _ _ _ _ R) _ _ Hd) as [_ [NT _]]. apply NT. subst k. apply dget_In in Ek. apply in_map_iff. eexists. split; [|exact Ek]. reflexivity. }
      destruct (str_eqb k (py "axes")); [apply goes_ret|apply goes_record; eapply live_there; eauto].
  Qed.

  Lemma group_child_goes : forall h d name s, live s -> reachable w fname h -> In name (dkeys (links_of w h)) -> goes (group_child c h d name) s.
  Proof.
    intros h d name s L Hr Hin. unfold group_child. change (c_world c) with w. destruct (Hopen h name Hr Hin) as [o Ho]. eapply goes_bind_lift; [exact Ho|].
    assert (Hro : reachable w fname o). { destruct Hr as [k K]. exists (S k). apply (chain_snoc _ _ _ name _ _ K). split; auto. }
    destruct (reach_item o Hro) as [j [jt [J1 [J2 J3]]]]. eapply goes_bind_addr; [exact L|exact J1|exact J3|].
    destruct (isHdf5Dataset w o); [|destruct (isHdf5Group w o)]; apply goes_record; eapply live_there; eauto.
  Qed.

  Lemma strip_groups : forall d d' n g', strip_def d' = strip_def d -> In (n, g') (d_groups d') -> exists g, In (n, g) (d_groups d) /\ strip_group g' = strip_group g.
  Proof.
    intros d d' n g' H Hin. assert (X : map (fun ng => (fst ng, strip_group (snd ng))) (d_groups d') = map (fun ng => (fst ng, strip_group (snd ng))) (d_groups d)).
    { destruct d, d'. unfold strip_def, set_d_groups in H. simpl in *. inversion H. auto. }
    assert (Y : In (n, strip_group g') (map (fun ng => (fst ng, strip_group (snd ng))) (d_groups d))) by (rewrite <- X; apply in_map_iff; exists (n, g'); auto).
    apply in_map_iff in Y as [[n2 g] [E1 E2]]. cbn [fst snd] in E1. inversion E1; subst. exists g. auto.
  Qed.
  Lemma strip_group_attrs : forall g g', strip_group g' = strip_group g -> g_attrs g' = g_attrs g /\ g_fields g' = g_fields g.
  Proof. intros [] [] H. simpl in *. inversion H; subst. auto. Qed.

  Lemma base_goes : forall i it0 h cls d d' s, live s -> has i it0 -> it_obj it0 = ONode h -> grouplike h -> dget cls cl = Some d -> strip_def d' = strip_def d ->
    goes (base_class_items_verify c i cls d') s.
  Proof.
    intros i it0 h cls d d' s L H Ho Hg Hd Hs. unfold base_class_items_verify. destruct (live_item _ _ _ L H) as [it [Hi [I1 [I2 [I3 [I4 [I5 I6]]]]]]].
    eapply goes_bind_item; [exact Hi|]. pose proof (node_addr _ _ HI _ _ _ H Ho) as Ha.
    assert (BF : forall n s s' r, live s -> base_field c i it n s = (s', r) -> live s').
    { intros n sa sb r La X. eapply (live_logs (fun _ => True)); [|exact La|exact X]. unfold base_field. apply logs_bind_lift. intros. apply logs_bind_lift. intros. apply logs_true_record. }
    apply goes_bind.
    - apply goes_for_each with (I := live); auto.
      + intros n s' _ L'. unfold base_field. rewrite I2, Ho. destruct (in_text h n (grouplike_obj _ Hg)) as [b B]. eapply goes_bind_lift; [exact B|]. rewrite I4, Ha.
        eapply goes_bind_lift; [reflexivity|]. apply goes_record. eapply live_there; eauto.
      + intros; eapply BF; eauto.
    - intros s2 x X. assert (L2 : live s2).
      { eapply (live_logs (fun _ => True)); [|exact L|exact X]. apply logs_for_each. intros n _. unfold base_field. apply logs_bind_lift. intros. apply logs_bind_lift. intros. apply logs_true_record. }
      apply goes_for_each with (I := live); auto.
      + intros [n g'] s' Hin L'. unfold base_group. cbn [fst snd]. rewrite I2, Ho. destruct (in_text h n (grouplike_obj _ Hg)) as [b B]. eapply goes_bind_lift; [exact B|]. rewrite I4, Ha.
        eapply goes_bind_lift; [reflexivity|]. apply goes_then; [exact L'|eapply live_there; eauto|]. intros s3 L3.
        apply sorted_by_In in Hin. destruct (strip_groups _ _ _ _ Hs Hin) as [g [G1 G2]]. apply strip_group_attrs in G2 as [G2 _].
        assert (Z : exists z, minOccurs_of (c_env c) g' = Ok z).
        { unfold minOccurs_of. rewrite G2. destruct (dget (py "minOccurs") (g_attrs g)) as [a|] eqn:Em; [|eauto].
          destruct (proj1 (rd_classes _ _ _ _ _ R) _ _ Hd) as [_ [_ Q]]. destruct (Q _ _ _ G1 Em) as [y [z [-> Z]]]. exists z. apply int_number. exact Z. }
        destruct Z as [z Z]. eapply goes_bind_lift; [exact Z|]. eexists. eexists. reflexivity.
      + intros [n g'] sa sb r _ La Y. eapply (live_logs (fun _ => True)); [|exact La|exact Y]. unfold base_group. apply logs_bind_lift. intros. apply logs_bind_lift. intros.
        apply logs_bind; [apply logs_true_record|]. intros. apply logs_bind_lift. intros. apply logs_store.
  Qed.

  Lemma used_ok : forall n (cl' : classes), (forall d', dget n cl' = Some d' -> exists d, dget n cl = Some d /\ strip_def d' = strip_def d) -> exists b, usedAsBaseClass cl' n = Ok b.
  Proof.
    intros n cl' H. unfold usedAsBaseClass. destruct (dget n cl') as [d'|]; [|eauto]. destruct (H _ eq_refl) as [d [Hd Hs]].
    apply strip_def_eq in Hs as [_ [A [_ [B [C D]]]]]. rewrite A, B, C, <- (map_length fst (d_groups d')), D, map_length.
    destruct (proj1 (rd_classes _ _ _ _ _ R) _ _ Hd) as [Q _]. destruct (str_eqb_spec (d_category d) (py "applications")); [eauto|].
    destruct (str_eqb_spec (d_category d) (py "base_classes")); [eauto|]. destruct Q as [Q|[Q|[Q|[Q|Q]]]]; try contradiction.
    - destruct (d_fields d); [congruence|]. cbn [List.length Nat.eqb andb]. eauto.
    - destruct (d_links d); [congruence|]. cbn [List.length Nat.eqb]. rewrite andb_false_r. cbn [andb]. eauto.
    - apply Nat.eqb_neq in Q. rewrite Q, andb_false_r. eauto.
  Qed.

  Lemma validate_group_goes : forall i it0 h s, live s -> has i it0 -> it_obj it0 = ONode h -> grouplike h -> goes (validate_group c i) s.
  Proof.
    intros i it0 h s L H Ho Hg. unfold validate_group. destruct (live_item _ _ _ L H) as [it [Hi [I1 [I2 [I3 [I4 [I5 I6]]]]]]]. eapply goes_bind_item; [exact Hi|].
    rewrite I5. destruct (str_eqb_spec (it_cp it0) NON_NEXUS) as [N0|N0]; [apply goes_record; eapply live_there; eauto|].
    destruct (group_class_ok _ _ _ H Ho Hg N0) as [cls [G1 G2]].
    assert (G : group_class it = Ok cls) by (unfold group_class in *; rewrite I5, I6; exact G1). eapply goes_bind_lift; [exact G|].
    assert (VL : logs c (fun _ => True) (validate_NX_class_attribute i cls)).
    { unfold validate_NX_class_attribute. apply logs_bind; [apply logs_get|]. intros. apply logs_bind; [apply logs_true_record|]. intros. destruct (dmem _ _); [|apply logs_ret].
      apply logs_bind_lift. intros. apply logs_bind_lift. intros. apply logs_true_record. }
    apply goes_bind.
    - unfold validate_NX_class_attribute. apply goes_bind_get. apply goes_then; [exact L|eapply live_there; eauto|]. intros s' L'.
      destruct (dmem cls (st_classes s)) eqn:Ek; [|apply goes_ret]. destruct (used_ok cls (st_classes s)) as [b B]; [intros d' X; exact (live_class _ _ _ L X)|].
      eapply goes_bind_lift; [exact B|]. unfold dgetitem. unfold dmem, amem in Ek. unfold dget. destruct (aget str_eqb cls (st_classes s)) as [d|]; [|discriminate].
      eapply goes_bind_lift; [reflexivity|]. apply goes_record. eapply live_there; eauto.
    - intros s2 x X. pose proof (live_logs _ _ _ _ _ _ VL L X) as L2. apply goes_bind_get. destruct (dget cls (st_classes s2)) as [d'|] eqn:Ed; [|apply goes_record; eapply live_there; eauto].
      destruct (live_class _ _ _ L2 Ed) as [d [D1 D2]].
      assert (A1 : forall s s' r, live s -> verify_group_attributes c i d' s = (s', r) -> live s').
      { intros sa sb r La Y. eapply (live_logs (with_key group_key)); [|exact La|exact Y]. unfold verify_group_attributes, group_attribute, child_exists. clear. lg; try done_key. }
      assert (A2 : forall s s' r, live s -> verify_group_children c i d' s = (s', r) -> live s').
      { intros sa sb r La Y. eapply (live_logs (with_key group_key)); [|exact La|exact Y]. unfold verify_group_children, group_child. clear. lg; try done_key. }
      assert (A3 : forall s s' r, live s -> base_class_items_verify c i cls d' s = (s', r) -> live s').
      { intros sa sb r La Y. eapply (live_logs (with_key group_key)); [|exact La|exact Y]. unfold base_class_items_verify, base_field, base_group. clear. lg; try done_key. }
      apply goes_bind.
      + unfold verify_group_attributes. destruct (live_item _ _ _ L2 H) as [it2 [Hi2 [_ [J2 _]]]]. eapply goes_bind_item; [exact Hi2|]. rewrite J2, Ho. eapply goes_bind_lift; [reflexivity|].
        apply goes_for_each with (I := live); auto.
        * intros kv s' Hin L'. apply sorted_by_In in Hin. eapply group_attribute_goes; eauto.
        * intros kv sa sb r _ La Y. eapply (live_logs (with_key group_key)); [|exact La|exact Y]. unfold group_attribute, child_exists. clear. lg; try done_key.
      + intros s3 x3 X3. pose proof (A1 _ _ _ L2 X3) as L3. apply goes_bind.
        * unfold verify_group_children. destruct (live_item _ _ _ L3 H) as [it2 [Hi2 [_ [J2 _]]]]. eapply goes_bind_item; [exact Hi2|]. rewrite J2, Ho.
          apply goes_for_each with (I := live); auto.
          -- intros n s' Hin L'. apply group_child_goes; auto. eapply node_reach; eauto.
          -- intros kv sa sb r _ La Y. eapply (live_logs (with_key group_key)); [|exact La|exact Y]. unfold group_child. clear. lg; try done_key.
        * intros s4 x4 X4. pose proof (A2 _ _ _ L3 X4) as L4. apply goes_bind; [eapply base_goes; eauto|]. intros s5 x5 X5. pose proof (A3 _ _ _ L4 X5) as L5.
          apply goes_record. eapply live_there; eauto.
  Qed.

  Lemma step2_goes : forall s, live s -> goes (step2 c) s.
  Proof.
    intros s L. unfold step2. apply goes_bind_get. apply goes_for_each with (I := live); auto.
    - intros i s' Hin L'. rewrite (live_addr _ L) in Hin. unfold dvals in Hin. apply in_map_iff in Hin as [[a j] [Ej Hin]]. cbn [snd] in Ej. subst j.
      destruct (ci_addrof _ _ HI _ _ Hin) as [it0 [H _]]. fold (has i it0) in H. unfold check_group. destruct (live_item _ _ _ L' H) as [it [Hi [_ [I2 _]]]].
      eapply goes_bind_item; [exact Hi|]. rewrite I2. destruct (hobj_isgroup (c_world c) (it_obj it0) || hobj_isfile (it_obj it0)) eqn:G; [|apply goes_ret].
      destruct (it_obj it0) as [h|v] eqn:Eo; [|discriminate]. eapply validate_group_goes; eauto. cbn [hobj_isgroup hobj_isfile] in G. apply orb_true_iff in G as [G|G]; [left; exact G|].
      right. destruct (node_path _ _ _ H Eo) as [p [_ [_ [_ [_ [_ [_ [Z1 [Z2 _]]]]]]]]]. destruct (Nat.eq_dec i 0); [auto|]. unfold isHdf5FileObject in G. rewrite (Z2 n) in G. discriminate.
    - intros i s' s2 r _ L' X. eapply live_logs; [apply check_group_logs|exact L'|exact X].
  Qed.

  (** ** Step 3 *)
  Lemma slash_last : forall a b x y, ~ In 47%N x -> ~ In 47%N y -> a ++ 47%N :: x = b ++ 47%N :: y -> a = b /\ x = y.
  Proof.
    induction a as [|c0 a IH]; intros [|d b] x y Hx Hy H; cbn [app] in H; inversion H; subst; auto.
    - destruct Hx. apply in_or_app. right. left. auto.
    - destruct Hy. apply in_or_app. right. left. auto.
    - destruct (IH _ _ _ Hx Hy H2) as [-> ->]. auto.
  Qed.

  Lemma child_name : forall p pit g n h x, has p pit -> it_obj pit = ONode g -> member w g n h -> last_component (h_name h) x -> h_name h <> [47%N] -> x = n /\ link_name n.
  Proof.
    intros p pit g n h x H Ho [M1 M2] Hx Hn. destruct (node_path _ _ _ H Ho) as [pp [F [_ [_ [_ _]]]]].
    assert (Hl : link_name n).
    { rewrite (links_members w fname f Hfile g F) in M1. apply in_map_iff in M1 as [[n' t] [En M1]]. cbn [fst] in En. subst n'. exact (proj1 (Hplain _ _ _ M1)). }
    split; auto. destruct (getitem_member w fname f Hfile Hplain _ _ _ F Hl M2) as [_ [_ [X _]]].
    assert (Y : exists d, h_name h = d ++ 47%N :: n). { rewrite X. unfold child_path. destruct (str_eqb (h_name g) slash); [exists []|exists (h_name g)]; reflexivity. }
    destruct Y as [d Y]. destruct Hx as [[A _]|[_ [A B]]]; [contradiction|]. destruct B as [B|[d' B]].
    - exfalso. apply A. rewrite <- B, Y. apply in_or_app. right. left. auto.
    - rewrite Y in B. destruct (slash_last _ _ _ _ (proj1 (proj2 Hl)) A B). auto.
  Qed.

  Lemma class_step : forall i it h l x, has i it -> it_obj it = ONode h -> it_cp it = parts_text (l ++ [x]) -> Forall plain_part (l ++ [x]) ->
    exists p pit g n, it_parent it = Some p /\ has p pit /\ it_obj pit = ONode g /\ it_cp pit = parts_text l /\ member w g n h
      /\ (isHdf5Group w h = true /\ nexus_class E (attrs_of w h) x \/ isHdf5Group w h = false /\ n = x).
  Proof.
    intros i it h l x H Ho Hc HP. rewrite parts_snoc in Hc. apply Forall_app in HP as [HP1 HP2]. inversion HP2 as [|? ? HPx _]; subst. destruct HPx as [PX1 [PX2 PX3]].
    destruct (cinv_item_class u w fname _ HI _ _ H) as [fl H1 H2 H3 H4|p pit g n h0 name H1 H2 H3 H4 H5 H6 H7 H8|p pit g n h0 H1 H2 H3 H4 H5 H6 H7|p pit h0 k0 val0 H1 H2 H3 H4 H5|p pit h0 k0 val0 H1 H2 H3 H4 H5]; try congruence.
    - rewrite H3 in Hc. destruct (parts_text l); discriminate.
    - assert (h0 = h) by congruence. subst h0.
      assert (NN : it_cp it <> non_nexus) by (rewrite Hc, <- parts_snoc; apply parts_not_non_nexus).
      assert (Hpn : it_cp pit <> non_nexus).
      { intros X. inversion H8 as [A|cls A B C D|A B C D|A B C|A B]; try contradiction; apply NN; symmetry; assumption. }
      destruct H2 as [H2 S2]. fold (has p pit) in H2. assert (Hg : it_obj pit = ONode g).
      { destruct S2 as [S2|[q [qit [val [S2 [S3 [S4 [S5 S6]]]]]]]]; auto. exfalso. apply Hpn.
        destruct (attr_own _ _ _ H2 S5) as [q2 [qit2 [h2 [k2 [Q1 [Q2 [Q3 [Q4 _]]]]]]]]. assert (q2 = q) by (rewrite Q4 in S6; unfold attr_item in S6; destruct (str_eqb _ _); cbn [it_parent] in S6; congruence).
        subst q2. unfold has in Q1. rewrite S2 in Q1. inversion Q1; subst qit2. rewrite Q4. unfold attr_item. rewrite S4, str_eqb_refl. reflexivity. }
      exists p, pit, g, n. split; auto. split; auto. split; auto. destruct (child_name _ _ _ _ _ _ H2 Hg H4 H6 H7) as [-> Hl].
      inversion H8 as [A B|cls A B C D F|A B C D F|A B C F|A B F]; try contradiction.
      + rewrite <- F in Hc. assert (~ In 47%N cls). { apply (rd_class_names _ _ _ _ _ R h cls); [exact (node_reach _ _ _ H Ho)|exact D]. }
        destruct (slash_last _ _ _ _ H0 PX2 Hc) as [-> ->]. split; auto.
      + exfalso. apply NN. congruence.
      + rewrite <- F in Hc. destruct (slash_last _ _ _ _ (proj1 (proj2 Hl)) PX2 Hc) as [-> ->]. split; auto. split; auto. right. split; auto. destruct (isHdf5Group w h); auto. destruct C. auto.
      + exfalso. destruct (node_cp _ _ _ H2 Hg) as [W|[l2 [L1 L2]]]; [contradiction|]. rewrite L2 in B. exact (parts_no_slash_end _ L1 B).
    - rewrite H7 in Hc. destruct (parts_text l); discriminate.
  Qed.

  Lemma class_node : forall i it l, has i it -> it_cp it = parts_text l -> Forall plain_part l -> exists h, it_obj it = ONode h.
  Proof.
    intros i it l H Hc HP. destruct (it_obj it) as [h|v] eqn:Ho; [eauto|]. exfalso. destruct (attr_own _ _ _ H Ho) as [p [pit [h [k [A [B [C [D _]]]]]]]].
    rewrite D in Hc. unfold attr_item in Hc. destruct (str_eqb (it_cp pit) NON_NEXUS); cbn [it_cp] in Hc; [apply (parts_not_non_nexus l); auto|].
    apply (parts_no_at _ HP). rewrite <- Hc. apply in_or_app. right. left. reflexivity.
  Qed.

  Lemma parent_is_group : forall p pit g n h, has p pit -> it_obj pit = ONode g -> member w g n h -> it_cp pit <> [] -> isHdf5Group w g = true.
  Proof.
    intros p pit g n h H Ho M0 Hc. eapply member_group; [exact M0|]. destruct (node_path _ _ _ H Ho) as [pp [_ [_ [_ [_ [_ [Z [Z1 [Z2 P]]]]]]]]].
    apply Z2. intros ->. apply Hc. rewrite (proj2 Z eq_refl) in P. inversion P; auto. destruct p; discriminate.
  Qed.

  Lemma definition_checkable : forall g pit cls', it_obj pit = ONode g -> reachable w fname g -> good_definition_field E w cl g ->
    (forall n, option_map strip_def (dget n cls') = option_map strip_def (dget n cl)) -> checkable E w cls' pit.
  Proof.
    intros g pit cls' Ho Hr [name [HF HD]] HS. exists g, name. split; auto. split; auto. pose proof (HS name) as X. destruct HD as [HD|[d [k [entry [rest [D1 [D2 D3]]]]]]].
    - left. rewrite HD in X. destruct (dget name cls'); [discriminate|reflexivity].
    - right. rewrite D1 in X. destruct (dget name cls') as [d'|]; [|discriminate]. cbn [option_map] in X. assert (Y : strip_def d' = strip_def d) by congruence.
      assert (Z : map (fun ng => (fst ng, strip_group (snd ng))) (d_groups d') = map (fun ng => (fst ng, strip_group (snd ng))) (d_groups d)).
      { destruct d, d'. unfold strip_def, set_d_groups in Y. simpl in *. inversion Y. auto. }
      rewrite D2 in Z. destruct (d_groups d') as [|[k' entry'] rest'] eqn:Eg; [discriminate|]. cbn [map fst snd] in Z.
      exists d', k', entry', rest'. split; auto. split; auto. assert (Q : strip_group entry' = strip_group entry) by (exact (f_equal snd (f_equal (hd (k, strip_group entry)) Z))). apply strip_group_attrs in Q as [_ Q].
      intros field spec Hin. rewrite Q in Hin. destruct (D3 _ _ Hin) as [Hl He].
      assert (Hfg : h_file g = fname) by (eapply reachable_file; eauto).
      destruct (getopt_leads w fname f Hfile Hplain Hopen g field) as [o [O1 _]]; [split; auto; exists g; auto|apply Hl|].
      exists o. split; auto. split.
      + intros t ->. unfold getopt in O1. destruct (getitem w g field) as [t'|e] eqn:Eg2; [|destruct e; discriminate]. inversion O1; subst t'.
        assert (Hm : member w g field t).
        { split; auto. rewrite (links_members w fname f Hfile g Hfg). destruct (getitem_member w fname f Hfile Hplain _ _ _ Hfg Hl Eg2) as [_ [A _]].
          inversion A as [|? ? ? o2 ? E1 E2 E3|? ? ? tx o2 ? E1 E2 E3]; subst; apply in_map_iff; apply dget_In in E1; eexists; (split; [|exact E1]); reflexivity. }
        eapply (node_ok c fname ready_described); [|discriminate]. destruct Hr as [m K]. exists (S m). apply (chain_snoc _ _ _ field _ _ K). exact Hm.
      + intros Hne. destruct (He Hne) as [t [x [T1 [T2 T3]]]]. exists t, x. split; auto. unfold getopt in O1. rewrite T1 in O1. congruence.
  Qed.

  Lemma definition_goes : forall i it l s, live s -> has i it -> it_cp it = parts_text (l ++ [py "definition"]) -> Forall plain_part (l ++ [py "definition"]) ->
    (exists l0 c0, l = l0 ++ [c0] /\ (c0 = py "NXentry" \/ c0 = py "NXsubentry")) -> goes (check_definition c i) s.
  Proof.
    intros i it l s L H Hc HP [l0 [c0 [-> Hc0]]]. destruct (class_node _ _ _ H Hc HP) as [h Ho].
    destruct (class_step _ _ _ _ _ H Ho Hc HP) as [p [pit [g [n [P1 [P2 [P3 [P4 [P5 P6]]]]]]]]]. apply Forall_app in HP as [HP _].
    destruct P6 as [[_ [vv [t [_ [_ X]]]]]|[P6 ->]]; [discriminate|].
    assert (Hg : isHdf5Group w g = true). { eapply parent_is_group; eauto. rewrite P4, parts_snoc. destruct (parts_text l0); discriminate. }
    destruct (class_step _ _ _ _ _ P2 P3 P4 HP) as [q [qit [g2 [n2 [_ [_ [_ [_ [_ Q6]]]]]]]]]. destruct Q6 as [[_ Q6]|[Q6 _]]; [|congruence].
    pose proof (node_reach _ _ _ P2 P3) as Hr.
    assert (GD : good_definition_field E w cl g) by (eapply (rd_definitions _ _ _ _ _ R); eauto; destruct Hc0; subst c0; auto).
    unfold check_definition. destruct (live_item _ _ _ L H) as [it1 [Hi [I1 _]]]. eapply goes_bind_item; [exact Hi|]. rewrite I1, P1.
    destruct (live_item _ _ _ L P2) as [pit1 [Hp [_ [J2 _]]]].
    assert (V : snd (application_definition_verify c p s) = Ok tt).
    { apply (verify_completes c p s pit1 Hp). eapply definition_checkable; [rewrite J2; exact P3|exact Hr|exact GD|]. intros m. destruct L as [_ [_ X]]. rewrite classes1 in X. exact (strip_get _ _ m X). }
    destruct (application_definition_verify c p s) as [s' r] eqn:Ev. cbn [snd] in V. subst r. exists s', tt. exact Ev.
  Qed.

  Lemma step3_goes : forall s, live s -> goes (step3 c) s.
  Proof.
    intros s L. unfold step3. apply goes_bind_get. apply goes_for_each with (I := live); auto.
    - intros i s' Hin L'. rewrite (live_cp _ L) in Hin. apply in_flat_map in Hin as [k [Hk Hin]]. destruct (dget k (st_cp s1)) as [l|] eqn:Ek; [|destruct Hin].
      apply dget_In in Ek. destruct (ci_cpof _ _ HI _ _ _ Ek Hin) as [it [Hi Hcp]].
      assert (PP : forall x : list pystr, forallb (fun y => negb (str_eqb y []) && negb (has_char 47%N y) && negb (has_char 64%N y)) x = true -> Forall plain_part x).
      { intros x X. apply Forall_forall. intros y Hy. rewrite forallb_forall in X. specialize (X _ Hy). apply andb_true_iff in X as [X X3]. apply andb_true_iff in X as [X1 X2].
        split; [intros ->; discriminate|]. split; intros Z; [apply has_char_spec in Z; rewrite Z in X2|apply has_char_spec in Z; rewrite Z in X3]; discriminate. }
      destruct Hk as [Hk|[Hk|[]]]; subst k.
      + eapply (definition_goes i it [py "NXentry"]); [exact L'|exact Hi|rewrite Hcp; reflexivity|apply PP; reflexivity|exists [], (py "NXentry"); auto].
      + eapply (definition_goes i it [py "NXentry"; py "NXsubentry"]); [exact L'|exact Hi|rewrite Hcp; reflexivity|apply PP; reflexivity|exists [py "NXentry"], (py "NXsubentry"); auto].
    - intros i s' s2 r _ L' X. eapply live_logs; [apply check_definition_logs|exact L'|exact X].
  Qed.

  (** ** Step 4 *)
  Lemma at_cp : forall i it a k, has i it -> it_cp it = a ++ 64%N :: k -> ~ In 64%N k ->
    exists p pit h v, has p pit /\ it_obj pit = ONode h /\ it_cp pit <> non_nexus /\ In (k, v) (attrs_of w h) /\ it_cp pit = a /\ it = attr_item p pit v (Some k)
      /\ it_parent it = Some p /\ it_addr it = Some (h_name h ++ 64%N :: k) /\ good_attribute E w fname cl h k v.
  Proof.
    intros i it a k H Hc Hk. destruct (it_obj it) as [h|v] eqn:Ho.
    - exfalso. apply (node_cp_no_at _ _ _ H Ho). rewrite Hc. apply in_or_app. right. left. auto.
    - destruct (attr_own _ _ _ H Ho) as [p [pit [h [k' [A [B [C [D [_ G]]]]]]]]]. pose proof (node_addr _ _ HI _ _ _ A B) as Ha.
      assert (X : it_cp pit <> non_nexus /\ it_cp it = it_cp pit ++ 64%N :: k' /\ it_parent it = Some p /\ it_addr it = Some (h_name h ++ 64%N :: k')).
      { rewrite D in Hc |- *. unfold attr_item in *. destruct (str_eqb_spec (it_cp pit) NON_NEXUS) as [Y|Y].
        - exfalso. cbn [it_cp] in Hc. assert (Z : In 64%N NON_NEXUS) by (rewrite Hc; apply in_or_app; right; left; auto).
          vm_compute in Z. repeat (destruct Z as [Z|Z]; [congruence|]). destruct Z.
        - cbn [it_cp it_parent it_addr]. rewrite Ha. auto. }
      destruct X as [X1 [X2 [X3 X4]]]. rewrite X2 in Hc. assert (Z : it_cp pit = a /\ k' = k).
      { assert (Hk' : ~ In 64%N k'). { pose proof (ga_name _ _ _ _ _ _ _ G) as Q. exact Q. }
        destruct (at_split _ _ _ _ (node_cp_no_at _ _ _ A B) Hk' (eq_sym Hc)). auto. }
      destruct Z as [Z1 Z2]. subst k'. exists p, pit, h, v. repeat (split; [auto; fail|]). auto.
  Qed.

  Lemma group_attribute_text : forall h k, reachable w fname h -> is_group_obj w h = true -> k = py "default" \/ k = py "signal" -> forall v, dget k (attrs_of w h) = Some v ->
    exists s, decode_byte_string E v = Ok (VStr s) /\ good_attribute E w fname cl h k v.
  Proof.
    intros h k Hr Hg Hk v Hv. apply dget_In in Hv. pose proof (rd_attributes _ _ _ _ _ R h k v Hr Hv) as G. destruct (ga_text _ _ _ _ _ _ _ G Hg Hk) as [s Hs]. exists s. split; auto.
  Qed.
  Lemma points_ok : forall it h k t, it_obj it = ONode h -> reachable w fname h -> is_group_obj w h = true -> k = py "default" \/ k = py "signal" ->
    exists b, attribute_points_at_target c it k t = Ok b.
  Proof.
    intros it h k t Ho Hr Hg Hk. unfold attribute_points_at_target. rewrite Ho. cbn [hobj_attrs rbind]. change (c_world c) with w. change (c_env c) with E.
    destruct (dget k (attrs_of w h)) as [v|] eqn:Ev; [|eauto]. destruct (group_attribute_text _ _ Hr Hg Hk _ Ev) as [x [Hx _]].
    cbn [node_name rbind]. unfold build_h5_address. rewrite Hx. cbn [rbind concat_text]. match goal with |- context [hobj_in w (VStr ?y) (ONode h)] => destruct (in_text h y Hg) as [b B] end.
    change (c_world c) with w in B. rewrite B. cbn [rbind]. destruct b; eauto.
  Qed.

  Lemma signal_path : forall i it, has i it -> it_cp it = py "/NXentry/NXdata@signal" ->
    exists p pit g q qit e r rit v n0 n1, has p pit /\ it_obj pit = ONode g /\ it_addr pit = Some (h_name g) /\ has q qit /\ it_obj qit = ONode e /\ it_addr qit = Some (h_name e)
      /\ has r rit /\ it_obj rit = ONode (open_root fname) /\ it_addr rit = Some slash /\ isHdf5Group w g = true /\ isHdf5Group w e = true /\ nexus_class E (attrs_of w g) (py "NXdata")
      /\ link_name n0 /\ link_name n1 /\ h_name e = path_text [n0] /\ h_name g = path_text [n0; n1] /\ ~ In 64%N (h_name g)
      /\ it_addr it = Some (h_name g ++ py "@signal") /\ In (py "signal", v) (attrs_of w g).
  Proof.
    intros i it H Hc. destruct (at_cp i it (parts_text [py "NXentry"; py "NXdata"]) (py "signal") H) as [p [pit [g [v [A1 [A2 [A3 [A4 [A5 [A6 [A7 [A8 A9]]]]]]]]]]]]; [rewrite Hc; reflexivity| |].
    { intros Z. vm_compute in Z. repeat (destruct Z as [Z|Z]; [congruence|]). destruct Z. }
    assert (PN : forall y, has_char 47%N y = false -> has_char 64%N y = false -> y <> [] -> plain_part y) by (intros y Y1 Y2 Y3; split; auto; split; apply has_char_false; auto).
    assert (P1 : plain_part (py "NXentry")) by (apply PN; [reflexivity|reflexivity|discriminate]).
    assert (P2 : plain_part (py "NXdata")) by (apply PN; [reflexivity|reflexivity|discriminate]).
    destruct (class_step _ _ _ [py "NXentry"] (py "NXdata") A1 A2 A5) as [q [qit [e [n1 [B1 [B2 [B3 [B4 [B5 B6]]]]]]]]]; [exact (Forall_cons _ P1 (Forall_cons _ P2 (Forall_nil _)))|].
    destruct (class_step _ _ _ [] (py "NXentry") B2 B3 B4) as [r [rit [o [n0 [C1 [C2 [C3 [C4 [C5 C6]]]]]]]]]; [exact (Forall_cons _ P1 (Forall_nil _))|].
    pose proof (node_reach _ _ _ B2 B3) as Re.
    assert (Hg : isHdf5Group w g = true /\ nexus_class E (attrs_of w g) (py "NXdata")).
    { destruct B6 as [B6|[B6 B7]]; [exact B6|]. exfalso. exact (rd_fields _ _ _ _ _ R e n1 g Re B5 B6 B7). }
    assert (He : isHdf5Group w e = true). { eapply parent_is_group; [exact B2|exact B3|exact B5|rewrite B4; discriminate]. }
    destruct (node_path _ _ _ C2 C3) as [pr [_ [_ [_ [_ [_ [Z1 [Z2 [_ PR]]]]]]]]].
    assert (pr = []). { destruct (class_parts _ _ PR) as [V|[l [L1 [L2 L3]]]]; [rewrite C4 in V; discriminate|]. rewrite C4 in L3. destruct l; [|discriminate]. destruct pr; [auto|discriminate]. }
    subst pr. rewrite (Z2 (proj1 Z1 eq_refl)) in *.
    assert (NM : forall p0 pit0 g0 n h0, has p0 pit0 -> it_obj pit0 = ONode g0 -> member w g0 n h0 -> link_name n /\ h_name h0 = child_path (h_name g0) n).
    { intros p0 pit0 g0 n h0 D1 D2 [D3 D4]. destruct (node_path _ _ _ D1 D2) as [pp [F _]].
      assert (Hl : link_name n). { rewrite (links_members w fname f Hfile g0 F) in D3. apply in_map_iff in D3 as [[n' t] [En D3]]. cbn [fst] in En. subst n'. exact (proj1 (Hplain _ _ _ D3)). }
      split; auto. destruct (getitem_member w fname f Hfile Hplain _ _ _ F Hl D4) as [_ [_ [X _]]]. exact X. }
    destruct (NM _ _ _ _ _ C2 C3 C5) as [N0 E0]. destruct (NM _ _ _ _ _ B2 B3 B5) as [N1 E1].
    assert (E0' : h_name e = path_text [n0]). { rewrite E0. unfold child_path, open_root, path_text. cbn [h_name]. rewrite str_eqb_refl. cbn [map List.concat]. rewrite app_nil_r. reflexivity. }
    assert (E1' : h_name g = path_text [n0; n1]).
    { rewrite E1, E0'. unfold child_path. destruct (str_eqb_spec (path_text [n0]) slash) as [X|X].
      - exfalso. cbn [path_text map List.concat] in X. rewrite app_nil_r in X. apply (proj1 N0). inversion X. reflexivity.
      - cbn [path_text map List.concat]. rewrite !app_nil_r. cbn [app]. reflexivity. }
    destruct (node_addr_no_at _ _ _ A1 A2) as [a [Ha Na]]. rewrite (node_addr _ _ HI _ _ _ A1 A2) in Ha. inversion Ha; subst a.
    exists p, pit, g, q, qit, e, r, rit, v, n0, n1. repeat (split; [first [assumption|apply Hg|eapply node_addr; [exact HI|eassumption|eassumption]]|]).
    split; [rewrite (node_addr _ _ HI _ _ _ C2 C3); reflexivity|]. repeat (split; [first [assumption|apply Hg]|]). exact A4.
  Qed.

  Lemma v3_item_goes : forall i it s, live s -> has i it -> it_cp it = py "/NXentry/NXdata@signal" -> goes (v3_item c i) s.
  Proof.
    intros i it s L H Hc. destruct (signal_path _ _ H Hc) as [p [pit [g [q [qit [e [r [rit [v [n0 [n1 [A1 [A2 [A3 [B1 [B2 [B3 [C1 [C2 [C3 [Gg [Ge [Gc [N0 [N1 [En [Gn [Na [Ia Hv]]]]]]]]]]]]]]]]]]]]]]]]]]]]].
    assert (Hin : In (py "signal") (map fst (attrs_of w g))) by (apply in_map_iff; eexists; split; [|exact Hv]; reflexivity).
    destruct (dget (py "signal") (attrs_of w g)) as [ptr|] eqn:Ep; [|apply dget_None in Ep; contradiction].
    pose proof (node_reach _ _ _ A1 A2) as Rg. pose proof (node_reach _ _ _ B1 B2) as Re. pose proof (node_reach _ _ _ C1 C2) as Rr.
    destruct (group_attribute_text _ _ Rg (isHdf5Group_obj _ _ Gg) (or_intror eq_refl) _ Ep) as [sx [Hs GA]].
    pose proof (ga_signal _ _ _ _ _ _ _ GA (isHdf5Group_obj _ _ Gg) eq_refl Gc _ Hs) as Ls.
    unfold v3_item. destruct (live_item _ _ _ L H) as [it1 [Hi [_ [_ [_ [I4 _]]]]]]. eapply goes_bind_item; [exact Hi|]. rewrite I4, Ia.
    assert (ED : entry_and_data (Some (h_name g ++ py "@signal")) = Ok (n0, n1)).
    { unfold entry_and_data. cbn [need_text rbind]. change (py "@signal") with (ch_at :: py "signal"). rewrite split_app_sep by exact Na. cbn [hd].
      assert (Gn' : h_name g = [] ++ ch_slash :: n0 ++ ch_slash :: n1) by (rewrite Gn; unfold path_text; cbn [map List.concat]; rewrite app_nil_r; reflexivity). rewrite Gn'. rewrite (split_app_sep ch_slash [] _ (fun q => q)). rewrite split_app_sep by exact (proj1 (proj2 N0)). rewrite split_no_sep by exact (proj1 (proj2 N1)). reflexivity. }
    eapply goes_bind_lift; [exact ED|]. cbv beta iota.
    assert (X1 : slash ++ n0 ++ slash ++ n1 = h_name g). { rewrite Gn. cbn [path_text map List.concat]. rewrite app_nil_r. reflexivity. }
    assert (X0 : slash ++ n0 = h_name e). { rewrite En. cbn [path_text map List.concat]. rewrite app_nil_r. reflexivity. }
    rewrite X1, X0. eapply goes_bind_addr; [exact L|exact A1|exact A3|]. destruct (live_item _ _ _ L A1) as [pit1 [Hp [_ [J2 [_ [J4 _]]]]]]. eapply goes_bind_item; [exact Hp|].
    eapply goes_bind_addr; [exact L|exact B1|exact B3|]. destruct (live_item _ _ _ L B1) as [qit1 [Hq [_ [K2 [_ [K4 _]]]]]]. eapply goes_bind_item; [exact Hq|].
    eapply goes_bind_addr; [exact L|exact C1|exact C3|]. destruct (live_item _ _ _ L C1) as [rit1 [Hr [_ [M2 [_ [M4 _]]]]]]. eapply goes_bind_item; [exact Hr|].
    assert (O1 : it_obj pit1 = ONode g) by congruence. assert (O2 : it_obj qit1 = ONode e) by congruence. assert (O3 : it_obj rit1 = ONode (open_root fname)) by congruence.
    eapply goes_bind_lift; [rewrite O1; reflexivity|]. eapply goes_bind_lift; [unfold dgetitem; change (c_world c) with w; rewrite Ep; reflexivity|].
    eapply goes_bind_lift; [rewrite O1; reflexivity|].
    assert (NE : endswith (h_name g) slash = false).
    { destruct (endswith (h_name g) slash) eqn:Z; auto. exfalso. apply endswith_spec in Z as [t Z]. 
      assert (Gn' : h_name g = (47%N :: n0) ++ 47%N :: n1) by (rewrite Gn; unfold path_text; cbn [map List.concat]; rewrite app_nil_r; reflexivity). rewrite Gn' in Z. change slash with (47%N :: []) in Z. destruct (slash_last _ _ _ [] (proj1 (proj2 N1)) (fun q => q) Z) as [_ Y]. exact (proj1 N1 Y). }
    assert (BA : build_h5_address (c_env c) (h_name g) ptr = Ok (path_text [n0; n1; sx])).
    { unfold build_h5_address. change (c_env c) with E. rewrite Hs. cbn [rbind concat_text]. rewrite NE, Gn. unfold path_text. cbn [map List.concat]. rewrite !app_nil_r. change slash with [47%N]. f_equal.
      rewrite <- app_assoc. cbn [app]. rewrite <- app_assoc. reflexivity. }
    eapply goes_bind_lift; [exact BA|]. eapply goes_bind_lift; [rewrite K4, B3; reflexivity|]. eapply goes_bind_lift; [rewrite J4, A3; reflexivity|].
    destruct (points_ok rit1 _ (py "default") (h_name e) O3 Rr root_group (or_introl eq_refl)) as [t1 T1]. eapply goes_bind_lift; [exact T1|].
    destruct (points_ok qit1 _ (py "default") (h_name g) O2 Re (isHdf5Group_obj _ _ Ge) (or_introl eq_refl)) as [t2 T2']. eapply goes_bind_lift; [exact T2'|].
    destruct (points_ok pit1 _ (py "signal") (path_text [n0; n1; sx]) O1 Rg (isHdf5Group_obj _ _ Gg) (or_intror eq_refl)) as [t3 T3']. eapply goes_bind_lift; [exact T3'|].
    destruct t3; cbn [negb].
    - assert (Hlead : exists o, leads f 0 [n0; n1; sx] o).
      { unfold attribute_points_at_target in T3'. rewrite O1 in T3'. cbn [hobj_attrs rbind node_name] in T3'. change (c_world c) with w in T3'. rewrite Ep in T3'. rewrite BA in T3'. cbn [rbind hobj_in] in T3'.
        rewrite (group_in w g _ (isHdf5Group_obj _ _ Gg)) in T3'. cbn [rbind] in T3'. destruct (contains w g (path_text [n0; n1; sx])) eqn:Ec; [|discriminate].
        assert (K : h_file g = fname) by (eapply reachable_file; eauto).
        apply (contains_leads w fname f Hfile Hplain Hopen g) in Ec; [|split; auto; exists g; auto]. destruct Ec as [_ [b Hb]].
        destruct (path_comps_text [n0; n1; sx]) as [P1 P2]; [discriminate|exact (Forall_cons _ N0 (Forall_cons _ N1 (Forall_cons _ Ls (Forall_nil _))))|]. rewrite P1, P2 in Hb. exists b. exact Hb. }
      destruct Hlead as [o Hl]. destruct (path_reach _ _ Hl) as [h [Rh [_ [Hn _]]]]. destruct (reach_item _ Rh) as [j [jt [J1 [_ J3]]]]. rewrite Hn in J3.
      eapply goes_bind_addr; [exact L|exact J1|exact J3|]. destruct (live_item _ _ _ L J1) as [jt1 [Hj _]]. eapply goes_bind_item; [exact Hj|].
      destruct (hobj_isdataset (c_world c) (it_obj jt1)); [|apply goes_ret]. apply goes_then; [exact L|eapply live_there; eauto|]. intros. apply goes_ret.
    - apply goes_then; [exact L|eapply live_there; eauto|]. intros. apply goes_ret.
  Qed.

  Lemma v3_goes : forall l a niac s, live s -> (forall i, In i (niac ++ l) -> exists it, has i it /\ it_cp it = py "/NXentry/NXdata@signal") -> goes (v3_loop c a niac l) s.
  Proof.
    induction l as [|i l IH]; intros a niac s L H; cbn [v3_loop].
    - destruct niac as [|i [|j niac]]; try apply goes_ret. destruct (H i) as [it [Hi _]]; [left; auto|]. destruct (live_item _ _ _ L Hi) as [it1 [Hi1 _]].
      eapply goes_bind_item; [exact Hi1|]. apply goes_then; [exact L|eapply live_there; eauto|]. intros. apply goes_ret.
    - destruct (H i) as [it [Hi Hc]]; [apply in_or_app; right; left; auto|]. apply goes_bind; [eapply v3_item_goes; eauto|]. intros s' [|a' n] X; [apply goes_ret|].
      apply IH; [eapply live_logs; [apply v3_item_logs|exact L|exact X]|]. intros j Hj. apply H. destruct n; apply in_app_or in Hj as [Hj|Hj]; apply in_or_app; auto.
      + apply in_app_or in Hj as [Hj|[Hj|[]]]; [left; auto|right; left; auto].
      + right. right. auto.
      + right. right. auto.
  Qed.

  (** the @signal attributes *)
  Definition sig (i : nat) : Prop := exists it p pit h a, has i it /\ it_parent it = Some p /\ has p pit /\ it_obj pit = ONode h /\ it_cp pit <> non_nexus /\ it_addr it = Some a.
  Definition sig1 (i : nat) : Prop := exists it p pit h a q qit, has i it /\ it_parent it = Some p /\ has p pit /\ it_obj pit = ONode h /\ it_addr it = Some a /\ it_parent pit = Some q /\ has q qit.
  Definition good_review (r : list (option pystr * list nat)) : Prop := forall kl, In kl r -> (exists a, fst kl = Some a) /\ Forall sig1 (snd kl).

  Lemma parent_node : forall i it h, has i it -> it_obj it = ONode h -> it_cp it <> non_nexus -> isHdf5Dataset w h = true ->
    exists p pit g, it_parent it = Some p /\ has p pit /\ it_obj pit = ONode g /\ it_addr pit = Some (h_name g).
  Proof.
    intros i it h H Ho Hc Hd. destruct (node_path _ _ _ H Ho) as [p [_ [_ [_ [_ [_ [Z [Z1 [_ P]]]]]]]]].
    destruct (class_parts _ _ P) as [V|[l [L1 [L2 L3]]]]; [contradiction|]. destruct l as [|x l _] using rev_ind.
    - exfalso. destruct p; [|discriminate]. rewrite (Z1 (proj1 Z eq_refl)) in Hd. pose proof root_group as RG. unfold isHdf5Dataset, is_group_obj in *. destruct (obj_of w (open_root fname)) as [o|]; [|discriminate]. destruct (ob_kind o); discriminate.
    - destruct (class_step _ _ _ _ _ H Ho L3 L2) as [q [qit [g [n [B1 [B2 [B3 _]]]]]]]. exists q, qit, g. repeat (split; auto). exact (node_addr _ _ HI _ _ _ B2 B3).
  Qed.

  Lemma v2_item_gives : forall i r s, live s -> sig i -> good_review r -> gives (v2_item c r i) s good_review.
  Proof.
    intros i r s L [it [p [pit [h [a [A1 [A2 [A3 [A4 [A5 A6]]]]]]]]]] GR. unfold v2_item. destruct (live_item _ _ _ L A1) as [it1 [Hi [I1 [I2 [_ [I4 _]]]]]]. eapply gives_bind_item; [exact Hi|].
    unfold parent_item at 1. rewrite I1, A2. destruct (live_item _ _ _ L A3) as [pit1 [Hp [J1 [J2 [_ [J4 _]]]]]]. eapply gives_bind_item; [exact Hp|]. rewrite J2, A4.
    destruct (hobj_isdataset (c_world c) (ONode h)) eqn:Hd; [|apply gives_ret; auto]. eapply gives_bind_lift; [rewrite I4, A6; reflexivity|].
    destruct (parent_node _ _ _ A3 A4 A5 Hd) as [q [qit [g [B1 [B2 [B3 B4]]]]]].
    destruct (str_eqb (hobj_str (it_obj it1)) (py "1")).
    - apply gives_bind; [apply goes_record; eapply live_there; eauto|]. intros s' x X.
      assert (L' : live s') by (eapply live_logs; [apply logs_true_record|exact L|exact X]).
      unfold parent_item. rewrite J1, B1. destruct (live_item _ _ _ L' B2) as [qit1 [Hq [_ [_ [_ [K4 _]]]]]]. eapply gives_bind_item; [exact Hq|]. apply gives_ret.
      intros kl Hkl. assert (S1 : sig1 i) by (exists it, p, pit, h, a, q, qit; repeat (split; auto)).
      apply aset_in in Hkl as [[Hv Hk]|Hkl]; [|apply GR; auto]. split.
      + destruct Hk as [Hk|[v' Hk]]; [rewrite Hk, K4, B4; eauto|]. exact (proj1 (GR _ Hk)).
      + rewrite Hv. apply Forall_app. split; [|constructor; auto]. destruct (aget ostr_eqb (it_addr qit1) r) as [l|] eqn:El; [|constructor].
        apply aget_In in El; [|apply ostr_eqb_eq]. exact (proj2 (GR _ El)).
    - apply gives_bind; [apply goes_record; eapply live_there; eauto|]. intros s' x X. apply gives_ret. auto.
  Qed.

  Lemma v2_item_logs : forall i r, logs c (with_key plot_key) (v2_item c r i).
  Proof. intros. unfold v2_item, parent_item. clear. lg; try done_key. Qed.

  Lemma v2_collect_gives : forall l r s, live s -> Forall sig l -> good_review r -> gives (v2_collect c r l) s good_review.
  Proof.
    induction l as [|i l IH]; intros r s L Hl GR; cbn [v2_collect]; [apply gives_ret; auto|]. inversion Hl; subst.
    eapply gives_bind_gives; [apply v2_item_gives; eauto|]. intros s' r' X GR'. apply IH; auto. eapply live_logs; [apply v2_item_logs|exact L|exact X].
  Qed.

  Lemma v2_decide_goes : forall r a s, live s -> good_review r -> goes (v2_decide a r) s.
  Proof.
    induction r as [|[k l] r IH]; intros a s L GR; cbn [v2_decide]; [apply goes_ret|].
    destruct (GR (k, l) (or_introl eq_refl)) as [[ka Hk] Hl]. cbn [fst snd] in Hk, Hl. assert (GR' : good_review r) by (intros kl Hkl; apply GR; right; auto).
    destruct l as [|i [|j l]]; [apply IH; auto| |].
    - inversion Hl as [|? ? [it [p [pit [h [b [q [qit [A1 [A2 [A3 [A4 [A5 [A6 A7]]]]]]]]]]]]] _]; subst.
      destruct (live_item _ _ _ L A1) as [it1 [Hi [I1 [I2 [_ [I4 _]]]]]]. eapply goes_bind_item; [exact Hi|]. unfold parent_item. rewrite I1, A2.
      destruct (live_item _ _ _ L A3) as [pit1 [Hp _]]. eapply goes_bind_item; [exact Hp|]. eapply goes_bind_lift; [rewrite I4, A5; reflexivity|].
      apply goes_then; [exact L|eapply live_there; eauto|]. intros. apply IH; auto.
    - inversion Hl as [|? ? [it [p [pit [h [b [q [qit [A1 [A2 [A3 [A4 [A5 [A6 A7]]]]]]]]]]]]] _]; subst.
      destruct (live_item _ _ _ L A1) as [it1 [Hi [I1 [I2 [_ [I4 _]]]]]]. eapply goes_bind_item; [exact Hi|]. unfold parent_item. rewrite I1, A2.
      destruct (live_item _ _ _ L A3) as [pit1 [Hp [J1 _]]]. eapply goes_bind_item; [exact Hp|]. eapply goes_bind_lift; [reflexivity|]. rewrite J1, A6.
      apply goes_bind; [apply goes_ret|]. intros s' gi X. inversion X; subst. apply goes_then; [exact L|eapply live_there; eauto|]. intros. apply IH; auto.
  Qed.

  Lemma signals_sig : Forall sig (signal_items (st_cp s1)).
  Proof.
    apply Forall_forall. intros i Hi. unfold signal_items in Hi. apply in_flat_map in Hi as [[k l] [Hk Hi]]. cbn [fst snd] in Hi. destruct (endswith k (py "@signal")) eqn:Ek; [|destruct Hi].
    destruct (ci_cpof _ _ HI _ _ _ Hk Hi) as [it [H Hc]]. apply endswith_spec in Ek as [t ->].
    destruct (at_cp i it t (py "signal") H) as [p [pit [g [v [A1 [A2 [A3 [A4 [A5 [A6 [A7 [A8 A9]]]]]]]]]]]]; [rewrite Hc; reflexivity| |].
    { intros Z. vm_compute in Z. repeat (destruct Z as [Z|Z]; [congruence|]). destruct Z. }
    exists it, p, pit, g, (h_name g ++ 64%N :: py "signal"). auto 10.
  Qed.

  Lemma plot_goes : forall s, live s -> goes (default_plot_verify c) s.
  Proof.
    intros s L. unfold default_plot_verify. destruct (reach_item (open_root fname)) as [r [rit [A [B C]]]]; [exists 0; constructor|].
    eapply goes_bind_addr; [exact L|exact A|exact C|].
    assert (V3 : goes (default_plot_v3 c) s).
    { unfold default_plot_v3. apply goes_bind; [eexists; eexists; reflexivity|]. intros s' l X. unfold classpath_list in X. rewrite (live_cp _ L) in X. injection X as <- Xl. apply v3_goes; auto. cbn [app].
      intros i Hi. rewrite <- Xl in Hi. match type of Hi with context [match ?x with _ => _ end] => destruct x as [l'|] eqn:El end; [|destruct Hi].
      apply dget_In in El. destruct (ci_cpof _ _ HI _ _ _ El Hi) as [it [H Hc]]. exists it. auto. }
    assert (V2 : forall s', live s' -> goes (default_plot_v2 c) s').
    { intros s' L'. unfold default_plot_v2. apply goes_bind_get. rewrite (live_cp _ L').
      pose proof (v2_collect_gives _ [] s' L' signals_sig) as G. destruct G as [s2 [rv [G1 G2]]]; [intros kl []|].
      apply goes_bind; [exists s2, rv; exact G1|]. intros s3 rv' X. rewrite G1 in X. inversion X; subst. apply v2_decide_goes; auto. eapply live_logs; [apply v2_collect_logs|exact L'|exact G1]. }
    assert (NP : forall s', live s' -> goes (let* s0 := get in let* st := lift (no_plot_status (st_classes s0)) in record_finding r (py "NeXus default plot") st (py "no default plot described")) s').
    { intros s' L'. apply goes_bind_get. destruct (proj2 (rd_classes _ _ _ _ _ R)) as [d [g [D1 D2]]]. destruct (live_class_some _ _ _ L' D1) as [d' [D3 D4]].
      assert (X : exists st, no_plot_status (st_classes s') = Ok st).
      { unfold no_plot_status, dgetitem. rewrite D3. cbn [rbind]. apply strip_def_eq in D4 as [_ [_ [_ [_ [_ D4]]]]].
        destruct (dget (py "data") (d_groups d')) as [g'|] eqn:Eg; [cbn [rbind]; eauto|]. exfalso. apply dget_None in Eg. apply Eg. unfold dkeys. rewrite D4. apply dget_In in D2. apply in_map_iff. eexists. split; [|exact D2]. reflexivity. }
      destruct X as [st X]. eapply goes_bind_lift; [exact X|]. apply goes_record. eapply live_there; eauto. }
    apply goes_bind.
    - cbn [try_methods]. apply goes_bind; [exact V3|]. intros s2 a2 X2. pose proof (live_logs _ _ _ _ _ _ (default_plot_v3_logs c) L X2) as L2. destruct a2; [apply goes_ret|].
      apply goes_bind; [apply V2; auto|]. intros s3 a3 X3. destruct a3; apply goes_ret || (eexists; eexists; reflexivity).
    - intros s2 a2 X2. assert (L2 : live s2).
      { eapply (live_logs (with_key plot_key)); [|exact L|exact X2]. cbn [try_methods]. apply logs_bind; [apply default_plot_v3_logs|]. intros a. destruct a; [apply logs_ret|].
        apply logs_bind; [apply default_plot_v2_logs|]. intros b. destruct b; [apply logs_ret|]. apply logs_bind; [apply logs_ret|]. intros d. destruct d; apply logs_ret. }
      destruct a2 as [[k addr]|]; [apply goes_record; eapply live_there; eauto|apply NP; auto].
  Qed.

  Lemma open_goes : goes (validate_open c) (fresh_state cl).
  Proof.
    unfold validate_open. apply goes_bind; [exists s1, tt; exact Hbuild|]. intros s2 x X. rewrite Hbuild in X. inversion X; subst s2. clear X.
    assert (A1 : forall s s' r, live s -> step1 c s = (s', r) -> live s').
    { intros s s' r L X. eapply live_logs; [apply step1_logs|exact L|]. unfold step1 in X. unfold bind, get in X. exact X. }
    assert (A2 : forall s s' r, live s -> step2 c s = (s', r) -> live s').
    { intros s s' r L X. eapply live_logs; [apply step2_logs|exact L|]. unfold step2 in X. unfold bind, get in X. exact X. }
    assert (A3 : forall s s' r, live s -> step3 c s = (s', r) -> live s').
    { intros s s' r L X. eapply live_logs; [apply step3_logs|exact L|]. unfold step3 in X. unfold bind, get in X. exact X. }
    apply goes_bind; [apply step1_goes; apply live1|]. intros s2 x2 X2. pose proof (A1 _ _ _ live1 X2) as L2.
    apply goes_bind; [apply step2_goes; auto|]. intros s3 x3 X3. pose proof (A2 _ _ _ L2 X3) as L3.
    apply goes_bind; [apply step3_goes; auto|]. intros s4 x4 X4. apply plot_goes. eapply A3; eauto.
  Qed.
End Complete.
