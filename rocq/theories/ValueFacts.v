(** * Decoding and encoding of text; isNeXusFile *)

From Coq Require Import List NArith ZArith Bool String Lia.
From Verif Require Import PyBase PyFacts Regex Utf8 H5 Findings Nxdl Core Catalog Validate Trace CatalogFacts CatalogRun
  Spec_Run Spec_Catalog Spec_Values PathFacts PresenceFacts CatalogTerm CatalogEnd RunFacts AttrRun PlotLink.
Import ListNotations.

(** ** Decoding *)
Lemma decode_idempotent : forall E v v', decode_byte_string E v = Ok v' -> decode_byte_string E v' = Ok v'.
Proof.
  intros E v v' H. destruct v as [s|b|z|r| |l|l|l|l|r]; cbn [decode_byte_string] in H; try (inversion H; subst; reflexivity).
  - destruct (decode_bytes (e_enc E) b) as [s|e]; [|discriminate]. inversion H. reflexivity.
  - destruct l; inversion H; reflexivity.
  - destruct l as [|x l]; [inversion H; reflexivity|]. destruct (traverse _ (x :: l)) as [y|e]; [|discriminate]. inversion H. reflexivity.
Qed.

Lemma decode_unchanged : forall E v, ~ needs_decoding v -> decode_byte_string E v = Ok v.
Proof. intros E v H. destruct v; try reflexivity; exfalso; apply H; unfold needs_decoding; eauto. Qed.

Lemma decode_decoded : forall E v v', decode_byte_string E v = Ok v' -> ~ needs_decoding v'.
Proof.
  intros E v v' H N. assert (X : decode_byte_string E v' = Ok v') by (eapply decode_idempotent; eauto).
  destruct N as [[b ->]|[[l ->]|[l ->]]]; cbn [decode_byte_string] in X.
  - destruct (decode_bytes (e_enc E) b); discriminate.
  - destruct l; discriminate.
  - destruct l as [|x l]; [discriminate|]. destruct (traverse _ (x :: l)); discriminate.
Qed.

Lemma traverse_fail : forall A B (f : A -> res B) l e, traverse f l = Exn e -> exists x, In x l /\ f x = Exn e.
Proof.
  induction l as [|a l IH]; cbn [traverse]; intros e H; [discriminate|].
  destruct (f a) as [y|e'] eqn:Ea; cbn [rbind] in H.
  - destruct (traverse f l) as [ys|e'']; cbn [rbind] in H; [discriminate|]. destruct (IH e) as [x [A1 A2]]; [congruence|]. exists x. simpl. auto.
  - exists a. simpl. split; auto. congruence.
Qed.

Lemma decode_fails : forall E v e, decode_byte_string E v = Exn e ->
  e = UnicodeDecodeError /\ ((exists b, v = VBytes b) \/ exists l b, v = VArrS l /\ In b l /\ ~ ascii_text b).
Proof.
  intros E v e H. destruct v as [s|b|z|r| |l|l|l|l|r]; cbn [decode_byte_string] in H; try discriminate.
  - unfold decode_bytes in H. destruct (match e_enc E with EncUtf8 => _ | EncAscii => _ | EncLatin1 => _ end); [discriminate|].
    cbn [rmap] in H. split; [|eauto]. inversion H; auto.
  - destruct l; discriminate.
  - destruct l as [|x l]; [discriminate|]. destruct (traverse (decode_bytes EncAscii) (x :: l)) as [y|e'] eqn:Et; [discriminate|].
    assert (e' = e) by (inversion H; auto). subst e'. apply traverse_fail in Et as [b [B1 B2]].
    unfold decode_bytes, ascii_decode in B2. destruct (forallb (fun x => (x <? 128)%N) b) eqn:Ef; [discriminate|].
    split; [congruence|]. right. exists (x :: l), b. split; auto. split; auto. intros Ha.
    assert (forallb (fun x => (x <? 128)%N) b = true); [|congruence]. apply forallb_forall. unfold ascii_text in Ha. rewrite Forall_forall in Ha.
    intros c Hc. apply N.ltb_lt. auto.
Qed.

(** ** UTF-8 *)
Section Utf8.
Local Open Scope N_scope.

Lemma scalar_spec : forall c, scalar c = true <-> (c < 55296 \/ 57343 < c /\ c < 1114112).
Proof.
  intros c. unfold scalar. rewrite orb_true_iff, andb_true_iff, !N.ltb_lt. tauto.
Qed.

Lemma decode_encode1 : forall c r, scalar c = true -> utf8_decode (utf8_encode1 c ++ r) = option_map (cons c) (utf8_decode r).
Proof.
  intros c r H. pose proof (proj1 (scalar_spec c) H) as B. unfold utf8_encode1.
  assert (D1 : c = 64 * (c / 64) + c mod 64) by apply N.div_mod'.
  assert (M1 : c mod 64 < 64) by (apply N.mod_lt; discriminate).
  assert (D2 : c / 64 = 64 * (c / 4096) + (c / 64) mod 64).
  { rewrite (N.div_mod' (c / 64) 64) at 1. rewrite N.div_div by discriminate. reflexivity. }
  assert (M2 : (c / 64) mod 64 < 64) by (apply N.mod_lt; discriminate).
  assert (D3 : c / 4096 = 64 * (c / 262144) + (c / 4096) mod 64).
  { rewrite (N.div_mod' (c / 4096) 64) at 1. rewrite N.div_div by discriminate. reflexivity. }
  assert (M3 : (c / 4096) mod 64 < 64) by (apply N.mod_lt; discriminate).
  set (m1 := c mod 64) in *. set (q1 := c / 64) in *. set (m2 := q1 mod 64) in *. set (q2 := c / 4096) in *. set (m3 := q2 mod 64) in *. set (q3 := c / 262144) in *.
  clearbody m1 q1 m2 q2 m3 q3.
  destruct (c <? 128) eqn:E1.
  { cbn [app utf8_decode]. rewrite E1. reflexivity. }
  apply N.ltb_ge in E1. destruct (c <? 2048) eqn:E2.
  { apply N.ltb_lt in E2. cbn [app utf8_decode].
    replace (192 + q1 <? 128) with false by (symmetry; apply N.ltb_ge; lia).
    replace (192 + q1 <? 194) with false by (symmetry; apply N.ltb_ge; lia).
    replace (192 + q1 <? 224) with true by (symmetry; apply N.ltb_lt; lia).
    unfold cont. replace (128 <=? 128 + m1) with true by (symmetry; apply N.leb_le; lia).
    replace (128 + m1 <? 192) with true by (symmetry; apply N.ltb_lt; lia). cbn [andb].
    replace ((192 + q1 - 192) * 64 + (128 + m1 - 128)) with c by lia. reflexivity. }
  apply N.ltb_ge in E2. destruct (c <? 65536) eqn:E3.
  { apply N.ltb_lt in E3. cbn [app utf8_decode].
    replace (224 + q2 <? 128) with false by (symmetry; apply N.ltb_ge; lia).
    replace (224 + q2 <? 194) with false by (symmetry; apply N.ltb_ge; lia).
    replace (224 + q2 <? 224) with false by (symmetry; apply N.ltb_ge; lia).
    replace (224 + q2 <? 240) with true by (symmetry; apply N.ltb_lt; lia).
    unfold cont.
    replace (128 <=? 128 + m1) with true by (symmetry; apply N.leb_le; lia).
    replace (128 + m1 <? 192) with true by (symmetry; apply N.ltb_lt; lia).
    replace (128 <=? 128 + m2) with true by (symmetry; apply N.leb_le; lia).
    replace (128 + m2 <? 192) with true by (symmetry; apply N.ltb_lt; lia).
    cbv zeta. replace ((224 + q2 - 224) * 4096 + (128 + m2 - 128) * 64 + (128 + m1 - 128)) with c by lia.
    replace (2048 <=? c) with true by (symmetry; apply N.leb_le; lia). rewrite H. reflexivity. }
  apply N.ltb_ge in E3. cbn [app utf8_decode].
  replace (240 + q3 <? 128) with false by (symmetry; apply N.ltb_ge; lia).
  replace (240 + q3 <? 194) with false by (symmetry; apply N.ltb_ge; lia).
  replace (240 + q3 <? 224) with false by (symmetry; apply N.ltb_ge; lia).
  replace (240 + q3 <? 240) with false by (symmetry; apply N.ltb_ge; lia).
  replace (240 + q3 <? 245) with true by (symmetry; apply N.ltb_lt; lia).
  unfold cont.
  replace (128 <=? 128 + m1) with true by (symmetry; apply N.leb_le; lia).
  replace (128 + m1 <? 192) with true by (symmetry; apply N.ltb_lt; lia).
  replace (128 <=? 128 + m2) with true by (symmetry; apply N.leb_le; lia).
  replace (128 + m2 <? 192) with true by (symmetry; apply N.ltb_lt; lia).
  replace (128 <=? 128 + m3) with true by (symmetry; apply N.leb_le; lia).
  replace (128 + m3 <? 192) with true by (symmetry; apply N.ltb_lt; lia).
  cbv zeta. replace ((240 + q3 - 240) * 262144 + (128 + m3 - 128) * 4096 + (128 + m2 - 128) * 64 + (128 + m1 - 128)) with c by lia.
  replace (65536 <=? c) with true by (symmetry; apply N.leb_le; lia). rewrite H. reflexivity.
Qed.
End Utf8.

Lemma encode_unicode : forall s, unicode s -> exists b, utf8_encode s = Ok b /\ utf8_decode b = Some s.
Proof.
  induction 1 as [|c s Hc Hs [b [IH1 IH2]]]; [exists []; auto|].
  apply scalar_spec in Hc. exists (utf8_encode1 c ++ b). cbn [utf8_encode]. rewrite Hc, IH1. split; [reflexivity|].
  rewrite decode_encode1 by auto. rewrite IH2. reflexivity.
Qed.

Lemma encode_other : forall s, ~ unicode s -> utf8_encode s = Exn UnicodeEncodeError.
Proof.
  induction s as [|c s IH]; intros H; [exfalso; apply H; constructor|]. cbn [utf8_encode].
  destruct (scalar c) eqn:E; auto. rewrite IH; [reflexivity|]. intros Hs. apply H. constructor; auto. apply scalar_spec. auto.
Qed.

Lemma unicode_dec : forall s, unicode s \/ ~ unicode s.
Proof.
  induction s as [|c s [IH|IH]]; [left; constructor| |right; intros H; inversion H; auto].
  destruct (scalar c) eqn:E.
  - left. constructor; auto. apply scalar_spec. auto.
  - right. intros H. inversion H; subst. match goal with X : (c < _ \/ _)%N |- _ => apply scalar_spec in X; congruence end.
Qed.

Lemma write_read : forall E l, e_enc E = EncUtf8 -> Forall unicode l ->
  exists bs, string_list_to_hdf5 l = Ok bs /\ Forall2 (fun b s => decode_byte_string E b = Ok (VStr s)) bs l.
Proof.
  intros E l HE H. induction H as [|s l Hs Hl [bs [IH1 IH2]]]; [exists []; split; [reflexivity|constructor]|].
  destruct (encode_unicode _ Hs) as [b [B1 B2]]. exists (VBytes b :: bs). unfold string_list_to_hdf5 in *. cbn [traverse]. rewrite B1.
  cbn [rmap rbind]. rewrite IH1. split; [reflexivity|]. constructor; auto. cbn [decode_byte_string]. unfold decode_bytes. rewrite HE, B2. reflexivity.
Qed.

Lemma write_fails : forall l, (exists e, string_list_to_hdf5 l = Exn e) <-> ~ Forall unicode l.
Proof.
  induction l as [|s l IH].
  - split; [intros [e H]; discriminate|intros H; exfalso; apply H; constructor].
  - unfold string_list_to_hdf5 in *. cbn [traverse]. destruct (unicode_dec s) as [Hs|Hs].
    + destruct (encode_unicode _ Hs) as [b [B1 B2]]. rewrite B1. cbn [rmap rbind]. split.
      * intros [e H] F. inversion F; subst. apply IH; auto. destruct (traverse _ l) as [y|e']; [discriminate|]. eauto.
      * intros H. destruct IH as [_ IH]. destruct IH as [e IH]; [intros F; apply H; constructor; auto|]. rewrite IH. cbn [rbind]. eauto.
    + rewrite (encode_other _ Hs). cbn [rmap rbind]. split; [intros _ F; inversion F; auto|eauto].
Qed.

Lemma ascii_encode : forall s, ascii_text s -> utf8_encode s = Ok s /\ utf8_decode s = Some s /\ ascii_decode s = Some s.
Proof.
  induction 1 as [|c s Hc Hs [IH1 [IH2 IH3]]]; [auto|]. apply N.ltb_lt in Hc as Hc'.
  cbn [utf8_encode utf8_decode]. unfold scalar, utf8_encode1. rewrite Hc', IH1, IH2.
  replace (c <? 55296)%N with true by (symmetry; apply N.ltb_lt; lia). split; [reflexivity|]. split; [reflexivity|].
  unfold ascii_decode in *. cbn [forallb]. rewrite Hc'. cbn [andb]. destruct (forallb _ s); [reflexivity|discriminate].
Qed.

Lemma write_read_ascii : forall E l, Forall ascii_text l ->
  exists bs, string_list_to_hdf5 l = Ok bs /\ Forall2 (fun b s => decode_byte_string E b = Ok (VStr s)) bs l.
Proof.
  intros E l H. induction H as [|s l Hs Hl [bs [IH1 IH2]]]; [exists []; split; [reflexivity|constructor]|].
  destruct (ascii_encode _ Hs) as [B1 [B2 B3]]. exists (VBytes s :: bs). unfold string_list_to_hdf5 in *. cbn [traverse]. rewrite B1.
  cbn [rmap rbind]. rewrite IH1. split; [reflexivity|]. constructor; auto. cbn [decode_byte_string]. unfold decode_bytes.
  destruct (e_enc E); [rewrite B2|rewrite B3|]; reflexivity.
Qed.

(** ** isNeXusFile and the catalogue *)
Section File.
  Variables (u : setup) (w : world) (v : validator) (fname : pystr) (v' : validator) (f : h5file).
  Hypothesis Hfile : dget fname w = Some (FHdf5 f).
  Hypothesis Hrun : validate u w v fname = (v', Ok tt).
  Hypothesis Hplain : plain_file f.

  Lemma root_reachable : reachable w fname (open_root fname).
  Proof. exists 0. constructor. Qed.

  (** a member of the root and its item *)
  Lemma top_item : forall n, In n (map fst (members f 0)) -> exists h i it, getitem w (open_root fname) n = Ok h /\ h_file h = fname
    /\ h_isfile h = false /\ link_name n /\ leads f 0 [n] (h_oid h) /\ listed v' i it /\ it_obj it = ONode h /\ it_addr it = Some (path_text [n])
    /\ class_path (u_env u) f [n] (it_cp it)
    /\ determine_NeXus_classpath (u_env u) w (Some []) h n = Ok (it_cp it, it_nxclass it).
  Proof.
    intros n Hn. assert (Hk : link_name n). { apply in_map_iff in Hn as [[n' l] [<- Hn]]. apply (proj1 (Hplain _ _ _ Hn)). }
    destruct (run_open _ _ _ _ _ Hrun (open_root fname) n root_reachable) as [h Hh].
    { rewrite (links_members w fname f Hfile (open_root fname) eq_refl). exact Hn. }
    destruct (getitem_member w fname f Hfile Hplain (open_root fname) _ _ eq_refl Hk Hh) as [A1 [A2 [A3 A4]]].
    assert (HC : catalogued v' (Ok tt)) by (left; reflexivity).
    destruct (paths_catalogued _ _ _ _ _ _ _ Hfile Hrun Hplain HC _ _ A2) as [i [it [h' [L [Ho [Hoid [Hf [Ha _]]]]]]]].
    destruct (validate_trace _ _ _ _ _ _ _ Hfile Hrun) as [s1 [rb [log [Eb [T [HI _]]]]]].
    destruct (listed_in _ _ _ _ _ _ _ _ T HI L) as [it0 [B1 B2]]. apply skel_eq in B2 as [S1 [S2 [S3 [S4 [S5 S6]]]]].
    destruct (catalog_paths u w fname f Hfile Hplain _ HI _ _ h' B1) as [p [P1 [P2 [P3 [P4 [P5 [P6 [P7 [P8 P9]]]]]]]]]; [congruence|].
    assert (p = [n]). { apply path_text_inj; auto. rewrite S4, P5 in Ha. inversion Ha as [Ha']. exact Ha'. } subst p.
    assert (Eh : h' = h).
    { assert (i <> 0) as Hi0 by (intros X; apply P6 in X; discriminate). specialize (P8 Hi0).
      assert (En : h_name h = path_text [n]) by (rewrite A3; apply (path_text_snoc [] n); auto). rewrite <- P4 in En. clear - En P8 A4 Hoid Hf A1.
      destruct h, h'; simpl in *. f_equal; congruence. }
    subst h'. exists h, i, it. split; auto. split; auto. split; auto. split; auto. split; auto. split; auto. split; auto. split; auto.
    split; [rewrite S5; exact P9|].
    destruct (ci_origin _ _ HI _ _ B1) as [X1 X2 X3|q qit hp h' name X1 X2 X3 X4 X5 X6|q qit h' k val X1 X2 X3 X4 X5].
    - apply P6 in X1. discriminate.
    - pose proof (node_item_spec _ _ _ _ _ X6) as [N1 [N2 [N3 [N4 N5]]]]. assert (h' = h) by congruence. subst h'.
      assert (C : it_cp qit = []).
      { assert (Q : forall r rit, nth_error (st_items s1) r = Some rit -> it_obj rit = ONode hp -> it_cp rit = []).
        { intros r rit R1 R2. destruct (catalog_paths u w fname f Hfile Hplain _ HI _ _ hp R1 R2) as [p [Q1 [Q2 [Q3 [Q4 [Q5 [Q6 [Q7 [Q8 Q9]]]]]]]]].
          assert (p = []).
          { assert (Hname : link_name name).
            { change (c_world (mk_ctx u w fname)) with w in X4. rewrite (links_members w fname f Hfile _ Q1) in X4. unfold dkeys in X4.
              apply in_map_iff in X4 as [[n' l] [<- X4]]. apply (proj1 (Hplain _ _ _ X4)). }
            change (c_world (mk_ctx u w fname)) with w in X5.
            destruct (getitem_member w fname f Hfile Hplain _ _ _ Q1 Hname X5) as [_ [_ [G _]]]. rewrite Q4 in G. rewrite path_text_snoc in G by auto.
            rewrite P4 in G. apply path_text_inj in G; [|constructor; auto|apply Forall_app; auto]. destruct p as [|a p]; auto. destruct p; discriminate. }
          subst p. inversion Q9; auto. destruct p; discriminate. }
        destruct X2 as [Y1 Y2|r rit val k Y1 Y2 Y3 Y4 Y5 Y6]; [eauto|]. specialize (Q _ _ Y2 Y4). rewrite Q in Y5. discriminate. }
      unfold node_item in X6. change (c_env (mk_ctx u w fname)) with (u_env u) in X6. change (c_world (mk_ctx u w fname)) with w in X6.
      cbn [option_map snd] in X6. rewrite C in X6.
      assert (En : (if str_eqb (h_name h) slash then slash else last_part ch_slash (h_name h)) = n).
      { rewrite P4. destruct Hk as [K1 [K2 K3]]. unfold path_text. cbn [map List.concat]. rewrite app_nil_r.
        destruct (str_eqb (47%N :: n) slash) eqn:E1; [apply str_eqb_eq in E1; inversion E1; congruence|].
        apply (last_part_app ch_slash [] n). auto. }
      rewrite En in X6. destruct (determine_NeXus_classpath _ _ _ _ _) as [[cp nx]|e]; [|discriminate X6]. cbn [rbind] in X6.
      destruct (identify_object_type _ _ _); [|discriminate X6]. cbn [rbind] in X6. inversion X6 as [X7]. rewrite S5, S6. rewrite <- X7. reflexivity.
    - destruct (attr_item_spec q qit val (Some k)) as [Z1 _]. rewrite <- X5 in Z1. congruence.
  Qed.

  Lemma class_value : forall h v0, h_isfile h = false -> isHdf5Group w h = true -> dget (py "NX_class") (attrs_of w h) = Some v0 ->
    (forall l, v0 <> VArrO l) -> (forall l, v0 <> VArrS l) -> (forall l, v0 <> VArrNum l) ->
    isNeXusGroup (u_env u) w h (py "NXentry") = (dor d <- decode_byte_string (u_env u) v0 ; Ok (py_eq_text d (py "NXentry"))).
  Proof.
    intros h v0 H1 H2 H3 H4 H5 H6. unfold isNeXusGroup. rewrite H2, H3. destruct v0; try reflexivity; exfalso; [eapply H4|eapply H5|eapply H6]; eauto.
  Qed.

  (** the test of one member *)
  Lemma top_group : scalar_classes f -> forall n, In n (map fst (members f 0)) -> exists h i it b, getitem w (open_root fname) n = Ok h
    /\ isNeXusGroup (u_env u) w h (py "NXentry") = Ok b /\ listed v' i it /\ it_obj it = ONode h /\ it_addr it = Some (path_text [n])
    /\ (b = true <-> isHdf5Group w h = true /\ it_cp it = py "/NXentry").
  Proof.
    intros Hs n Hn. destruct (top_item n Hn) as [h [i [it [A1 [A2 [A3 [A4 [A5 [A6 [A7 [A8 [A9 A10]]]]]]]]]]]]. exists h, i, it.
    unfold determine_NeXus_classpath in A10.
    assert (E1 : str_eqb n slash = false). { apply str_eqb_neq. intros ->. destruct A4 as [_ [X _]]. apply X. simpl. auto. }
    rewrite E1 in A10. cbv iota in A10. change (str_eqb [] NON_NEXUS) with false in A10. change (endswith [] slash) with false in A10. cbv iota in A10.
    destruct (isHdf5Group w h) eqn:Eg.
    - change (dget (_ : pystr) (attrs_of w h)) with (dget (py "NX_class") (attrs_of w h)) in A10.
      destruct (dget (py "NX_class") (attrs_of w h)) as [v0|] eqn:Ed.
      + rewrite (attrs_attributes w fname f Hfile _ A2) in Ed. destruct (Hs _ _ _ A5 Ed) as [H4 [H5 H6]]. rewrite <- (attrs_attributes w fname f Hfile _ A2) in Ed.
        rewrite (class_value h v0 A3 Eg Ed H4 H5 H6). destruct (decode_byte_string (u_env u) v0) as [d|e]; [|discriminate A10]. cbn [rbind] in A10 |- *.
        exists (py_eq_text d (py "NXentry")). split; auto. split; auto. split; auto. split; auto. split; auto.
        destruct d as [s|b|z|r| |l|l|l|l|r]; cbn [py_eq_text]; try (assert (X : it_cp it = NON_NEXUS) by (injection A10; congruence); rewrite X; split; [discriminate|intros [_ Z]; discriminate Z]).
        change ((if startswith s (py "NX") then Ok (slash ++ s, Some s) else Ok (NON_NEXUS, None)) = Ok (it_cp it, it_nxclass it)) in A10.
        rewrite str_eqb_eq. split.
        * intros ->. change (startswith (py "NXentry") (py "NX")) with true in A10. cbv iota in A10. inversion A10 as [[X Y]]. split; auto.
        * intros [_ Z]. destruct (startswith s (py "NX")); inversion A10 as [[X Y]]; rewrite <- X in Z; [|discriminate Z].
          change (py "/NXentry") with (ch_slash :: py "NXentry") in Z. inversion Z. reflexivity.
      + exists false. split; auto. split; [unfold isNeXusGroup; rewrite Eg, Ed; reflexivity|]. split; auto. split; auto. split; auto.
        cbn [rbind] in A10. assert (X : it_cp it = NON_NEXUS) by (injection A10; congruence). rewrite X. split; [discriminate|]. intros [_ Z]. discriminate Z.
    - exists false. split; auto. split; [unfold isNeXusGroup; rewrite Eg; reflexivity|]. split; auto. split; auto. split; auto.
      split; [discriminate|intros [Z _]; discriminate].
  Qed.

  Lemma entry_scan : scalar_classes f -> forall l, incl l (map fst (members f 0)) -> exists b, any_entry (u_env u) w (open_root fname) l = Ok b
    /\ (b = true <-> exists n i it h, In n l /\ listed v' i it /\ it_addr it = Some (path_text [n]) /\ it_obj it = ONode h
          /\ isHdf5Group w h = true /\ it_cp it = py "/NXentry").
  Proof.
    intros Hs. induction l as [|n l IH]; intros Hl.
    - exists false. split; [reflexivity|]. split; [discriminate|]. intros [n [i [it [h [X _]]]]]. destruct X.
    - destruct IH as [b [IH1 IH2]]; [intros x Hx; apply Hl; simpl; auto|].
      destruct (top_group Hs n) as [h [i [it [b0 [B1 [B2 [B3 [B4 [B5 B6]]]]]]]]]; [apply Hl; simpl; auto|].
      cbn [any_entry]. rewrite B1. cbn [rbind]. rewrite B2. destruct b0.
      + exists true. split; auto. split; auto. intros _. destruct B6 as [B6 _]. destruct (B6 eq_refl) as [B7 B8]. exists n, i, it, h. simpl. auto 10.
      + exists b. split; auto. rewrite IH2. split.
        * intros [n' [i' [it' [h' [X1 X2]]]]]. exists n', i', it', h'. simpl. auto.
        * intros [n' [i' [it' [h' [[X1|X1] [X2 [X3 [X4 [X5 X6]]]]]]]]]; [|exists n', i', it', h'; auto 10]. subst n'. exfalso.
          assert (false = true); [|discriminate]. apply B6.
          destruct (final_class_path _ _ _ _ _ _ _ Hfile Hrun Hplain _ _ _ B3 B4) as [p1 [C1 [C2 [C3 C4]]]].
          destruct (final_class_path _ _ _ _ _ _ _ Hfile Hrun Hplain _ _ _ X2 X4) as [p2 [D1 [D2 [D3 D4]]]].
          assert (p1 = p2). { apply path_text_inj; auto. congruence. } subst p2.
          split; [|rewrite (class_path_fun f _ _ _ C4 _ D4); auto].
          pose proof (leads_fun _ _ _ _ C3 _ D3) as Eo.
          destruct (top_item n) as [h0 [j [jt [G1 [G2 [G3 _]]]]]]; [apply Hl; simpl; auto|]. assert (h0 = h) by congruence. subst h0.
          apply (group_is w fname f Hfile h G2 G3). rewrite Eo. unfold isHdf5Group in X5. apply andb_prop in X5 as [X5 _].
          unfold is_group. unfold is_group_obj in X5. 
          assert (Ef : h_file h' = fname).
          { destruct (validate_trace _ _ _ _ _ _ _ Hfile Hrun) as [s1 [rb [log [Eb [T [HI _]]]]]].
            destruct (listed_in _ _ _ _ _ _ _ _ T HI X2) as [it0 [Y1 Y2]]. apply skel_eq in Y2 as [_ [Y2 _]].
            destruct (catalog_paths u w fname f Hfile Hplain _ HI _ _ h' Y1) as [p [P1 _]]; [congruence|]. auto. }
          unfold obj_of, get_obj in X5. rewrite Ef, Hfile in X5. destruct (nth_error f (h_oid h')) as [ob|]; [|discriminate]. destruct (ob_kind ob) eqn:Ek; try discriminate. eauto.
  Qed.

  Lemma nexus_file : scalar_classes f -> exists b, isNeXusFile (u_env u) w fname = Ok (Some b) /\ (b = true <-> has_entry w f v').
  Proof.
    intros Hs. destruct (entry_scan Hs (map fst (members f 0))) as [b [H1 H2]]; [apply incl_refl|]. exists b. split; [|exact H2].
    unfold isNeXusFile. rewrite Hfile. rewrite (links_members w fname f Hfile (open_root fname) eq_refl).
    change (dkeys (members f (h_oid (open_root fname)))) with (map fst (members f 0)). rewrite H1. reflexivity.
  Qed.
End File.
