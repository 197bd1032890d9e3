(** * Facts about the model of the XML Schema *)

From Coq Require Import List NArith ZArith Bool String Lia.
From Verif Require Import PyBase PyFacts H5 Cache CacheSetFacts SchemaMgr Spec_Number NumberFacts Spec_Schema.
Import ListNotations.
Open Scope string_scope.
Open Scope list_scope.

(** ** Prefixes *)
Lemma strip_ns_no_colon : forall s, ~ In ch_colon (strip_ns s).
Proof. intros. apply last_part_no_sep. Qed.

Lemma strip_ns_app : forall a b, ~ In ch_colon b -> strip_ns (a ++ ch_colon :: b) = b.
Proof. intros. apply last_part_app. auto. Qed.

Lemma strip_ns_id : forall s, ~ In ch_colon s -> strip_ns s = s.
Proof. intros. unfold strip_ns. rewrite split_no_sep; auto. Qed.

Lemma after_colon_strip : forall s t, after_colon s t -> strip_ns s = t.
Proof. intros s t [H [-> | [a ->]]]; [apply strip_ns_id | apply strip_ns_app]; auto. Qed.

Lemma strip_after_colon : forall s, after_colon s (strip_ns s).
Proof.
  intros. split; [apply strip_ns_no_colon|].
  assert (D : ~ In ch_colon s \/ exists a b, s = a ++ ch_colon :: b /\ ~ In ch_colon b).
  { induction s as [|c s IH]; [left; intros []|].
    destruct IH as [IH | (a & b & E & IH)].
    - destruct (N.eq_dec c ch_colon) as [-> | N].
      + right. exists [], s. auto.
      + left. intros [F | F]; auto.
    - right. exists (c :: a), b. rewrite E. auto. }
  destruct D as [D | (a & b & -> & D)].
  - left. symmetry. apply strip_ns_id. auto.
  - right. exists a. rewrite strip_ns_app; auto.
Qed.

(** ** One pattern *)
Lemma restriction_spec : forall E l p q, restriction_items E p l = Ok q ->
  sp_base q = sp_base p /\ sp_res q = sp_res p ++ values_of (py "pattern") l
  /\ ((values_of (py "maxLength") l = [] /\ sp_maxLength q = sp_maxLength p)
      \/ exists a v, values_of (py "maxLength") l = a ++ [v] /\ whole_number E v (sp_maxLength q)).
Proof.
  induction l as [|n l IH]; intros p q H; cbn [restriction_items] in H.
  - injection H as <-. cbn. rewrite app_nil_r. auto.
  - destruct n as [|tag a kids].
    + cbn [s_is] in H. apply IH in H. exact H.
    + cbn [s_is s_attrib] in H. unfold values_of. cbn [flat_map]. fold (values_of (py "pattern") l). fold (values_of (py "maxLength") l).
      destruct (str_eqb_spec tag (py "pattern")) as [T | T].
      * replace (str_eqb tag (py "maxLength")) with false by (rewrite T; reflexivity).
        unfold dgetitem in H. destruct (dget (py "value") a) as [v|]; [|discriminate]. cbn [rbind] in H.
        apply IH in H. cbn [sp_base sp_res sp_maxLength] in H. destruct H as (A & B & C). cbn [app].
        rewrite <- app_assoc in B. auto.
      * destruct (str_eqb_spec tag (py "maxLength")) as [U | U].
        -- unfold dgetitem in H. destruct (dget (py "value") a) as [v|]; [|discriminate]. cbn [rbind] in H.
           destruct (py_int_text E v) as [z|e] eqn:Z; [|discriminate]. cbn [rbind] in H.
           apply int_number in Z. apply IH in H. cbn [sp_base sp_res sp_maxLength] in H. destruct H as (A & B & C). cbn [app].
           split; [auto|split; [auto|]]. right. destruct C as [[C1 C2] | (x & w & C1 & C2)].
           ++ exists [], v. rewrite C1, C2. auto.
           ++ exists (v :: x), w. rewrite C1. auto.
        -- cbn [app]. auto.
Qed.

Lemma filter_one : forall {A} (f : A -> bool) l x y, filter f l = [x] -> In y l -> f y = true -> x = y.
Proof.
  intros A f l x y H I T. assert (J : In y (filter f l)) by (apply filter_In; auto). rewrite H in J. destruct J as [J|[]]; auto.
Qed.

Lemma limit_det : forall E l m m', limit E l m -> limit E l m' -> m = m'.
Proof.
  intros E l m m' [[A ->] | (a & v & A & B)] [[C ->] | (c & w & C & D)]; auto.
  - rewrite A in C. destruct c; discriminate.
  - rewrite C in A. destruct a; discriminate.
  - rewrite A in C. apply app_inj_tail in C. destruct C as [_ ->]. apply int_number in B, D. congruence.
Qed.

Lemma declares_one : forall E n t b ps m p, declares E n t b ps m -> one_pattern E n = Ok p -> p = mkSP b ps m.
Proof.
  intros E n t b ps m p (a & k & ra & rk & base & -> & Nm & I & B & AC & -> & L) H.
  unfold one_pattern in H. cbn [s_kids] in H.
  destruct (s_named (py "restriction") k) as [|r [|]] eqn:F; try discriminate.
  assert (r = SN (py "restriction") ra rk) as ->.
  { eapply filter_one; eauto. }
  cbn [s_attrib s_kids] in H. unfold dgetitem in H. rewrite B in H. cbn [rbind] in H.
  apply restriction_spec in H. cbn [sp_base sp_res sp_maxLength] in H. destruct H as (X & Y & Z).
  rewrite (after_colon_strip _ _ AC) in X. destruct p as [pb pr pm]. cbn in *. subst.
  f_equal. eapply limit_det; [|exact L]. exact Z.
Qed.

Lemma one_declares : forall E n t p, s_is (py "simpleType") n = true -> dget (py "name") (s_attrib n) = Some t ->
  one_pattern E n = Ok p -> declares E n t (sp_base p) (sp_res p) (sp_maxLength p).
Proof.
  intros E [|tag a k] t p S Nm H; [discriminate|]. cbn [s_is] in S. apply str_eqb_eq in S. subst tag.
  unfold one_pattern in H. cbn [s_kids s_attrib] in *.
  destruct (s_named (py "restriction") k) as [|r [|]] eqn:F; try discriminate.
  assert (I : In r (s_named (py "restriction") k)) by (rewrite F; left; auto).
  unfold s_named in I. apply filter_In in I. destruct I as [I T].
  destruct r as [|rt ra rk]; [discriminate|]. cbn [s_is] in T. apply str_eqb_eq in T. subst rt.
  cbn [s_attrib s_kids] in H. unfold dgetitem in H. destruct (dget (py "base") ra) as [base|] eqn:B; [|discriminate]. cbn [rbind] in H.
  apply restriction_spec in H. cbn [sp_base sp_res sp_maxLength] in H. destruct H as (X & Y & Z).
  exists a, k, ra, rk, base. repeat split; auto.
  - rewrite X. apply strip_ns_no_colon.
  - rewrite X. apply (proj2 (strip_after_colon base)).
Qed.

(** ** The patterns of the types *)
Definition kept (n : snode) : bool :=
  s_is (py "simpleType") n && match dget (py "name") (s_attrib n) with Some t => startswith t (py "valid") | None => false end.
Definition nm (n : snode) : pystr := match dget (py "name") (s_attrib n) with Some t => t | None => [] end.
Definition knames (l : list snode) : list pystr := map nm (filter kept l).

Lemma own_spec : forall E l acc db, own_patterns E acc l = Ok db -> NoDup (map fst acc ++ knames l) ->
  exists new, db = acc ++ new /\ Forall2 (fun n kv => fst kv = nm n /\ one_pattern E n = Ok (snd kv)) (filter kept l) new.
Proof.
  induction l as [|n l IH]; intros acc db H ND; cbn [own_patterns] in H.
  - injection H as <-. exists []. rewrite app_nil_r. split; constructor.
  - unfold knames in *. cbn [filter] in *. unfold kept in ND at 1. unfold kept at 1.
    destruct (s_is (py "simpleType") n) eqn:S; cbn [andb] in *; [|apply IH in H; auto].
    unfold dgetitem in H. destruct (dget (py "name") (s_attrib n)) as [t|] eqn:Nm; [|discriminate]. cbn [rbind] in H.
    destruct (startswith t (py "valid")) eqn:V; [|apply IH in H; auto].
    destruct (one_pattern E n) as [p|] eqn:O; [|discriminate]. cbn [rbind] in H.
    cbn [map] in ND. assert (T : nm n = t) by (unfold nm; rewrite Nm; auto). rewrite T in ND.
    assert (Fr : dmem t acc = false).
    { destruct (dmem t acc) eqn:M; auto. apply dmem_In in M. exfalso.
      apply NoDup_remove_2 in ND. apply ND. apply in_or_app. auto. }
    rewrite dset_fresh in H by auto. apply IH in H.
    + destruct H as (new & -> & F). exists ((t, p) :: new). rewrite <- app_assoc. split; auto.
    + rewrite map_app. cbn [map fst]. rewrite <- app_assoc. exact ND.
Qed.

Lemma F2_keys : forall E l new, Forall2 (fun n (kv : pystr * spattern) => fst kv = nm n /\ one_pattern E n = Ok (snd kv)) l new ->
  map fst new = map nm l.
Proof. induction 1 as [|n kv l new [A B] F IH]; cbn; congruence. Qed.

Lemma F2_In : forall E l new n, Forall2 (fun n (kv : pystr * spattern) => fst kv = nm n /\ one_pattern E n = Ok (snd kv)) l new ->
  In n l -> exists p, In (nm n, p) new /\ one_pattern E n = Ok p.
Proof.
  induction 1 as [|x kv l new [A B] F IH]; intros I; [destruct I|]. destruct I as [-> | I].
  - exists (snd kv). split; auto. left. rewrite <- A. destruct kv; auto.
  - destruct (IH I) as (p & P & Q). exists p. split; [right|]; auto.
Qed.

Lemma adjust_other : forall db k k', k <> k' -> dget k' (adjust db k) = dget k' db.
Proof.
  intros. unfold adjust. destruct (dget k db) as [v|]; auto. destruct (str_eqb _ _); auto.
  destruct (dget (sp_base v) db); auto. apply dget_dset_other; auto.
Qed.

Lemma adjusts_other : forall ks db k, ~ In k ks -> dget k (fold_left adjust ks db) = dget k db.
Proof.
  induction ks as [|x ks IH]; intros db k H; cbn [fold_left]; auto.
  rewrite IH; [|intros F; apply H; right; auto]. apply adjust_other. intros ->. apply H. left. auto.
Qed.

Lemma adjust_same : forall db k, dget k (adjust db k) =
  match dget k db with
  | None => None
  | Some v => if str_eqb (sp_base v) (py "token") then Some v
              else match dget (sp_base v) db with
                   | None => Some v
                   | Some b => Some (mkSP (sp_base b) (sp_res v ++ sp_res b) (sp_maxLength b))
                   end
  end.
Proof.
  intros. unfold adjust. destruct (dget k db) as [v|] eqn:G; auto.
  destruct (str_eqb _ _); auto. destruct (dget (sp_base v) db); auto. apply dget_dset_same.
Qed.

Lemma dget_NoDup_In : forall V k (v : V) d, NoDup (map fst d) -> In (k, v) d -> dget k d = Some v.
Proof. intros. apply In_aget_NoDup; auto. intros; apply str_eqb_eq. Qed.

Section Patterns.
  Context (E : env) (root : list snode) (db : dict spattern).
  Hypothesis P : parse_nxdl_patterns E root = Ok db.
  Hypothesis ND : NoDup (knames root).

  Lemma start_db : exists db0, db = fold_left adjust (dkeys db0) db0 /\ dkeys db0 = knames root
    /\ (forall n, In n root -> kept n = true -> exists p, dget (nm n) db0 = Some p /\ one_pattern E n = Ok p).
  Proof.
    unfold parse_nxdl_patterns in P. destruct (own_patterns E [] root) as [db0|] eqn:O; [|discriminate].
    cbn [rbind] in P. injection P as <-. apply own_spec in O; [|exact ND]. destruct O as (new & -> & F). cbn [app] in *.
    exists new. split; auto. assert (K : map fst new = knames root) by (apply (F2_keys _ _ _ F)).
    split; [exact K|]. intros n I T. destruct (F2_In _ _ _ n F) as (p & Q & R); [apply filter_In; auto|].
    exists p. split; auto. apply dget_NoDup_In; auto. rewrite K. exact ND.
  Qed.

  Lemma keys_same : forall k, In k (knames root) <-> In k (map fst db).
  Proof.
    destruct start_db as (db0 & -> & K & _). rewrite <- K. unfold dkeys at 1. clear.
    intros k. generalize (dkeys db0) as ks. intros ks. revert db0. induction ks as [|x ks IH]; intros; cbn [fold_left]; [tauto|].
    rewrite <- IH. unfold adjust. destruct (dget x db0) as [v|] eqn:G; [|tauto].
    destruct (str_eqb _ _); [tauto|]. destruct (dget (sp_base v) db0); [|tauto].
    assert (M : In x (map fst db0)). { apply dget_In in G. apply in_map_iff. exists (x, v). auto. }
    unfold dset. rewrite In_keys_aset; [|intros; apply str_eqb_eq]. split; [auto|]. intros [-> | F]; auto.
  Qed.

  Lemma final_pattern : forall l1 n l2 t b ps m, root = l1 ++ n :: l2 -> kept n = true -> nm n = t -> declares E n t b ps m ->
    dget t db = Some (if str_eqb b (py "token") then mkSP b ps m
                      else if existsb (str_eqb b) (knames l1) then
                             match dget b db with Some q => mkSP (sp_base q) (ps ++ sp_res q) (sp_maxLength q) | None => mkSP b ps m end
                      else if str_eqb b t then mkSP b (ps ++ ps) m
                      else match find (fun x => kept x && str_eqb (nm x) b) l2 with
                           | Some x => match one_pattern E x with Ok q => mkSP (sp_base q) (ps ++ sp_res q) (sp_maxLength q) | Exn _ => mkSP b ps m end
                           | None => mkSP b ps m
                           end).
  Proof.
    intros l1 n l2 t b ps m R KN NT D. destruct start_db as (db0 & EQ & K & V).
    assert (KS : dkeys db0 = knames l1 ++ t :: knames l2).
    { rewrite K, R. unfold knames. rewrite filter_app, map_app. cbn [filter]. rewrite KN. cbn [map]. rewrite NT. auto. }
    assert (ND' : NoDup (knames l1 ++ t :: knames l2)) by (rewrite <- KS, K; exact ND).
    assert (H1 : ~ In t (knames l1)). { apply NoDup_remove_2 in ND'. intros F. apply ND', in_or_app. auto. }
    assert (H2 : ~ In t (knames l2)). { apply NoDup_remove_2 in ND'. intros F. apply ND', in_or_app. auto. }
    destruct (V n) as (p & G & O); [rewrite R; apply in_or_app; right; left; auto | auto |]. rewrite NT in G.
    pose proof (declares_one _ _ _ _ _ _ _ D O) as ->.
    rewrite EQ at 1. rewrite KS, fold_left_app. cbn [fold_left]. rewrite (adjusts_other (knames l2)); auto.
    rewrite adjust_same, (adjusts_other (knames l1)), G; auto. cbn [sp_base sp_res sp_maxLength].
    destruct (str_eqb b (py "token")); auto.
    destruct (existsb (str_eqb b) (knames l1)) eqn:X.
    - apply existsb_exists in X. destruct X as (b' & X & Y). apply str_eqb_eq in Y. subst b'.
      assert (F : dget b db = dget b (fold_left adjust (knames l1) db0)).
      { rewrite EQ, KS, fold_left_app. cbn [fold_left].
        assert (~ In b (t :: knames l2)).
        { intros F. clear - F X ND'. induction (knames l1) as [|y l IH]; [destruct X|]. cbn in ND'. inversion ND'; subst.
          destruct X as [-> | X]; [apply H1, in_or_app; auto | auto]. }
        rewrite adjusts_other by (intros F; apply H; right; auto). apply adjust_other. intros ->. apply H. left. auto. }
      rewrite F. destruct (dget b (fold_left adjust (knames l1) db0)); auto.
    - assert (NI : ~ In b (knames l1)).
      { intros F. apply Bool.not_true_iff_false in X. apply X. apply existsb_exists. exists b. rewrite str_eqb_refl. auto. }
      rewrite (adjusts_other (knames l1)) by auto.
      destruct (str_eqb_spec b t) as [-> | NE].
      + rewrite G. cbn [sp_base sp_res sp_maxLength]. auto.
      + destruct (find _ l2) as [x|] eqn:FD.
        * apply find_some in FD. destruct FD as [I Y]. apply andb_true_iff in Y. destruct Y as [Y Z]. apply str_eqb_eq in Z.
          destruct (V x) as (q & A & B); [rewrite R; apply in_or_app; right; right; auto | auto |].
          rewrite Z in A. rewrite A, B. auto.
        * assert (dget b db0 = None) as ->; auto.
          apply dget_None. change (map fst db0) with (dkeys db0). rewrite KS. intros F. apply in_app_or in F. destruct F as [F | [F | F]]; auto.
          unfold knames in F. apply in_map_iff in F. destruct F as (x & F1 & F2). apply filter_In in F2. destruct F2 as [F2 F3].
          pose proof (find_none _ _ FD x F2) as C. cbn beta in C. rewrite F3, F1, str_eqb_refl in C. discriminate.
  Qed.
End Patterns.

Lemma type_names_cons : forall n l, type_names (n :: l) = type_names [n] ++ type_names l.
Proof. intros. unfold type_names. cbn [flat_map]. rewrite app_nil_r. auto. Qed.

Lemma type_names_app : forall a b, type_names (a ++ b) = type_names a ++ type_names b.
Proof. intros. unfold type_names. rewrite !flat_map_concat_map, map_app, concat_app. auto. Qed.

Lemma kept_one : forall n, type_names [n] = match n with
    | SN t a _ => if str_eqb t (py "simpleType") then match dget (py "name") a with Some v => [v] | None => [] end else []
    | SComment => [] end.
Proof. intros. unfold type_names. cbn [flat_map]. apply app_nil_r. Qed.

Lemma knames_In : forall l b, In b (knames l) <-> valid_name b /\ In b (type_names l).
Proof.
  induction l as [|n l IH]; intros b.
  - unfold knames, type_names. cbn. tauto.
  - rewrite type_names_cons, in_app_iff, kept_one. unfold knames in *. cbn [filter]. unfold kept at 1.
    destruct n as [|t a k]; cbn [s_is s_attrib andb].
    + rewrite IH. cbn [In]. tauto.
    + destruct (str_eqb t (py "simpleType")); cbn [andb]; [|rewrite IH; cbn [In]; tauto].
      destruct (dget (py "name") a) as [v|] eqn:G; [|rewrite IH; cbn [In]; tauto].
      destruct (startswith v (py "valid")) eqn:S.
      * cbn [map]. replace (nm (SN t a k)) with v by (unfold nm; cbn [s_attrib]; rewrite G; auto). cbn [In]. rewrite IH.
        apply startswith_spec in S. split; [intros [-> | H]; [split; auto; exact S|tauto]|tauto].
      * rewrite IH. cbn [In]. split; [tauto|]. intros [V [[-> | []] | I]]; auto.
        destruct V as [u ->]. rewrite startswith_app in S. discriminate.
Qed.

Lemma knames_NoDup : forall l, NoDup (type_names l) -> NoDup (knames l).
Proof.
  induction l as [|n l IH]; intros H; [constructor|].
  rewrite type_names_cons in H. assert (H' : NoDup (type_names l)).
  { clear IH. induction (type_names [n]); auto. cbn in H. inversion H; auto. }
  unfold knames in *. cbn [filter]. unfold kept at 1. destruct n as [|t a k]; cbn [s_is s_attrib andb]; auto.
  rewrite kept_one in H.
  destruct (str_eqb t (py "simpleType")); cbn [andb]; auto.
  destruct (dget (py "name") a) as [v|] eqn:G; auto. destruct (startswith v (py "valid")); auto.
  cbn [map]. replace (nm (SN t a k)) with v by (unfold nm; cbn [s_attrib]; rewrite G; auto).
  constructor; auto. intros F. apply (knames_In l v) in F. cbn [app] in H. inversion H. tauto.
Qed.

Lemma declares_kept : forall E n t b ps m, declares E n t b ps m -> valid_name t -> kept n = true /\ nm n = t.
Proof.
  intros E n t b ps m (a & k & ra & rk & base & -> & Nm & _) [u ->]. unfold kept, nm. cbn [s_is s_attrib].
  rewrite Nm, str_eqb_refl, startswith_app. auto.
Qed.

Lemma declares_named : forall E n t b ps m l, declares E n t b ps m -> In n l -> In t (type_names l).
Proof.
  intros E n t b ps m l (a & k & ra & rk & base & -> & Nm & _) I. unfold type_names. apply in_flat_map.
  eexists. split; [exact I|]. cbn beta iota. rewrite str_eqb_refl, Nm. left. auto.
Qed.

Lemma valid_token : forall b, valid_name b -> str_eqb b (py "token") = false.
Proof. intros b [u ->]. reflexivity. Qed.

Lemma existsb_str : forall b l, existsb (str_eqb b) l = true <-> In b l.
Proof.
  intros. rewrite existsb_exists. split; [intros (x & H & T); apply str_eqb_eq in T; subst; auto|].
  intros. exists b. rewrite str_eqb_refl. auto.
Qed.

Lemma existsb_str_false : forall b l, ~ In b l -> existsb (str_eqb b) l = false.
Proof. intros. destruct (existsb _ _) eqn:X; auto. apply existsb_str in X. tauto. Qed.

Lemma find_kept_None : forall b l, (forall x, In x l -> kept x = true -> nm x <> b) -> find (fun x => kept x && str_eqb (nm x) b) l = None.
Proof.
  intros b l H. destruct (find _ l) as [x|] eqn:F; auto. apply find_some in F. destruct F as [I T].
  apply andb_true_iff in T. destruct T as [T U]. apply str_eqb_eq in U. exfalso. eapply H; eauto.
Qed.

Lemma nm_knames : forall x l, In x l -> kept x = true -> In (nm x) (knames l).
Proof. intros. unfold knames. apply in_map. apply filter_In. auto. Qed.

(** ** Extensions *)
Lemma sbind_ok : forall {A B} (m : SM A) (f : A -> SM B) b b' r, sbind m f b = (b', Ok r) ->
  exists b1 a, m b = (b1, Ok a) /\ f a b1 = (b', Ok r).
Proof. unfold sbind. intros A B m f b b' r H. destruct (m b) as [b1 [a|e]]; [eauto|discriminate]. Qed.

Lemma bad_extension : forall st l c b b' r a k base, parse_complexContent st c l b = (b', Ok r) ->
  In (SN (py "extension") a k) l -> dget (py "base") a = Some base -> contains_sub (py "nx:basicComponent") base = true.
Proof.
  induction l as [|n l IH]; intros c b b' r a k base H I B; [destruct I|].
  cbn [parse_complexContent] in H. destruct n as [|tag at_ kids]; [discriminate|].
  destruct (str_eqb_spec tag (py "extension")) as [T|T]; [|discriminate].
  destruct (dget (py "base") at_) as [ref|] eqn:R; [|discriminate].
  destruct (contains_sub (py "nx:basicComponent") ref) eqn:C; cbn [negb] in H; [|discriminate].
  destruct I as [I|I].
  - injection I as _ -> _. congruence.
  - apply sbind_ok in H. destruct H as (b1 & o & _ & H). apply sbind_ok in H. destruct H as (b2 & c' & _ & H). eauto.
Qed.

Lemma bad_extension_type : forall st l c b b' r ca ck a k base, type_structure st c l b = (b', Ok r) ->
  In (SN (py "complexContent") ca ck) l -> In (SN (py "extension") a k) ck -> dget (py "base") a = Some base ->
  contains_sub (py "nx:basicComponent") base = true.
Proof.
  induction l as [|n l IH]; intros c b b' r ca ck a k base H I J B; [destruct I|].
  destruct n as [|tag at_ kids].
  - destruct I as [I|I]; [discriminate|]. cbn [type_structure] in H. eauto.
  - cbn [type_structure] in H. destruct I as [I|I].
    + injection I as -> -> ->.
      change (str_eqb (py "complexContent") (py "annotation")) with false in H.
      change (str_eqb (py "complexContent") (py "attribute")) with false in H.
      change (str_eqb (py "complexContent") (py "attributeGroup")) with false in H.
      change (str_eqb (py "complexContent") (py "group")) with false in H.
      change (str_eqb (py "complexContent") (py "complexContent")) with true in H. cbn iota in H. cbn [orb] in H.
      apply sbind_ok in H. destruct H as (b1 & o & H & _). eapply bad_extension; eauto.
    + destruct (str_eqb tag (py "annotation")); [eauto|].
      destruct (str_eqb tag (py "attribute")); [apply sbind_ok in H; destruct H as (? & ? & _ & H); eauto|].
      destruct (_ || _); [apply sbind_ok in H; destruct H as (? & ? & _ & H); eauto|].
      destruct (str_eqb tag (py "complexContent")); [apply sbind_ok in H; destruct H as (? & ? & _ & H); eauto|].
      destruct (str_eqb tag (py "sequence")); [apply sbind_ok in H; destruct H as (? & ? & _ & H); eauto|discriminate].
Qed.

(** ** The state shared by all loads *)
Definition agree (c c' : content) : Prop := fst c = fst c' /\ map fst (snd c) = map fst (snd c').
Definition same_name (o o' : sobj) : Prop := sobj_name o = sobj_name o'.
(** where [m] succeeds, [m'] does, also when started a group before *)
Definition later {A} (R : A -> A -> Prop) (m m' : SM A) : Prop :=
  forall b b', b' = true \/ b' = b -> forall b1 a, m b = (b1, Ok a) ->
  exists b1' a', m' b' = (b1', Ok a') /\ (b1' = true \/ b1' = b1) /\ R a a'.

Lemma later_ret : forall {A} (R : A -> A -> Prop) a a', R a a' -> later R (sret a) (sret a').
Proof. intros A R a a' H b b' D b1 x E. injection E as <- <-. exists b', a'. auto. Qed.

Lemma later_bind : forall {A B} (R : A -> A -> Prop) (S : B -> B -> Prop) m m' f f',
  later R m m' -> (forall a a', R a a' -> later S (f a) (f' a')) -> later S (sbind m f) (sbind m' f').
Proof.
  intros A B R S m m' f f' H F b b' D b2 r E. apply sbind_ok in E. destruct E as (b1 & a & E1 & E2).
  destruct (H b b' D _ _ E1) as (b1' & a' & G1 & D1 & Ra). destruct (F a a' Ra b1 b1' D1 _ _ E2) as (b2' & r' & G2 & D2 & Rr).
  exists b2', r'. split; auto. unfold sbind. rewrite G1. exact G2.
Qed.

Lemma later_lift : forall {A} (r : res A), later eq (slift r) (slift r).
Proof. intros A r b b' D b1 a E. injection E as <- ->. exists b', a. auto. Qed.

Lemma later_raise : forall {A} (R : A -> A -> Prop) e e', later R (sraise e) (sraise e').
Proof. intros A R e e' b b' D b1 a E. discriminate. Qed.

Lemma dset_keys : forall {V} k (v v' : V) d d', map fst d = map fst d' -> map fst (dset k v d) = map fst (dset k v' d').
Proof.
  unfold dset. induction d as [|[x w] d IH]; intros [|[x' w'] d'] H; try discriminate; cbn; auto.
  cbn in H. injection H as -> H. destruct (str_eqb k x'); cbn; f_equal; auto.
Qed.

Lemma dupdate_keys : forall {V} (e e' d d' : dict V), map fst d = map fst d' -> map fst e = map fst e' ->
  map fst (dupdate d e) = map fst (dupdate d' e').
Proof.
  unfold dupdate. induction e as [|[x w] e IH]; intros [|[x' w'] e'] d d' H H'; try discriminate; cbn; auto.
  cbn in H'. injection H' as -> H'. apply IH; auto. apply dset_keys. auto.
Qed.

Lemma agree_copy : forall o o' c c', agree o o' -> agree c c' -> agree (copy_to o c) (copy_to o' c').
Proof. intros o o' c c' [A B] [C D]. unfold agree, copy_to. cbn [fst snd]. rewrite A, C. split; auto. apply dupdate_keys; auto. Qed.

Lemma agree_child : forall o o' c c', same_name o o' -> agree c c' -> agree (add_child o c) (add_child o' c').
Proof. intros o o' c c' A [C D]. unfold agree, add_child. cbn [fst snd]. rewrite A. split; auto. apply dset_keys; auto. Qed.

Lemma agree_attr : forall a c c', agree c c' -> agree (add_attr a c) (add_attr a c').
Proof. intros a c c' [C D]. unfold agree, add_attr. cbn [fst snd]. rewrite C. split; auto. Qed.

Section Later.
  Context (st : option pystr -> SM content).
  Hypothesis St : forall r, later agree (st r) (st r).

  Lemma later_element : forall n, later same_name (schema_element st n) (schema_element st n).
  Proof.
    intros n. unfold schema_element. destruct (dget (py "type") (s_attrib n)) as [ty|].
    - eapply later_bind; [apply later_lift|]. intros nm_ ? <-.
      assert (P : later same_name
        (sdo c <- st (Some ty) ; let c' := copy_to c ([], []) in sret (SElem (dget (py "name") (s_attrib n)) (Some ty) (fst c') (snd c')))
        (sdo c <- st (Some ty) ; let c' := copy_to c ([], []) in sret (SElem (dget (py "name") (s_attrib n)) (Some ty) (fst c') (snd c')))).
      { eapply later_bind; [apply St|]. intros c c' A. apply later_ret. reflexivity. }
      destruct (str_eqb nm_ (py "group") && str_eqb ty (py "nx:groupType")); [|exact P].
      intros b b' D b1 a E. unfold sbind, get_started, set_started in E |- *.
      destruct b.
      + assert (b' = true) as -> by tauto. exists b1, a. split; [exact E|]. split; [auto|reflexivity].
      + destruct b'.
        * eexists true, _. split; [reflexivity|]. split; auto.
          destruct (st (Some ty) true) as [x [c|]]; [|discriminate]. injection E as _ <-. reflexivity.
        * exists b1, a. split; [exact E|]. split; [auto|reflexivity].
    - eapply later_bind; [apply later_lift|]. intros x ? <-. apply later_ret. reflexivity.
  Qed.

  Lemma later_sequence : forall l c c', agree c c' -> later agree (parse_sequence st c l) (parse_sequence st c' l).
  Proof.
    induction l as [|n l IH]; intros c c' A; cbn [parse_sequence]; [apply later_ret; auto|].
    destruct n as [|t a k]; [apply later_raise|].
    destruct (_ || _).
    - eapply later_bind; [apply later_element|]. intros o o' O. apply IH. apply agree_child; auto.
    - destruct (str_eqb t (py "any")); [apply IH; auto | apply later_raise].
  Qed.

  Lemma later_extension : forall l c c', agree c c' -> later agree (extension_content st c l) (extension_content st c' l).
  Proof.
    induction l as [|n l IH]; intros c c' A; cbn [extension_content]; [apply later_ret; auto|].
    destruct n as [|t a k]; [apply later_raise|].
    destruct (str_eqb t (py "annotation")); [apply IH; auto|].
    destruct (str_eqb t (py "attribute")).
    - eapply later_bind; [apply later_lift|]. intros x ? <-. apply IH. apply agree_attr; auto.
    - destruct (str_eqb t (py "sequence")); [|apply later_raise].
      eapply later_bind; [apply later_sequence; eauto|]. intros x y X. apply IH. auto.
  Qed.

  Lemma later_complex : forall l c c', agree c c' -> later agree (parse_complexContent st c l) (parse_complexContent st c' l).
  Proof.
    induction l as [|n l IH]; intros c c' A; cbn [parse_complexContent]; [apply later_ret; auto|].
    destruct n as [|t a k]; [apply later_raise|].
    destruct (str_eqb t (py "extension")); [|apply later_raise].
    destruct (dget (py "base") a) as [ref|]; [|apply later_raise].
    destruct (negb _); [apply later_raise|].
    eapply later_bind; [apply St|]. intros o o' O.
    eapply later_bind; [apply later_extension; apply agree_copy; eauto|]. intros x y X. apply IH. auto.
  Qed.

  Lemma later_structure : forall l c c', agree c c' -> later agree (type_structure st c l) (type_structure st c' l).
  Proof.
    induction l as [|n l IH]; intros c c' A; cbn [type_structure]; [apply later_ret; auto|].
    destruct n as [|t a k]; [apply IH; auto|].
    destruct (str_eqb t (py "annotation")); [apply IH; auto|].
    destruct (str_eqb t (py "attribute")).
    { eapply later_bind; [apply later_lift|]. intros x ? <-. apply IH. apply agree_attr; auto. }
    destruct (_ || _).
    { eapply later_bind; [apply St|]. intros o o' O. apply IH. apply agree_copy; auto. }
    destruct (str_eqb t (py "complexContent")).
    { eapply later_bind; [apply later_complex; eauto|]. intros x y X. apply IH. auto. }
    destruct (str_eqb t (py "sequence")); [|apply later_raise].
    eapply later_bind; [apply later_sequence; eauto|]. intros x y X. apply IH. auto.
  Qed.
End Later.

Lemma later_type : forall fuel root r, later agree (schema_type fuel root r) (schema_type fuel root r).
Proof.
  induction fuel as [|fuel IH]; intros root r; cbn [schema_type]; [apply later_raise|].
  destruct r as [r|]; [|apply later_raise].
  eapply later_bind; [apply later_lift|]. intros n ? <-. apply later_structure; [apply IH|]. split; auto.
Qed.

(** [d'] is [d] with what [x] has *)
Definition over {V} (x d d' : dict V) : Prop :=
  forall k, dget k d' = match dget k x with Some v => Some v | None => dget k d end.

Lemma over_set : forall {V} (x d d' : dict V) k v, over x d d' -> over (dset k v x) d (dset k v d').
Proof.
  intros V x d d' k v H k'. destruct (str_eqb_spec k k') as [<- | N].
  - rewrite !dget_dset_same. auto.
  - rewrite !dget_dset_other by auto. apply H.
Qed.

Lemma over_update : forall {V} (e x d d' : dict V), over x d d' -> over (dupdate x e) d (dupdate d' e).
Proof. unfold dupdate. induction e as [|[k v] e IH]; intros; cbn [fold_left fst snd]; auto. apply IH. apply over_set. auto. Qed.

(** the names only *)
Definition over_names {V} (x d d' : dict V) : Prop :=
  forall k, (dget k x <> None -> dget k d' <> None) /\ (dget k x = None -> dget k d' = dget k d).

Lemma over_names_set : forall {V} (x d d' : dict V) k v v', over_names x d d' -> over_names (dset k v x) d (dset k v' d').
Proof.
  intros V x d d' k v v' H k'. destruct (str_eqb_spec k k') as [<- | N].
  - rewrite !dget_dset_same. split; [intros _; discriminate|discriminate].
  - rewrite !dget_dset_other by auto. apply H.
Qed.

Lemma over_names_update : forall {V} (e e' x d d' : dict V), map fst e = map fst e' -> over_names x d d' ->
  over_names (dupdate x e) d (dupdate d' e').
Proof.
  unfold dupdate. induction e as [|[k v] e IH]; intros [|[k' v'] e'] x d d' K H; try discriminate; cbn [fold_left fst snd]; auto.
  cbn in K. injection K as -> K. apply IH; auto. apply over_names_set. auto.
Qed.

(** the state of a later run beside that of the first *)
Definition beside (g0 g gh : shared) : Prop :=
  (sh_started g = true \/ sh_started g = sh_started g0)
  /\ over (sh_attrs g0) (sh_attrs gh) (sh_attrs g)
  /\ over_names (sh_children g0) (sh_children gh) (sh_children g).

Definition g_later {A} (gh : shared) (R : A -> A -> Prop) (m m' : GM A) : Prop :=
  forall g0 g, beside g0 g gh -> forall g1 a, m g0 = (g1, Ok a) ->
  exists g1' a', m' g = (g1', Ok a') /\ beside g1 g1' gh /\ R a a'.

Lemma g_ret : forall {A} gh (R : A -> A -> Prop) a a', R a a' -> g_later gh R (gret a) (gret a').
Proof. intros A gh R a a' H g0 g B g1 x E. injection E as <- <-. exists g, a'. auto. Qed.

Lemma g_lift : forall {A} gh (r : res A), g_later gh eq (glift r) (glift r).
Proof. intros A gh r g0 g B g1 x E. injection E as <- ->. exists g, x. auto. Qed.

Lemma g_raise : forall {A} gh (R : A -> A -> Prop) e, g_later gh R (graise e) (graise e).
Proof. intros A gh R e g0 g B g1 x E. discriminate. Qed.

Lemma g_bind : forall {A B} gh (R : A -> A -> Prop) (S : B -> B -> Prop) m m' f f',
  g_later gh R m m' -> (forall a a', R a a' -> g_later gh S (f a) (f' a')) -> g_later gh S (gbind m f) (gbind m' f').
Proof.
  intros A B gh R S m m' f f' H F g0 g D g2 r E. unfold gbind in E. destruct (m g0) as [g1 [a|]] eqn:M; [|discriminate].
  destruct (H g0 g D _ _ M) as (g1' & a' & G1 & D1 & Ra). destruct (F a a' Ra g1 g1' D1 _ _ E) as (g2' & r' & G2 & D2 & Rr).
  exists g2', r'. split; auto. unfold gbind. rewrite G1. exact G2.
Qed.

Lemma g_of_sm : forall {A} gh (R : A -> A -> Prop) m m', later R m m' -> g_later gh R (of_sm m) (of_sm m').
Proof.
  intros A gh R m m' H g0 g (D1 & D2 & D3) g1 a E. unfold of_sm in E |- *. destruct (m (sh_started g0)) as [b r] eqn:M.
  injection E as <- ->. destruct (H _ _ D1 _ _ M) as (b' & a' & G & D & Ra). rewrite G.
  eexists _, a'. split; [reflexivity|]. split; auto. split; auto.
Qed.

Lemma g_change_copy : forall gh o o', agree o o' -> g_later gh eq (change (copy_to o)) (change (copy_to o')).
Proof.
  intros gh o o' [A1 A2] g0 g (D1 & D2 & D3) g1 a E. unfold change in E |- *. injection E as <- <-. cbn [copy_to fst snd].
  eexists _, tt. split; [reflexivity|]. split; auto. split; [exact D1|]. cbn [sh_attrs sh_children].
  rewrite <- A1. split; [apply over_update | apply over_names_update]; auto.
Qed.

Lemma g_change_child : forall gh o o', same_name o o' -> g_later gh eq (change (add_child o)) (change (add_child o')).
Proof.
  intros gh o o' A g0 g (D1 & D2 & D3) g1 a E. unfold change in E |- *. injection E as <- <-. cbn [add_child fst snd].
  eexists _, tt. split; [reflexivity|]. split; auto. split; [exact D1|]. cbn [sh_attrs sh_children]. rewrite A.
  split; auto. apply over_names_set; auto.
Qed.

Lemma g_change_attr : forall gh x, g_later gh eq (change (add_attr x)) (change (add_attr x)).
Proof.
  intros gh x g0 g (D1 & D2 & D3) g1 a E. unfold change in E |- *. injection E as <- <-. cbn [add_attr fst snd].
  eexists _, tt. split; [reflexivity|]. split; auto. split; [exact D1|]. cbn [sh_attrs sh_children].
  split; auto. apply over_set; auto.
Qed.

Lemma g_sequence : forall gh fuel root l, g_later gh eq (root_sequence fuel root l) (root_sequence fuel root l).
Proof.
  induction l as [|n l IH]; cbn [root_sequence]; [apply g_ret; auto|].
  destruct n as [|t a k]; [apply g_raise|].
  destruct (str_eqb t (py "element")).
  - eapply g_bind; [apply g_of_sm, later_element, later_type|]. intros o o' O.
    eapply g_bind; [apply g_change_child; eauto|]. intros; apply IH.
  - destruct (str_eqb t (py "group")); [|apply g_raise].
    eapply g_bind; [apply g_of_sm, later_type|]. intros o o' O.
    eapply g_bind; [apply g_change_copy; eauto|]. intros; apply IH.
Qed.

Lemma g_content : forall gh fuel root l, g_later gh eq (root_content fuel root l) (root_content fuel root l).
Proof.
  induction l as [|n l IH]; cbn [root_content]; [apply g_ret; auto|].
  destruct n as [|t a k]; [apply g_raise|].
  destruct (str_eqb t (py "attribute")).
  { eapply g_bind; [apply g_lift|]. intros o ? <-. eapply g_bind; [apply g_change_attr|]. intros; apply IH. }
  destruct (str_eqb t (py "attributeGroup")).
  { eapply g_bind; [apply g_of_sm, later_type|]. intros o o' O. eapply g_bind; [apply g_change_copy; eauto|]. intros; apply IH. }
  destruct (str_eqb t (py "sequence")).
  { eapply g_bind; [apply g_sequence|]. intros; apply IH. }
  destruct (str_eqb t (py "annotation")); [apply IH | apply g_raise].
Qed.

Definition same_own (m m' : smanager) : Prop := sm_types m = sm_types m' /\ sm_units m = sm_units m' /\ sm_patterns m = sm_patterns m'.

Lemma g_manager : forall gh E fuel d, g_later gh same_own (schema_manager E fuel d) (schema_manager E fuel d).
Proof.
  intros. unfold schema_manager. destruct (xd_nxdl d) as [root|]; [|apply g_raise].
  destruct (s_named (py "element") root) as [|el [|]]; try apply g_raise.
  destruct (dget (py "type") (s_attrib el)) as [ty|]; [|apply g_raise].
  eapply g_bind; [apply g_lift|]. intros n ? <-.
  eapply g_bind; [apply g_content|]. intros ? ? _.
  eapply g_bind; [apply g_lift|]. intros tu ? <-.
  eapply g_bind; [apply g_lift|]. intros ps ? <-.
  intros g0 g B g1 m H. injection H as <- <-. eexists g, _. split; [reflexivity|]. split; [auto|repeat split].
Qed.

Lemma beside_start : forall gh, beside process_start gh gh.
Proof.
  intros gh. split; [|split].
  - cbn. destruct (sh_started gh); auto.
  - intros k. reflexivity.
  - intros k. split; [intros H; exfalso; apply H; reflexivity | reflexivity].
Qed.

(** ** Equal flags: the same objects *)
Definition beside_eq (g0 g gh : shared) : Prop :=
  sh_started g = sh_started g0 /\ over (sh_attrs g0) (sh_attrs gh) (sh_attrs g) /\ over (sh_children g0) (sh_children gh) (sh_children g).
Definition g_same {A} (gh : shared) (R : A -> A -> Prop) (m : GM A) : Prop :=
  forall g0 g, beside_eq g0 g gh ->
  beside_eq (fst (m g0)) (fst (m g)) gh
  /\ match snd (m g0), snd (m g) with Ok a, Ok a' => R a a' | Exn e, Exn e' => e = e' | _, _ => False end.

Lemma s_ret : forall {A} gh (R : A -> A -> Prop) a, R a a -> g_same gh R (gret a).
Proof. intros A gh R a H g0 g B. cbn. auto. Qed.
Lemma s_lift : forall {A} gh (r : res A), g_same gh eq (glift r).
Proof. intros A gh r g0 g B. cbn. destruct r; auto. Qed.
Lemma s_raise : forall {A} gh (R : A -> A -> Prop) e, g_same gh R (@graise A e).
Proof. intros A gh R e g0 g B. cbn. auto. Qed.
Lemma s_of_sm : forall {A} gh (m : SM A), g_same gh eq (of_sm m).
Proof.
  intros A gh m g0 g (D1 & D2 & D3). unfold of_sm. rewrite D1. destruct (m (sh_started g0)) as [b [a|]]; cbn; repeat split; auto.
Qed.
Lemma s_bind : forall {A B} gh (S : B -> B -> Prop) (m : GM A) f, g_same gh eq m -> (forall a, g_same gh S (f a)) -> g_same gh S (gbind m f).
Proof.
  intros A B gh S m f H F g0 g D. specialize (H g0 g D). unfold gbind.
  destruct (m g0) as [g1 [a|e]], (m g) as [g1' [a'|e']]; cbn in *; destruct H as [H1 H2]; try contradiction; subst; auto.
  apply F; auto.
Qed.
Lemma s_change_copy : forall gh o, g_same gh eq (change (copy_to o)).
Proof. intros gh o g0 g (D1 & D2 & D3). cbn. split; [|auto]. split; [exact D1|]. cbn. split; apply over_update; auto. Qed.
Lemma s_change_child : forall gh o, g_same gh eq (change (add_child o)).
Proof. intros gh o g0 g (D1 & D2 & D3). cbn. split; [|auto]. split; [exact D1|]. cbn. split; auto. apply over_set; auto. Qed.
Lemma s_change_attr : forall gh o, g_same gh eq (change (add_attr o)).
Proof. intros gh o g0 g (D1 & D2 & D3). cbn. split; [|auto]. split; [exact D1|]. cbn. split; auto. apply over_set; auto. Qed.

Lemma s_sequence : forall gh fuel root l, g_same gh eq (root_sequence fuel root l).
Proof.
  induction l as [|n l IH]; cbn [root_sequence]; [apply s_ret; auto|].
  destruct n as [|t a k]; [apply s_raise|].
  destruct (str_eqb t (py "element")).
  - apply s_bind; [apply s_of_sm|]. intros o. apply s_bind; [apply s_change_child|]. intros; apply IH.
  - destruct (str_eqb t (py "group")); [|apply s_raise].
    apply s_bind; [apply s_of_sm|]. intros o. apply s_bind; [apply s_change_copy|]. intros; apply IH.
Qed.

Lemma s_content : forall gh fuel root l, g_same gh eq (root_content fuel root l).
Proof.
  induction l as [|n l IH]; cbn [root_content]; [apply s_ret; auto|].
  destruct n as [|t a k]; [apply s_raise|].
  destruct (str_eqb t (py "attribute")).
  { apply s_bind; [apply s_lift|]. intros o. apply s_bind; [apply s_change_attr|]. intros; apply IH. }
  destruct (str_eqb t (py "attributeGroup")).
  { apply s_bind; [apply s_of_sm|]. intros o. apply s_bind; [apply s_change_copy|]. intros; apply IH. }
  destruct (str_eqb t (py "sequence")).
  { apply s_bind; [apply s_sequence|]. intros; apply IH. }
  destruct (str_eqb t (py "annotation")); [apply IH | apply s_raise].
Qed.

Lemma s_manager : forall gh E fuel d, g_same gh same_own (schema_manager E fuel d).
Proof.
  intros. unfold schema_manager. destruct (xd_nxdl d) as [root|]; [|apply s_raise].
  destruct (s_named (py "element") root) as [|el [|]]; try apply s_raise.
  destruct (dget (py "type") (s_attrib el)) as [ty|]; [|apply s_raise].
  apply s_bind; [apply s_lift|]. intros n.
  apply s_bind; [apply s_content|]. intros _u.
  apply s_bind; [apply s_lift|]. intros tu.
  apply s_bind; [apply s_lift|]. intros ps.
  intros g0 g B. cbn. repeat split; auto; apply B.
Qed.

(** a started group stays so *)
Definition keeps {A} (m : SM A) : Prop := fst (m true) = true.
Lemma k_bind : forall {A B} (m : SM A) (f : A -> SM B), keeps m -> (forall a, keeps (f a)) -> keeps (sbind m f).
Proof.
  unfold keeps, sbind. intros A B m f H F. destruct (m true) as [b [a|]]; cbn in *; subst; auto.
Qed.
Lemma k_lift : forall {A} (r : res A), keeps (slift r).
Proof. reflexivity. Qed.
Section Keeps.
  Context (st : option pystr -> SM content).
  Hypothesis St : forall r, keeps (st r).
  Lemma k_element : forall n, keeps (schema_element st n).
  Proof.
    intros n. unfold schema_element. destruct (dget (py "type") (s_attrib n)) as [ty|].
    - apply k_bind; [apply k_lift|]. intros nm_. destruct (_ && _); [|apply k_bind; [apply St|reflexivity]].
      apply k_bind; [reflexivity|]. intros b. apply k_bind; [reflexivity|]. intros _u.
      destruct b; [reflexivity|]. apply k_bind; [apply St|reflexivity].
    - apply k_bind; [apply k_lift|]. reflexivity.
  Qed.
  Lemma k_sequence : forall l c, keeps (parse_sequence st c l).
  Proof.
    induction l as [|[|t a k] l IH]; intros c; cbn [parse_sequence]; [reflexivity|reflexivity|].
    destruct (_ || _); [apply k_bind; [apply k_element|auto]|]. destruct (str_eqb _ _); [auto|reflexivity].
  Qed.
  Lemma k_extension : forall l c, keeps (extension_content st c l).
  Proof.
    induction l as [|[|t a k] l IH]; intros c; cbn [extension_content]; [reflexivity|reflexivity|].
    destruct (str_eqb t _); [auto|]. destruct (str_eqb t _); [apply k_bind; [apply k_lift|auto]|].
    destruct (str_eqb t _); [apply k_bind; [apply k_sequence|auto]|reflexivity].
  Qed.
  Lemma k_complex : forall l c, keeps (parse_complexContent st c l).
  Proof.
    induction l as [|[|t a k] l IH]; intros c; cbn [parse_complexContent]; [reflexivity|reflexivity|].
    destruct (str_eqb t _); [|reflexivity]. destruct (dget _ a); [|reflexivity]. destruct (negb _); [reflexivity|].
    apply k_bind; [apply St|]. intros o. apply k_bind; [apply k_extension|auto].
  Qed.
  Lemma k_structure : forall l c, keeps (type_structure st c l).
  Proof.
    induction l as [|[|t a k] l IH]; intros c; cbn [type_structure]; [reflexivity|auto|].
    destruct (str_eqb t _); [auto|]. destruct (str_eqb t _); [apply k_bind; [apply k_lift|auto]|].
    destruct (_ || _); [apply k_bind; [apply St|auto]|].
    destruct (str_eqb t _); [apply k_bind; [apply k_complex|auto]|].
    destruct (str_eqb t _); [apply k_bind; [apply k_sequence|auto]|reflexivity].
  Qed.
End Keeps.
Lemma k_type : forall fuel root r, keeps (schema_type fuel root r).
Proof.
  induction fuel as [|fuel IH]; intros root r; cbn [schema_type]; [reflexivity|].
  destruct r as [r|]; [|reflexivity]. apply k_bind; [apply k_lift|]. intros n. apply k_structure. auto.
Qed.

Definition gkeeps {A} (m : GM A) : Prop := forall g, sh_started g = true -> sh_started (fst (m g)) = true.
Lemma gk_bind : forall {A B} (m : GM A) (f : A -> GM B), gkeeps m -> (forall a, gkeeps (f a)) -> gkeeps (gbind m f).
Proof.
  unfold gkeeps, gbind. intros A B m f H F g T. specialize (H g T). destruct (m g) as [g1 [a|]]; cbn in *; auto.
Qed.
Lemma gk_lift : forall {A} (r : res A), gkeeps (glift r).
Proof. intros A r g H. exact H. Qed.
Lemma gk_change : forall f, gkeeps (change f).
Proof. intros f g H. exact H. Qed.
Lemma gk_of : forall {A} (m : SM A), keeps m -> gkeeps (of_sm m).
Proof. intros A m K g H. unfold of_sm. rewrite H. unfold keeps in K. destruct (m true) as [b r]. exact K. Qed.
Lemma gk_sequence : forall fuel root l, gkeeps (root_sequence fuel root l).
Proof.
  induction l as [|[|t a k] l IH]; cbn [root_sequence]; try (intros g H; exact H).
  destruct (str_eqb t _); [apply gk_bind; [apply gk_of, k_element, k_type|intros; apply gk_bind; [apply gk_change|auto]]|].
  destruct (str_eqb t _); [apply gk_bind; [apply gk_of, k_type|intros; apply gk_bind; [apply gk_change|auto]]|intros g H; exact H].
Qed.
Lemma gk_content : forall fuel root l, gkeeps (root_content fuel root l).
Proof.
  induction l as [|[|t a k] l IH]; cbn [root_content]; try (intros g H; exact H).
  destruct (str_eqb t _); [apply gk_bind; [apply gk_lift|intros; apply gk_bind; [apply gk_change|auto]]|].
  destruct (str_eqb t _); [apply gk_bind; [apply gk_of, k_type|intros; apply gk_bind; [apply gk_change|auto]]|].
  destruct (str_eqb t _); [apply gk_bind; [apply gk_sequence|auto]|].
  destruct (str_eqb t _); [auto|intros g H; exact H].
Qed.
Lemma gk_manager : forall E fuel d, gkeeps (schema_manager E fuel d).
Proof.
  intros. unfold schema_manager. destruct (xd_nxdl d) as [root|]; [|intros g H; exact H].
  destruct (s_named (py "element") root) as [|el [|]]; try (intros g H; exact H).
  destruct (dget (py "type") (s_attrib el)) as [ty|]; [|intros g H; exact H].
  apply gk_bind; [apply gk_lift|]. intros n. apply gk_bind; [apply gk_content|]. intros _u.
  apply gk_bind; [apply gk_lift|]. intros tu. apply gk_bind; [apply gk_lift|]. intros ps g H. exact H.
Qed.
Lemma loads_keep : forall E fuel h' h, sh_started (loads E fuel h) = true -> sh_started (loads E fuel (h ++ h')) = true.
Proof.
  intros E fuel h' h. unfold loads. rewrite fold_left_app. generalize (fold_left (fun g d => fst (schema_manager E fuel d g)) h process_start).
  induction h' as [|d h' IH]; intros g H; cbn [fold_left]; auto. apply IH. apply gk_manager. auto.
Qed.

(** ** Units *)
Lemma enum_values_spec : forall l v, enum_values l = Ok v -> v = values_of (py "enumeration") l.
Proof.
  induction l as [|n l IH]; intros v H; cbn [enum_values] in H; [injection H as <-; auto|].
  unfold values_of. cbn [flat_map]. fold (values_of (py "enumeration") l). destruct n as [|t a k]; cbn [s_is s_attrib] in *; auto.
  destruct (str_eqb t (py "enumeration")); auto. unfold dgetitem in H. destruct (dget (py "value") a); [|discriminate]. cbn [rbind] in H.
  destruct (enum_values l) as [r|]; [|discriminate]. injection H as <-. cbn [app]. f_equal. auto.
Qed.

Lemma type_content_name : forall l t0 t, type_content t0 l = Ok t -> ty_name t = ty_name t0.
Proof.
  induction l as [|n l IH]; intros t0 t H; cbn [type_content] in H; [injection H as <-; auto|].
  destruct n as [|tag a k]; auto. destruct (str_eqb tag _); auto.
  destruct (str_eqb tag _). { unfold dgetitem in H. destruct (dget _ a); [|discriminate]. apply IH in H. auto. }
  destruct (str_eqb tag _). { unfold dgetitem in H. destruct (dget _ a); [|discriminate]. cbn [rbind] in H. destruct (enum_values k); [|discriminate]. apply IH in H. auto. }
  destruct (str_eqb tag _); [|discriminate]. unfold dgetitem in H. destruct (dget _ a); [|discriminate]. apply IH in H. auto.
Qed.

Lemma no_values : forall l t0 t, type_content t0 l = Ok t ->
  (forall ra rk, ~ In (SN (py "restriction") ra rk) l) -> (forall la lk, ~ In (SN (py "list") la lk) l) -> ty_values t = ty_values t0.
Proof.
  induction l as [|n l IH]; intros t0 t H NR NL; cbn [type_content] in H; [injection H as <-; auto|].
  assert (NR' : forall ra rk, ~ In (SN (py "restriction") ra rk) l) by (intros ra rk F; apply (NR ra rk); right; auto).
  assert (NL' : forall ra rk, ~ In (SN (py "list") ra rk) l) by (intros ra rk F; apply (NL ra rk); right; auto).
  destruct n as [|tag a k]; [apply IH in H; auto|].
  destruct (str_eqb tag (py "annotation")); [apply IH in H; auto|].
  destruct (str_eqb_spec tag (py "list")) as [-> | _]. { exfalso. apply (NL a k). left. auto. }
  destruct (str_eqb_spec tag (py "restriction")) as [-> | _]. { exfalso. apply (NR a k). left. auto. }
  destruct (str_eqb tag (py "union")); [|discriminate].
  unfold dgetitem in H. destruct (dget _ a); [|discriminate]. cbn [rbind] in H. apply IH in H; auto.
Qed.

Lemma enum_found : forall l t0 t ra rk, type_content t0 l = Ok t -> In (SN (py "restriction") ra rk) l ->
  (forall x, In x l -> x = SN (py "restriction") ra rk \/ (exists aa ak, x = SN (py "annotation") aa ak) \/ x = SComment) ->
  ty_values t = Some (values_of (py "enumeration") rk).
Proof.
  intros l t0 t ra rk. revert t0.
  assert (G : forall l t0, type_content t0 l = Ok t -> (In (SN (py "restriction") ra rk) l \/ ty_values t0 = Some (values_of (py "enumeration") rk)) ->
    (forall x, In x l -> x = SN (py "restriction") ra rk \/ (exists aa ak, x = SN (py "annotation") aa ak) \/ x = SComment) ->
    ty_values t = Some (values_of (py "enumeration") rk)).
  { clear l. induction l as [|n l IH]; intros t0 H D O; cbn [type_content] in H.
    - injection H as <-. destruct D as [[]|D]; auto.
    - assert (O' : forall x, In x l -> x = SN (py "restriction") ra rk \/ (exists aa ak, x = SN (py "annotation") aa ak) \/ x = SComment)
        by (intros x J; apply O; right; auto).
      destruct (O n) as [-> | [(aa & ak & ->) | ->]]; [left; auto| | |].
      + change (str_eqb (py "restriction") (py "annotation")) with false in H.
        change (str_eqb (py "restriction") (py "list")) with false in H.
        change (str_eqb (py "restriction") (py "restriction")) with true in H. cbn iota in H.
        unfold dgetitem in H. destruct (dget (py "base") ra); [|discriminate]. cbn [rbind] in H.
        destruct (enum_values rk) as [v|] eqn:V; [|discriminate]. cbn [rbind] in H. apply enum_values_spec in V. subst v.
        eapply IH; [exact H|right; reflexivity|exact O'].
      + change (str_eqb (py "annotation") (py "annotation")) with true in H. cbn iota in H.
        eapply IH; [exact H| |exact O']. destruct D as [[D|D]|D]; [discriminate|auto|auto].
      + eapply IH; [exact H| |exact O']. destruct D as [[D|D]|D]; [discriminate|auto|auto]. }
  intros t0 H I O. eapply G; eauto.
Qed.

Lemma ddel_other : forall {V} k k' (d : dict V), k <> k' -> dget k' (ddel k d) = dget k' d.
Proof.
  unfold ddel. induction d as [|[x v] d IH]; intros N; cbn [filter fst]; auto.
  destruct (str_eqb_spec x k) as [-> | X]; cbn [negb].
  - rewrite dget_cons. destruct (str_eqb_spec k' k); [congruence|auto].
  - rewrite !dget_cons. destruct (str_eqb k' x); auto.
Qed.

Lemma types_of_get : forall l db db' tag a k u, types_of db l = Ok db' ->
  (In (SN tag a k) l \/ exists t, dget u db = Some t /\ type_content (mkTy (Some u) None None None) k = Ok t) ->
  tag <> py "annotation" -> dget (py "name") a = Some u ->
  (forall x, In x l -> called u x -> x = SN tag a k) ->
  exists t, dget u db' = Some t /\ type_content (mkTy (Some u) None None None) k = Ok t.
Proof.
  induction l as [|n l IH]; intros db db' tag a k u H D NA Nm U; cbn [types_of] in H.
  - injection H as <-. destruct D as [[]|D]; auto.
  - assert (U' : forall x, In x l -> called u x -> x = SN tag a k) by (intros x J; apply U; right; auto).
    destruct n as [|tg at_ kd].
    { apply (IH _ _ tag a k u H); auto. destruct D as [[D|D]|D]; [discriminate|auto|auto]. }
    destruct (str_eqb_spec tg (py "annotation")) as [-> | T].
    { apply (IH _ _ tag a k u H); auto. destruct D as [[D|D]|D]; [|auto|auto]. injection D as D _ _. exfalso; apply NA; symmetry; exact D. }
    destruct (type_content (mkTy (dget (py "name") at_) None None None) kd) as [t|] eqn:C; [|discriminate]. cbn [rbind] in H.
    pose proof (type_content_name _ _ _ C) as N. cbn [ty_name] in N. rewrite N in H.
    destruct (dget (py "name") at_) as [x|] eqn:X.
    + apply (IH _ _ tag a k u H); auto. destruct (str_eqb_spec x u) as [-> | NE].
      * right. exists t. rewrite dget_dset_same. split; auto.
        assert (E : SN tg at_ kd = SN tag a k) by (apply U; [left; auto|do 3 eexists; split; [reflexivity|auto]]).
        injection E as _ _ ->. auto.
      * destruct D as [[D|D]|(t' & D1 & D2)]; [|auto|].
        -- injection D as -> -> ->. congruence.
        -- right. exists t'. rewrite dget_dset_other; auto.
    + apply (IH _ _ tag a k u H); auto. destruct D as [[D|D]|D]; [|auto|auto]. injection D as -> -> ->. congruence.
Qed.

Lemma units_found : forall types tag a k db units, parse_nxdlTypes (Some types) = Ok (db, units) ->
  In (SN tag a k) types -> tag <> py "annotation" -> dget (py "name") a = Some (py "anyUnitsAttr") ->
  (forall x, In x types -> called (py "anyUnitsAttr") x -> x = SN tag a k) ->
  exists t, type_content (mkTy (Some (py "anyUnitsAttr")) None None None) k = Ok t
    /\ units = match ty_values t with Some v => v | None => [] end.
Proof.
  intros types tag a k db units H I NA Nm U. unfold parse_nxdlTypes in H.
  destruct (types_of [] types) as [d|] eqn:T; [|discriminate]. cbn [rbind] in H.
  destruct (types_of_get _ _ _ tag a k (py "anyUnitsAttr") T (or_introl I) NA Nm U) as (t & G & C).
  unfold dgetitem in H. rewrite G in H. cbn [rbind] in H. destruct (dmem _ _); [|discriminate]. injection H as _ <-. eauto.
Qed.
