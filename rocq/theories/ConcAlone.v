(** * A process that is alone does what Install.v says *)

From Coq Require Import List NArith ZArith Bool String Lia.
From Verif Require Import PyBase PyFacts Cache Install Cli Conc Spec_Install Spec_Conc InstallFacts InstallEnd ConcFacts.
From Verif Require CliFacts WholeFacts.
Import ListNotations.
Open Scope string_scope.
Open Scope list_scope.

(** the same result, the same end and the same states on the way *)
Definition same {A} (e : entries) (a b : list entries * entries * res A) : Prop :=
  snd (fst a) = snd (fst b) /\ snd a = snd b /\ (forall s, In s (e :: fst (fst a)) <-> In s (e :: fst (fst b))) /\ In (snd (fst b)) (e :: fst (fst b)).

Lemma same_visited : forall {A} e (a b : list entries * entries * res A), same e a b -> forall s, visited e a s <-> visited e b s.
Proof.
  intros A e a b (E & R & I & F) s. unfold visited. rewrite E.
  assert (X : forall l, (s = e \/ In s l \/ s = snd (fst b)) <-> (In s (e :: l) \/ s = snd (fst b))) by (intros l; cbn [In]; intuition congruence).
  rewrite !X, I. reflexivity.
Qed.

Lemma same_refl : forall {A} e (a : list entries * entries * res A), In (snd (fst a)) (e :: fst (fst a)) -> same e a a.
Proof. intros A e a H. repeat split; auto. Qed.

Lemma alone_bind : forall {A B} (m : prog A) (k : A -> prog B) e, alone (pbind m k) e = wbind (alone m) (fun a => alone (k a)) e.
Proof.
  intros A B. induction m as [r | f IH] using prog_ind2; intros k e; unfold wbind.
  - destruct r as [a|x]; cbn [pbind alone]; [|reflexivity]. destruct (alone (k a) e) as [[l e2] r2]. reflexivity.
  - cbn [pbind alone]. specialize (IH e). destruct (f e) as [e1 p1]. cbn [snd] in IH. rewrite IH. unfold wbind. destruct (alone p1 e1) as [[l e2] [a|x]]; [|reflexivity].
    destruct (alone (k a) e2) as [[l2 e3] r3]. reflexivity.
Qed.

Lemma same_wbind : forall {A B} (m m' : W A) (k k' : A -> W B) e, same e (m e) (m' e) ->
  (forall l e1 a, m' e = (l, e1, Ok a) -> same e1 (k a e1) (k' a e1)) -> same e (wbind m k e) (wbind m' k' e).
Proof.
  intros A B m m' k k' e (E & R & I & F) H. unfold wbind. destruct (m e) as [[l e1] r], (m' e) as [[l' e1'] r']. cbn [fst snd] in *. subst e1' r'.
  destruct r as [a|x]; [|repeat split; auto; apply I]. specialize (H _ _ _ eq_refl). destruct (k a e1) as [[l2 e2] r2], (k' a e1) as [[l2' e2'] r2'].
  destruct H as (E' & R' & I' & F'). cbn [fst snd] in *. subst e2' r2'.
  assert (X : forall s, In s (e :: l ++ l2) <-> In s (e :: l) \/ In s (e1 :: l2)).
  { intros s. cbn [In]. rewrite in_app_iff. split; [intuition|]. intros [[Y | Y] | [Y | Y]]; auto. subst s. apply I in F. destruct F; auto. }
  assert (X' : forall s, In s (e :: l' ++ l2') <-> In s (e :: l') \/ In s (e1 :: l2')).
  { intros s. cbn [In]. rewrite in_app_iff. split; [intuition|]. intros [[Y | Y] | [Y | Y]]; auto. subst s. destruct F; auto. }
  repeat split; cbn [fst snd]; try reflexivity; [intros Y; apply X'; apply X in Y; rewrite <- I, <- I'; exact Y | intros Y; apply X; apply X' in Y; rewrite I, I'; exact Y |].
  apply X'. right. exact F'.
Qed.

Lemma same_bind : forall {A B} (m : prog A) (m' : W A) (k : A -> prog B) (k' : A -> W B) e, same e (alone m e) (m' e) ->
  (forall l e1 a, m' e = (l, e1, Ok a) -> same e1 (alone (k a) e1) (k' a e1)) -> same e (alone (pbind m k) e) (wbind m' k' e).
Proof. intros A B m m' k k' e H Hk. rewrite alone_bind. apply (same_wbind (alone m) m'); auto. Qed.

Lemma same_done : forall {A} (r : res A) e, same e (alone (Done r) e) ([], e, r).
Proof. intros A r e. repeat split; auto; left; reflexivity. Qed.

Lemma same_look : forall {A} (k : entries -> prog A) b e, same e (alone (k e) e) b -> same e (alone (plook k) e) b.
Proof.
  intros A k b e (E & R & I & F). unfold plook. cbn [alone]. destruct (alone (k e) e) as [[l e2] r]. cbn [fst snd] in *. split; [exact E|]. split; [exact R|]. split; [|exact F].
  intros s. rewrite <- I. cbn [fst In]. intuition.
Qed.

(** one step that changes the directory *)
Lemma same_change : forall {A} (f : entries -> entries * prog A) e e1 p1 b l e2 r, f e = (e1, p1) -> b = (e1 :: l, e2, r) -> same e1 (alone p1 e1) (l, e2, r) -> same e (alone (Step f) e) b.
Proof.
  intros A f e e1 p1 b l e2 r Ef -> (E & R & I & F). cbn [alone]. rewrite Ef. destruct (alone p1 e1) as [[l1 e3] r1]. cbn [fst snd] in *. subst e3 r1.
  repeat split; auto; cbn [fst snd].
  - intros [X | X]; [left; exact X | right; apply I, X].
  - intros [X | X]; [left; exact X | right; apply I, X].
  - right. exact F.
Qed.
Lemma same_stay : forall {A} (f : entries -> entries * prog A) e p1 b, f e = (e, p1) -> same e (alone p1 e) b -> same e (alone (Step f) e) b.
Proof.
  intros A f e p1 b Ef (E & R & I & F). cbn [alone]. rewrite Ef. destruct (alone p1 e) as [[l1 e3] r1]. cbn [fst snd] in *. repeat split; auto; cbn [fst snd].
  - intros X. apply I. cbn [In] in *. intuition.
  - intros X. apply I in X. cbn [In] in *. intuition.
Qed.

(** ** The steps *)
Lemma same_makedirs : forall todo done e, same e (alone (pmakedirs done todo) e) (wmakedirs done todo e).
Proof.
  induction todo as [|n todo IH]; intros done e; [apply same_done|]. cbn [pmakedirs wmakedirs]. apply same_look.
  unfold wbind at 1, wget. destruct (tget (done ++ [n]) e) as [[c|es]|] eqn:G.
  - cbn. apply (same_done (Exn OSError)).
  - specialize (IH (done ++ [n]) e). destruct (wmakedirs (done ++ [n]) todo e) as [[l e2] r]. exact IH.
  - unfold wmkdir, wbind. destruct (tput (done ++ [n]) (TDir []) e) as [e'|] eqn:T.
    + specialize (IH (done ++ [n]) e'). destruct (wmakedirs (done ++ [n]) todo e') as [[l e2] r] eqn:Wm. cbn [app]. eapply same_change; [rewrite G, T; reflexivity | reflexivity | exact IH].
    + eapply same_stay; [rewrite G, T; reflexivity | apply (same_done (Exn OSError))].
Qed.

Lemma dset_same : forall {V} n (v : V) d, dget n d = Some v -> dset n v d = d.
Proof.
  intros V n v. unfold dget, dset. induction d as [|[k w] d IH]; intros H; [discriminate|]. cbn [aget aset] in *. destruct (str_eqb_spec n k) as [-> | N]; [congruence|]. rewrite IH; auto.
Qed.
Lemma dset_twice : forall {V} n (v w : V) d, dset n v (dset n w d) = dset n v d.
Proof.
  intros V n v w. unfold dset. induction d as [|[k x] d IH]; cbn [aset]; [rewrite str_eqb_refl; reflexivity|].
  destruct (str_eqb n k) eqn:E; cbn [aset]; rewrite E; [reflexivity|]. rewrite IH. reflexivity.
Qed.
Lemma dremove_dset : forall {V} n (v : V) d, dremove n (dset n v d) = dremove n d.
Proof.
  intros V n v. unfold dset, dremove. induction d as [|[k x] d IH]; cbn [aset filter fst]; [rewrite str_eqb_refl; reflexivity|].
  destruct (str_eqb_spec n k) as [<- | N]; cbn [filter fst].
  - rewrite str_eqb_refl. reflexivity.
  - rewrite IH. destruct (str_eqb k n); reflexivity.
Qed.

Lemma tput_twice : forall p c d e e', tput p (TFile c) e = Some e' -> tput p (TFile d) e' = tput p (TFile d) e.
Proof.
  induction p as [|n p IH]; intros c d e e' H; [discriminate|]. destruct p as [|m p].
  - cbn [tput] in *. injection H as <-. rewrite dset_twice. reflexivity.
  - rewrite tput_cons in H by discriminate. rewrite !(tput_cons n (m :: p)) by discriminate. destruct (dget n e) as [[x|es]|] eqn:G; try discriminate. destruct (tput (m :: p) (TFile c) es) as [es'|] eqn:T; [|discriminate].
    injection H as <-. rewrite dget_dset_same. rewrite (IH _ d _ _ T). destruct (tput (m :: p) (TFile d) es); [rewrite dset_twice|]; reflexivity.
Qed.
Lemma tput_any : forall p c d e e', tput p (TFile c) e = Some e' -> exists e'', tput p (TFile d) e = Some e''.
Proof.
  induction p as [|n p IH]; intros c d e e' H; [discriminate|]. destruct p as [|m p]; [cbn [tput]; eauto|].
  rewrite tput_cons in * by discriminate. destruct (dget n e) as [[x|es]|]; try discriminate. destruct (tput (m :: p) (TFile c) es) as [es'|] eqn:T; [|discriminate].
  destruct (IH _ d _ _ T) as (y & ->). eauto.
Qed.

Definition beginnings (p : list pystr) (data : pystr) (e : entries) (from : nat) (n : nat) : list entries :=
  flat_map (fun k => match tput p (TFile (firstn k data)) e with Some x => [x] | None => [] end) (seq from n).

Lemma alone_fill : forall p e todo done e0, tput p (TFile done) e = Some e0 ->
  exists e2, tput p (TFile (done ++ todo)) e = Some e2
    /\ (e0 :: fst (fst (alone (pfill p done todo) e0))) = beginnings p (done ++ todo) e (List.length done) (S (List.length todo)) /\ snd (fst (alone (pfill p done todo) e0)) = e2
    /\ snd (alone (pfill p done todo) e0) = Ok tt.
Proof.
  intros p e. induction todo as [|c todo IH]; intros done e0 T.
  - exists e0. rewrite app_nil_r. cbn [pfill alone fst snd List.length]. split; [exact T|]. split; [|auto].
    unfold beginnings. cbn [seq flat_map]. rewrite firstn_all, T. reflexivity.
  - destruct (tput_any p done (done ++ [c]) e e0 T) as (e1 & T1).
    destruct (IH (done ++ [c]) e1 T1) as (e2 & T2 & L & E & R). exists e2. rewrite <- app_assoc in T2, L. cbn [app] in T2, L. split; [exact T2|].
    cbn [pfill alone]. rewrite (tput_twice p done (done ++ [c]) e e0 T), T1. destruct (alone (pfill p (done ++ [c]) todo) e1) as [[l e3] r]. cbn [fst snd] in *.
    split; [|auto]. rewrite L. unfold beginnings. rewrite app_length. cbn [List.length]. rewrite PeanoNat.Nat.add_1_r. cbn [seq flat_map].
    replace (firstn (List.length done) (done ++ c :: todo)) with done by (rewrite firstn_app, firstn_all, PeanoNat.Nat.sub_diag; cbn [firstn]; rewrite app_nil_r; reflexivity).
    rewrite T. reflexivity.
Qed.

Lemma same_write : forall p data e, same e (alone (pwrite p data) e) (wwrite p data e).
Proof.
  intros p data e. unfold pwrite, wwrite. destruct (tput p (TFile data) e) as [e'|] eqn:T.
  2:{ assert (T0 : tput p (TFile []) e = None) by (destruct (tput p (TFile []) e) as [x|] eqn:X; [destruct (tput_any p [] data e x X) as (y & Y); congruence | reflexivity]).
      destruct (tget p e) as [[c|es]|] eqn:G; (eapply same_stay; [rewrite G, ?T0; reflexivity | apply (same_done (Exn OSError))]). }
  destruct (tput_any p data [] e e' T) as (e0 & T0).
  destruct (alone_fill p e data [] e0 T0) as (e2 & T2 & L & E & R). cbn [app] in T2, L. assert (e2 = e') by congruence. subst e2.
  assert (X : (tget p e = None \/ exists c, tget p e = Some (TFile c)) -> same e (alone (pwrite p data) e) (beginnings p data e 0 (List.length data) ++ [e'], e', Ok tt)).
  { intros G. unfold pwrite. assert (Ef : match tget p e with Some (TDir _) => (e, Done (Exn OSError)) | _ => match tput p (TFile []) e with Some e' => (e', pfill p [] data) | None => (e, Done (Exn OSError)) end end = (e0, pfill p [] data)).
    { destruct G as [-> | (c & ->)]; rewrite T0; reflexivity. }
    assert (Lb : beginnings p data e 0 (List.length data) ++ [e'] = e0 :: fst (fst (alone (pfill p [] data) e0))).
    { rewrite L. unfold beginnings. cbn [List.length]. rewrite seq_S, flat_map_app. cbn [flat_map plus]. rewrite firstn_all, T. reflexivity. }
    rewrite Lb. eapply same_change; [exact Ef | reflexivity|]. destruct (alone (pfill p [] data) e0) as [[l e3] r]. cbn [fst snd] in *. subst e3 r.
    apply same_refl. cbn [fst snd]. rewrite <- Lb. apply in_or_app. right. left. reflexivity. }
  destruct (tget p e) as [[c|es]|] eqn:G.
  - apply X. eauto.
  - eapply same_stay; [rewrite G; reflexivity | apply (same_done (Exn OSError))].
  - apply X. auto.
Qed.

Lemma same_extract : forall name data e, same e (alone (pextract name data) e) (wextract name data e).
Proof.
  intros name data e. unfold pextract, wextract. apply same_bind; [apply same_makedirs|]. intros l e1 a _. destruct (endswith name [ch_slash]); [|apply same_write].
  apply same_look. unfold wbind, wget. destruct (tget (safe_parts name) e1) as [[c|es]|] eqn:G.
  - apply (same_done (Exn OSError)).
  - apply (same_done (Ok tt)).
  - unfold wmkdir. destruct (tput (safe_parts name) (TDir []) e1) as [e'|] eqn:T.
    + cbn [app]. eapply same_change; [rewrite G, T; reflexivity | reflexivity | apply (same_done (Ok tt))].
    + eapply same_stay; [rewrite G, T; reflexivity | apply (same_done (Exn OSError))].
Qed.

Lemma same_extract_all : forall z top ms count e, same e (alone (pextract_all z top count ms) e) (extract_all z top count ms e).
Proof.
  intros z top. induction ms as [|m ms IH]; intros count e; [apply same_done|]. cbn [pextract_all extract_all].
  destruct (is_extractable (m_name m) NXDL_file_endings (allowed_parents top)); [|apply IH]. apply same_bind; [apply same_extract|]. intros l e1 a _. apply IH.
Qed.

(** ** Deleting a directory *)
Record plug (p : list pystr) (ctx : option tree -> entries) : Prop := mkPlug {
  pl_get : forall t, tget p (ctx (Some t)) = Some t;
  pl_del : forall t, tdel p (ctx (Some t)) = ctx None;
  pl_in : forall es q, q <> [] -> tdel (p ++ q) (ctx (Some (TDir es))) = ctx (Some (TDir (tdel q es)))
}.

Lemma plug_name : forall name e, plug [name] (fun o => match o with Some t => dset name t e | None => dremove name e end).
Proof.
  intros name e. constructor.
  - intros t. cbn [tget]. rewrite dget_dset_same. destruct t; reflexivity.
  - intros t. cbn [tdel]. apply dremove_dset.
  - intros es q Nq. destruct q as [|m q]; [congruence|]. change ([name] ++ m :: q) with (name :: m :: q). cbn [tdel]. rewrite dget_dset_same, dset_twice. reflexivity.
Qed.

Lemma dremove_absent : forall {V} n (d : dict V), ~ In n (map fst d) -> dremove n d = d.
Proof.
  intros V n. unfold dremove. induction d as [|[k v] d IH]; intros H; [reflexivity|]. cbn [filter fst]. destruct (str_eqb_spec k n) as [-> | N]; [destruct H; left; reflexivity|].
  cbn [negb]. rewrite IH; auto. intros X. apply H. right. exact X.
Qed.

Lemma plug_child : forall p ctx n rest, plug p ctx -> ~ In n (map fst rest) ->
  plug (p ++ [n]) (fun o => ctx (Some (TDir (match o with Some t => (n, t) :: rest | None => rest end)))).
Proof.
  intros p ctx n rest P N. constructor.
  - intros t. rewrite (WholeFacts.tget_app _ [n] _ _ (pl_get _ _ P _)). cbn [tget]. unfold dget. cbn [aget]. rewrite str_eqb_refl. destruct t; reflexivity.
  - intros t. rewrite (pl_in _ _ P) by discriminate. cbn [tdel]. unfold dremove. cbn [filter fst]. rewrite str_eqb_refl. cbn [negb]. fold (dremove n rest). rewrite dremove_absent by exact N. reflexivity.
  - intros es q Nq. rewrite <- app_assoc. rewrite (pl_in _ _ P) by discriminate. destruct q as [|m q]; [congruence|]. change ([n] ++ m :: q) with (n :: m :: q). cbn [tdel].
    unfold dget, dset. cbn [aget aset]. rewrite str_eqb_refl. reflexivity.
Qed.

Lemma alone_deletes : forall a b e, alone (pdeletes (a ++ b)) e =
  let '(l, e1, _) := alone (pdeletes a) e in let '(l2, e2, _) := alone (pdeletes b) e1 in (l ++ l2, e2, Ok tt).
Proof.
  induction a as [|p a IH]; intros b e.
  - cbn [app pdeletes alone]. destruct (alone (pdeletes b) e) as [[l2 e2] r] eqn:B. assert (R : r = Ok tt).
    { clear -B. revert e l2 e2 r B. induction b as [|p b IH]; intros e l2 e2 r B; cbn [pdeletes alone] in B; [congruence|].
      destruct (alone (pdeletes b) (pdelete p e)) as [[l e3] r3] eqn:E. injection B as _ _ <-. eapply IH; eauto. }
    rewrite R. reflexivity.
  - cbn [app pdeletes alone]. rewrite IH. destruct (alone (pdeletes a) (pdelete p e)) as [[l e1] r]. destruct (alone (pdeletes b) e1) as [[l2 e2] r2]. reflexivity.
Qed.

Lemma rm_paths_dir : forall es p, rm_paths p (TDir es) = flat_map (fun nt => rm_paths (p ++ [fst nt]) (snd nt)) es ++ [p].
Proof. intros es p. cbn [rm_paths]. induction es as [|[n t] es IH]; [reflexivity|]. cbn [flat_map fst snd]. rewrite <- app_assoc, IH. reflexivity. Qed.

Lemma alone_delete : forall t, once_each t -> forall p ctx, plug p ctx -> alone (pdeletes (rm_paths p t)) (ctx (Some t)) = (rm_tree t ctx, ctx None, Ok tt).
Proof.
  induction t as [c | es IH] using tree_ind2; intros O p ctx P.
  - cbn [rm_paths pdeletes alone rm_tree]. unfold pdelete. rewrite (pl_get _ _ P), (pl_del _ _ P). reflexivity.
  - rewrite rm_paths_dir, rm_tree_dir. inversion O as [|es0 ND Oe]; subst.
    assert (K : forall l, (forall n t, In (n, t) l -> In (n, t) es) -> NoDup (map fst l) ->
      alone (pdeletes (flat_map (fun nt => rm_paths (p ++ [fst nt]) (snd nt)) l ++ [p])) (ctx (Some (TDir l))) = (rm_go ctx l, ctx None, Ok tt)).
    { induction l as [|[n t] l IHl]; intros Sub Nd.
      - cbn [flat_map app pdeletes alone rm_go]. unfold pdelete. rewrite (pl_get _ _ P), (pl_del _ _ P). reflexivity.
      - cbn [flat_map fst snd rm_go]. rewrite <- app_assoc, alone_deletes. inversion Nd as [|x y Nn Nl]; subst.
        pose proof (IH n t (Sub n t (or_introl eq_refl)) (Oe n t (Sub n t (or_introl eq_refl))) (p ++ [n]) _ (plug_child p ctx n l P Nn)) as X. cbv beta iota in X. rewrite X.
        rewrite IHl; [reflexivity | intros n' t' I'; apply Sub; right; exact I' | exact Nl]. }
    apply K; auto.
Qed.

Lemma rm_go_in : forall ctx es, In (ctx None) (rm_go ctx es).
Proof. intros ctx. induction es as [|[n t] es IH]; [left; reflexivity|]. cbn [rm_go]. apply in_or_app. right. exact IH. Qed.
Lemma same_rmtree : forall name e, (forall t, dget name e = Some t -> once_each t) -> same e (alone (prmtree name) e) (wrmtree name e).
Proof.
  intros name e O. apply same_look. unfold wrmtree. destruct (dget name e) as [[c|es]|] eqn:G; [apply (same_done (Ok tt)) | | apply (same_done (Ok tt))].
  pose proof (alone_delete (TDir es) (O _ eq_refl) [name] _ (plug_name name e)) as X. cbv beta iota in X. rewrite (dset_same _ _ _ G) in X. rewrite X.
  rewrite rm_tree_dir, rm_go_last. apply same_refl. cbn [fst snd]. right.
  apply (rm_go_in (fun o => match o with Some t => dset name t e | None => dremove name e end)).
Qed.

Lemma same_move : forall src dst e, (forall es, dget dst e <> Some (TDir es)) -> same e (alone (pmove src dst) e) (wmove src dst e).
Proof.
  intros src dst e H. unfold pmove, wmove. destruct (dget src e) as [t|] eqn:S.
  - destruct (dget dst e) as [[c|es]|] eqn:D; [| destruct (H es eq_refl) |].
    + eapply same_stay; [rewrite S, D; reflexivity | apply (same_done (Exn OSError))].
    + eapply same_change; [rewrite S, D; reflexivity | reflexivity | apply (same_done (Ok tt))].
  - eapply same_stay; [rewrite S; reflexivity | apply (same_done (Exn OSError))].
Qed.

(** ** download_file_set *)
Lemma rmtree_end : forall name e l e1 a, wrmtree name e = (l, e1, Ok a) -> forall es, dget name e1 <> Some (TDir es).
Proof.
  intros name e l e1 a H es. unfold wrmtree in H. destruct (dget name e) as [[c|es0]|] eqn:G; [congruence| |congruence].
  rewrite rm_tree_dir, rm_go_last in H. injection H as _ <- _. rewrite dget_dremove, str_eqb_refl. discriminate.
Qed.

(** ** No directory gets two entries of one name *)
Definition tidy (e : entries) : Prop := once_each (TDir e).
Inductive keeping {A} : prog A -> Prop :=
| ke_done : forall r, keeping (Done r)
| ke_step : forall f, (forall e, tidy e -> tidy (fst (f e))) -> (forall e, keeping (snd (f e))) -> keeping (Step f).

Lemma keeping_bind : forall {A B} (m : prog A) (k : A -> prog B), keeping m -> (forall a, keeping (k a)) -> keeping (pbind m k).
Proof.
  intros A B m k H Hk. induction H as [r | f T H IH]; [destruct r; cbn [pbind]; [apply Hk | constructor]|].
  cbn [pbind]. constructor; intros e; specialize (T e); specialize (IH e); destruct (f e) as [e' m']; auto.
Qed.
Lemma keeping_look : forall {A} (k : entries -> prog A), (forall e, keeping (k e)) -> keeping (plook k).
Proof. intros A k H. constructor; cbn [fst snd]; auto. Qed.
Lemma keeping_step : forall {A} (p : prog A) e, keeping p -> tidy e -> tidy (fst (step p e)) /\ keeping (snd (step p e)).
Proof. intros A p e [r | f T H] O; cbn [step fst snd]; [split; [exact O | constructor] | auto]. Qed.

Lemma in_dset : forall {V} n (v : V) d x, In x (dset n v d) -> In x d \/ snd x = v.
Proof.
  intros V n v. unfold dset. induction d as [|[k w] d IH]; intros x I; cbn [aset] in I; [destruct I as [<- | []]; right; reflexivity|].
  destruct (str_eqb n k); destruct I as [<- | I]; cbn [snd In]; auto. apply IH in I as [I | I]; auto.
Qed.
Lemma tidy_dset : forall n t e, tidy e -> once_each t -> tidy (dset n t e).
Proof.
  intros n t e O Ot. inversion O as [|es ND H]; subst. constructor; [apply dset_NoDup, ND|]. intros m u I.
  apply in_dset in I as [I | E]; [eauto | cbn [snd] in E; rewrite E; exact Ot].
Qed.
Lemma tidy_dremove : forall n e, tidy e -> tidy (dremove n e).
Proof.
  intros n e O. inversion O as [|es ND H]; subst. constructor; [apply WholeFacts.dremove_NoDup, ND|]. intros m u I. unfold dremove in I. apply filter_In in I as [I _]. eauto.
Qed.
Lemma tidy_dget : forall n t e, tidy e -> dget n e = Some t -> once_each t.
Proof.
  intros n t e O G. inversion O as [|es ND H]; subst. apply aget_In in G; [eauto | apply str_eqb_eq].
Qed.
Lemma tidy_tput : forall p t e e', tidy e -> once_each t -> tput p t e = Some e' -> tidy e'.
Proof.
  induction p as [|n p IH]; intros t e e' O Ot H; [discriminate|]. destruct p as [|m p]; [injection H as <-; apply tidy_dset; auto|].
  rewrite tput_cons in H by discriminate. destruct (dget n e) as [[c|es]|] eqn:G; try discriminate. destruct (tput (m :: p) t es) as [es'|] eqn:T; [|discriminate].
  injection H as <-. apply tidy_dset; [exact O|]. exact (IH t es es' (tidy_dget n _ e O G) Ot T).
Qed.
Lemma tidy_tdel : forall p e, tidy e -> tidy (tdel p e).
Proof.
  induction p as [|n p IH]; intros e O; [exact O|]. destruct p as [|m p]; [apply tidy_dremove, O|]. cbn [tdel]. destruct (dget n e) as [[c|es]|] eqn:G; auto.
  apply tidy_dset; [exact O|]. apply (IH es). exact (tidy_dget n _ e O G).
Qed.
Lemma once_empty : once_each (TDir []).
Proof. constructor; [constructor | intros n t []]. Qed.

Lemma keeping_makedirs : forall todo done, keeping (pmakedirs done todo).
Proof.
  induction todo as [|n todo IH]; intros done; [constructor|]. cbn [pmakedirs]. apply keeping_look. intros e. destruct (tget (done ++ [n]) e) as [[c|es]|]; [constructor | apply IH|].
  constructor; intros e'; destruct (tget (done ++ [n]) e'); cbn [fst snd]; auto.
  - destruct (tput (done ++ [n]) (TDir []) e') eqn:T; cbn [fst]; auto. intros O. eapply tidy_tput; [exact O | apply once_empty | exact T].
  - destruct todo; [constructor | apply IH].
  - destruct (tput (done ++ [n]) (TDir []) e'); cbn [snd]; [apply IH | constructor].
Qed.
Lemma keeping_fill : forall p todo done, keeping (pfill p done todo).
Proof.
  intros p. induction todo as [|c todo IH]; intros done; [constructor|]. cbn [pfill]. constructor; cbn [fst snd]; auto.
  intros e O. destruct (tput p (TFile (done ++ [c])) e) eqn:T; auto. eapply tidy_tput; [exact O | constructor | exact T].
Qed.
Lemma keeping_write : forall p data, keeping (pwrite p data).
Proof.
  intros p data. unfold pwrite. constructor; intros e.
  - intros O. destruct (tput p (TFile []) e) as [e'|] eqn:T; [pose proof (tidy_tput p _ e e' O (oe_file []) T)|]; destruct (tget p e) as [[c|es]|]; auto.
  - destruct (tget p e) as [[c|es]|]; [| constructor |]; (destruct (tput p (TFile []) e); [apply keeping_fill | constructor]).
Qed.
Lemma keeping_extract : forall name data, keeping (pextract name data).
Proof.
  intros name data. unfold pextract. apply keeping_bind; [apply keeping_makedirs|]. intros _. destruct (endswith name [ch_slash]); [|apply keeping_write].
  apply keeping_look. intros e. destruct (tget (safe_parts name) e) as [[c|es]|]; [constructor | constructor |]. constructor; intros e'; destruct (tget (safe_parts name) e') as [t|]; cbn [fst snd]; auto; [| constructor |].
  - destruct (tput (safe_parts name) (TDir []) e') eqn:T; cbn [fst]; auto. intros O. eapply tidy_tput; [exact O | apply once_empty | exact T].
  - destruct (tput (safe_parts name) (TDir []) e'); constructor.
Qed.
Lemma keeping_extract_all : forall z top ms count, keeping (pextract_all z top count ms).
Proof.
  intros z top. induction ms as [|m ms IH]; intros count; [constructor|]. cbn [pextract_all]. destruct (is_extractable (m_name m) NXDL_file_endings (allowed_parents top)); [|apply IH].
  apply keeping_bind; [apply keeping_extract|]. intros _. apply IH.
Qed.
Lemma keeping_rmtree : forall name, keeping (prmtree name).
Proof.
  intros name. apply keeping_look. intros e. destruct (dget name e) as [[c|es]|]; try constructor. generalize (rm_paths [name] (TDir es)). intros ps.
  induction ps as [|p ps IH]; [constructor|]. cbn [pdeletes]. constructor; cbn [fst snd]; auto. intros e' O. unfold pdelete. destruct (tget p e') as [[c|[|x y]]|]; auto using tidy_tdel.
Qed.
Lemma keeping_move : forall src dst, keeping (pmove src dst).
Proof.
  intros src dst. unfold pmove. constructor; intros e.
  - intros O. destruct (dget src e) as [t|] eqn:G; [|exact O]. pose proof (tidy_dget src t e O G) as Ot. destruct (dget dst e) as [[c|es]|] eqn:D; try exact O.
    + destruct (dmem src es); [exact O|]. cbn [fst]. apply tidy_dset; [apply tidy_dremove, O|]. apply tidy_dset; [|exact Ot]. exact (tidy_dget dst _ e O D).
    + cbn [fst]. apply tidy_dset; [apply tidy_dremove, O | exact Ot].
  - destruct (dget src e); [|constructor]. destruct (dget dst e) as [[c|es]|]; try constructor. destruct (dmem src es); constructor.
Qed.
Lemma keeping_unpack : forall name z, keeping (punpack name z).
Proof.
  intros name z. unfold punpack. apply keeping_bind; [constructor|]. intros top. apply keeping_bind; [apply keeping_extract_all|]. intros count. destruct (Nat.ltb count 2); [constructor|].
  apply keeping_bind; [constructor|]. intros text. apply keeping_bind; [apply keeping_write|]. intros _. apply keeping_bind; [apply keeping_rmtree|]. intros _. apply keeping_move.
Qed.
Lemma keeping_download : forall name replace net, keeping (pdownload name replace net).
Proof.
  intros name replace net. apply keeping_look. intros e. destruct (dmem name e && negb replace); [constructor|]. destruct (snd (download_archive net)) as [[z|]|x]; try constructor. apply keeping_unpack.
Qed.
Lemma keeping_install : forall update net names i, keeping (pinstall_all update net i names).
Proof.
  intros update net. induction names as [|n names IH]; intros i; [constructor|]. cbn [pinstall_all]. apply keeping_bind; [apply keeping_download|]. intros _. apply IH.
Qed.

Lemma keeping_schedule : forall {A} turns e (ps : list (prog A)), tidy e -> (forall p, In p ps -> keeping p) -> tidy (fst (schedule turns e ps)).
Proof.
  intros A. induction turns as [|i turns IH]; intros e ps O H; [exact O|]. cbn [schedule]. destruct (nth_error ps i) as [p|] eqn:E; [|auto].
  destruct (keeping_step p e (H p (nth_error_In _ _ E)) O) as [X Y]. destruct (step p e) as [e' p']. cbn [fst snd] in *. apply IH; [exact X|].
  intros q Iq. apply In_nth_error in Iq as (k & Ek). destruct (PeanoNat.Nat.eq_dec i k) as [-> | N].
  - rewrite (nth_replace_same _ _ _ _ E) in Ek. congruence.
  - rewrite (nth_replace_other _ _ _ _ N) in Ek. eapply H, nth_error_In; eauto.
Qed.

Lemma keeping_alone : forall {A} (p : prog A), keeping p -> forall e, tidy e -> tidy (snd (fst (alone p e))).
Proof.
  intros A p H. induction H as [r | f T H IH]; intros e O; [exact O|]. cbn [alone]. specialize (T e O). specialize (IH e). destruct (f e) as [e1 p1]. cbn [fst snd] in *.
  specialize (IH e1 T). destruct (alone p1 e1) as [[l e2] r]. exact IH.
Qed.
Lemma same_tidy : forall {A} (p : prog A) e (b : list entries * entries * res A) l e1 r, keeping p -> tidy e -> same e (alone p e) b -> b = (l, e1, r) -> tidy e1.
Proof. intros A p e b l e1 r K O (E & _) ->. cbn [fst snd] in E. rewrite <- E. apply keeping_alone; auto. Qed.

Lemma same_unpack : forall name z e, tidy e -> same e (alone (punpack name z) e) (unpack name z e).
Proof.
  intros name z e O. unfold punpack, unpack.
  apply (same_bind (Done (top_of z)) (wlift (top_of z))); [apply same_done|]. intros l0 e0 top X0. injection X0 as _ <- _.
  apply same_bind; [apply same_extract_all|]. intros l1 e1 count X1.
  assert (O1 : tidy e1) by (eapply same_tidy; [apply keeping_extract_all | exact O | apply same_extract_all | exact X1]).
  destruct (Nat.ltb count 2); [apply (same_done (Exn ValueError))|].
  apply (same_bind (Done (z_info z name)) (wlift (z_info z name))); [apply same_done|]. intros l2 e2 text X2. injection X2 as _ <- _.
  apply same_bind; [apply same_write|]. intros l3 e3 [] X3.
  assert (O3 : tidy e3) by (eapply same_tidy; [apply keeping_write | exact O1 | apply same_write | exact X3]).
  apply same_bind; [apply same_rmtree; intros t G; exact (tidy_dget name t e3 O3 G)|].
  intros l4 e4 [] X4. apply same_move. eapply rmtree_end; eauto.
Qed.

Lemma same_download : forall name replace net e, tidy e -> same e (alone (pdownload name replace net) e) (snd (download_file_set name replace net e)).
Proof.
  intros name replace net e O. unfold pdownload, download_file_set. apply same_look. destruct (dmem name e && negb replace); [apply (same_done (Ok tt))|].
  destruct (download_archive net) as [n [[z|]|x]]; cbn [snd]; [apply same_unpack, O | apply (same_done (Ok tt)) | apply (same_done (Exn x))].
Qed.

Lemma same_install : forall update net names i e, tidy e -> same e (alone (pinstall_all update net i names) e) (install_all update net i names e).
Proof.
  intros update net. induction names as [|n names IH]; intros i e O; [apply (same_done (Ok tt))|]. cbn [pinstall_all install_all].
  apply same_bind; [apply same_download, O|]. intros l e1 [] X. apply IH. eapply same_tidy; [apply keeping_download | exact O | apply same_download, O | exact X].
Qed.
