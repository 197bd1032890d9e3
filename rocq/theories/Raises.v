(** * Which exceptions a validation can raise *)

From Coq Require Import List NArith ZArith Bool String Lia.
From Verif Require Import PyBase PyFacts Regex Utf8 H5 Findings Nxdl Core Catalog ItemName AttributeCheck
  GroupChecks AppDef DefaultPlot Validate Spec_Errors.
Import ListNotations.

(** ** expressions *)
Definition rok {A} (r : res A) : Prop := forall e, r = Exn e -> failure e.

Lemma rok_ok : forall A (a : A), rok (Ok a).
Proof. intros A a e H. discriminate H. Qed.
Lemma rok_exn : forall A e, failure e -> rok (Exn e : res A).
Proof. intros A e H x X. injection X as <-. exact H. Qed.
Lemma rok_bind : forall A B (m : res A) (f : A -> res B), rok m -> (forall a, m = Ok a -> rok (f a)) -> rok (rbind m f).
Proof. intros A B [a|e] f H Hf; cbn [rbind]; [apply Hf; reflexivity|]. apply rok_exn. apply H. reflexivity. Qed.
Lemma rok_map : forall A B (f : A -> B) m, rok m -> rok (rmap f m).
Proof. intros A B f [a|e] H; cbn [rmap]; [apply rok_ok|]. apply rok_exn. apply H. reflexivity. Qed.
Lemma rok_traverse : forall A B (f : A -> res B) l, (forall x, rok (f x)) -> rok (traverse f l).
Proof. intros A B f l H. induction l as [|x l IH]; cbn [traverse]; [apply rok_ok|]. apply rok_bind; [apply H|]. intros b _. apply rok_bind; [exact IH|]. intros; apply rok_ok. Qed.

Ltac ex := apply rok_exn; constructor.
Ltac res_step :=
  match goal with
  | |- rok (Ok _) => apply rok_ok
  | |- rok (Exn _) => first [assumption | apply rok_exn; first [assumption | constructor]]
  | |- rok (rbind _ _) => apply rok_bind; [|intros]
  | |- rok (rmap _ _) => apply rok_map
  | |- rok (traverse _ _) => apply rok_traverse; intros
  | |- rok (match ?x with _ => _ end) => destruct x
  end.

Lemma rok_decode_bytes : forall e b, rok (decode_bytes e b).
Proof. intros e b. unfold decode_bytes. repeat res_step. Qed.
Lemma rok_decode : forall E v, rok (decode_byte_string E v).
Proof. intros E v. unfold decode_byte_string. repeat first [apply rok_decode_bytes | res_step]. Qed.
Lemma rok_need : forall e (o : option pystr), failure e -> rok (need_text e o).
Proof. intros e o H. unfold need_text. repeat res_step. Qed.
Lemma rok_concat : forall a v, rok (concat_text a v).
Proof. intros a v. unfold concat_text. repeat res_step. Qed.
Lemma rok_decode_obj : forall E o, rok (decode_obj E o).
Proof. intros E o. unfold decode_obj. repeat first [apply rok_decode | res_step]. Qed.
Lemma rok_dgetitem : forall V k (d : dict V), rok (dgetitem k d).
Proof. intros V k d. unfold dgetitem. repeat res_step. Qed.
Lemma rok_first : forall v, rok (first_if_array v).
Proof. intros v. unfold first_if_array. repeat res_step. Qed.
Lemma rok_int : forall E s, rok (py_int_text E s).
Proof. intros E s. unfold py_int_text. repeat res_step. Qed.

Section World.
  Variable w : world.
  Lemma rok_resolve : forall nl cs h, rok (resolve nl w h cs).
  Proof.
    induction nl as [|nl IHn]; induction cs as [|c cs IHc]; intros h; cbn [resolve]; try apply rok_ok;
      destruct (dget c (links_of w h)) as [[o|q|x q]|]; try ex.
    - destruct (get_obj w (h_file h) o); [apply IHc|ex].
    - destruct (get_obj w (h_file h) o); [apply IHc|ex].
    - pose proof (IHn (path_comps q) (if is_abs q then root_handle (h_file h) else h)) as X.
      destruct (resolve nl w _ (path_comps q)) as [t|e]; [apply IHc|]. apply rok_exn. apply X. reflexivity.
    - destruct (get_obj w x 0); [|ex]. pose proof (IHn (path_comps q) (root_handle x)) as X.
      destruct (resolve nl w _ (path_comps q)) as [t|e]; [apply IHc|]. apply rok_exn. apply X. reflexivity.
  Qed.
  Lemma rok_getitem : forall h n, rok (getitem w h n).
  Proof. intros h [|a n]; [ex|]. unfold getitem. cbv zeta. apply rok_resolve. Qed.
  Lemma rok_getopt : forall h n, rok (getopt w h n).
  Proof. intros h n. unfold getopt. pose proof (rok_getitem h n) as X. destruct (getitem w h n) as [t|e]; [apply rok_ok|]. specialize (X e eq_refl). destruct e; first [apply rok_ok | apply rok_exn; exact X]. Qed.
  Lemma rok_py_in : forall h v, rok (py_in w h v).
  Proof. intros h v. unfold py_in. repeat res_step. Qed.
  Lemma rok_hobj_in : forall o v, rok (hobj_in w v o).
  Proof. intros o v. unfold hobj_in. repeat first [apply rok_py_in | res_step]. Qed.
  Lemma rok_read : forall h, rok (read_data w h).
  Proof. intros h. unfold read_data. repeat res_step. Qed.
  Lemma rok_islink : forall h, rok (isHdf5Link w h).
  Proof. intros h. unfold isHdf5Link. repeat first [apply rok_resolve | apply rok_dgetitem | res_step]. Qed.
  Lemma rok_attrs : forall o, rok (hobj_attrs w o).
  Proof. intros o. unfold hobj_attrs. repeat res_step. Qed.
  Lemma rok_hobj_get : forall o v, rok (hobj_get w o v).
  Proof. intros o v. unfold hobj_get. repeat first [apply rok_getopt | res_step]. Qed.
  Lemma rok_hobj_getitem : forall o v, rok (hobj_getitem w o v).
  Proof. intros o v. unfold hobj_getitem. repeat first [apply rok_getitem | res_step]. Qed.
  Lemma rok_hobj_getopt : forall o v, rok (hobj_getopt w o v).
  Proof. intros o v. unfold hobj_getopt. repeat first [apply rok_getopt | res_step]. Qed.
  Variable E : env.
  Lemma rok_nexus_link : forall h, rok (isNeXusLink E w h).
  Proof. intros h. unfold isNeXusLink. repeat first [apply rok_decode | res_step]. Qed.
  Lemma rok_node_item : forall p h, rok (node_item E w p h).
  Proof.
    intros p h. unfold node_item, determine_NeXus_classpath, identify_object_type. cbv zeta.
    repeat first [apply rok_decode | apply rok_nexus_link | res_step].
  Qed.
  Lemma rok_field_item : forall i it h, rok (field_item E w i it h).
  Proof. intros i it h. unfold field_item. repeat first [apply rok_node_item | res_step]. Qed.
  Lemma rok_find_enum : forall h l, rok (find_enum E w h l).
  Proof. intros h l. induction l as [|e l IH]; cbn [find_enum]; unfold field_value; repeat first [exact IH | apply rok_read | apply rok_first | apply rok_decode | res_step]. Qed.
End World.

Lemma rok_join : forall l, rok (join_enums l).
Proof. intros l. unfold join_enums. repeat first [apply rok_need; constructor | res_step]. Qed.
Lemma rok_py_int : forall E o, rok (py_int E o).
Proof. intros E o. unfold py_int. repeat first [apply rok_int | res_step]. Qed.
Lemma rok_base_class : forall cl n, rok (usedAsBaseClass cl n).
Proof. intros cl n. unfold usedAsBaseClass. repeat res_step. Qed.
Lemma rok_group_class : forall it, rok (group_class it).
Proof. intros it. unfold group_class. repeat first [apply rok_need; constructor | res_step]. Qed.
Lemma rok_minOccurs : forall E g, rok (minOccurs_of E g).
Proof. intros E g. unfold minOccurs_of. repeat first [apply rok_int | res_step]. Qed.
Lemma rok_no_plot : forall cl, rok (no_plot_status cl).
Proof. intros cl. unfold no_plot_status. repeat first [apply rok_dgetitem | res_step]. Qed.
Lemma rok_entry_data : forall a, rok (entry_and_data a).
Proof. intros a. unfold entry_and_data. repeat first [apply rok_need; constructor | res_step]. Qed.
Lemma rok_node_name : forall o, rok (node_name o).
Proof. intros o. unfold node_name. repeat res_step. Qed.
Lemma rok_address : forall E n v, rok (build_h5_address E n v).
Proof. intros E n v. unfold build_h5_address. repeat first [apply rok_decode | apply rok_concat | res_step]. Qed.
Lemma rok_points : forall c it n t, rok (attribute_points_at_target c it n t).
Proof. intros c it n t. unfold attribute_points_at_target. repeat first [apply rok_attrs | apply rok_node_name | apply rok_address | apply rok_hobj_in | res_step]. Qed.
Lemma rok_link_target : forall c it, rok (isNeXusLinkTarget c it).
Proof. intros c it. unfold isNeXusLinkTarget. repeat first [apply rok_attrs | apply rok_decode | res_step]. Qed.
Lemma rok_named : forall c o, rok (is_named_object c o).
Proof. intros c o. unfold is_named_object, hobj_islink. repeat first [apply rok_islink | res_step]. Qed.
Lemma rok_definition : forall c it, rok (definition_name c it).
Proof. intros c it. unfold definition_name. repeat first [apply rok_hobj_getitem | apply rok_read | apply rok_first | apply rok_decode | res_step]. Qed.
Lemma rok_match : forall E r o, rok (match_value E r o).
Proof. intros E r o. unfold match_value. repeat res_step. Qed.

(** ** the run *)
Definition parent_ok (n : nat) (it : vitem) : Prop := forall q, it_parent it = Some q -> q < n.
Record inv (s : vstate) : Prop := {
  i_items : forall it, In it (st_items s) -> parent_ok (List.length (st_items s)) it;
  i_addr : forall a i, In (a, i) (st_addr s) -> i < List.length (st_items s);
  i_cp : forall k l i, In (k, l) (st_cp s) -> In i l -> i < List.length (st_items s)
}.

Section Run.
  Variables (E : env) (w : world) (root : handle) (pats : dict (list pystr)) (rl : nat) (fm : option Z).
  Local Notation CC := (mkCtx E w root pats rl fm).
  Hypothesis compiles : patterns_compile pats.

  Definition safe {A} (n : nat) (P : nat -> A -> Prop) (m : M A) : Prop :=
    forall s, inv s -> n <= List.length (st_items s) ->
      inv (fst (m s)) /\ List.length (st_items s) <= List.length (st_items (fst (m s)))
      /\ match snd (m s) with Ok a => P (List.length (st_items (fst (m s)))) a | Exn e => failure e end.
  Definition any {A} (n : nat) (a : A) : Prop := True.
  Definition valid (n : nat) (i : nat) : Prop := i < n.

  Lemma s_ret : forall A n (P : nat -> A -> Prop) a, (forall k, n <= k -> P k a) -> safe n P (ret a).
  Proof. intros A n P a H s Hs L. cbn. auto. Qed.
  Lemma s_raise : forall A n (P : nat -> A -> Prop) e, failure e -> safe n P (raise e).
  Proof. intros A n P e H s Hs L. cbn. auto. Qed.
  Lemma s_lift : forall A n (r : res A), rok r -> safe n any (lift r).
  Proof. intros A n r H s Hs L. cbn. split; [exact Hs|]. split; [lia|]. destruct r as [a|e]; [exact I|]. apply H. reflexivity. Qed.
  Lemma s_lift_eq : forall A n (r : res A), rok r -> safe n (fun _ a => r = Ok a) (lift r).
  Proof. intros A n r H s Hs L. cbn. split; [exact Hs|]. split; [lia|]. destruct r as [a|e]; [reflexivity|]. apply H. reflexivity. Qed.
  Lemma s_bind : forall A B n (P : nat -> A -> Prop) (Q : nat -> B -> Prop) m f,
    safe n P m -> (forall a k, n <= k -> P k a -> safe k Q (f a)) -> safe n Q (bind m f).
  Proof.
    intros A B n P Q m f H Hf s Hs L. unfold bind. destruct (H s Hs L) as (H1 & H2 & H3). destruct (m s) as [s1 [a|e]]; cbn [fst snd] in *.
    - assert (X : n <= List.length (st_items s1)) by lia. destruct (Hf a _ X H3 s1 H1 (le_n _)) as (G1 & G2 & G3). split; [exact G1|]. split; [lia|exact G3].
    - auto.
  Qed.
  Lemma s_get : forall B n (Q : nat -> B -> Prop) f, (forall s, inv s -> n <= List.length (st_items s) -> safe (List.length (st_items s)) Q (f s)) -> safe n Q (bind get f).
  Proof. intros B n Q f H s Hs L. unfold bind, get. apply H; auto. Qed.
  Lemma s_item : forall n i, i < n -> safe n parent_ok (item i).
  Proof.
    intros n i H s Hs L. unfold item. destruct (nth_error (st_items s) i) as [it|] eqn:X; cbn [fst snd].
    - split; [exact Hs|]. split; [lia|]. apply (i_items s Hs). eapply nth_error_In. exact X.
    - apply nth_error_None in X. lia.
  Qed.
  Lemma s_new : forall n it, parent_ok n it -> safe n valid (new_item it).
  Proof.
    intros n it H s Hs L. unfold new_item, set_items. cbn. rewrite app_length. cbn [List.length]. split; [|split; [lia|unfold valid; lia]].
    destruct Hs as [A B C]. split; cbn [st_items st_addr st_cp]; rewrite ?app_length; cbn [List.length].
    - intros x X. apply in_app_or in X. intros q Hq. destruct X as [X|[<-|[]]]; [specialize (A x X q Hq)|specialize (H q Hq)]; lia.
    - intros a i X. specialize (B a i X). lia.
    - intros k l i X Y. specialize (C k l i X Y). lia.
  Qed.
  Lemma aget_In : forall (V : Type) a (d : list (option pystr * V)) i, aget ostr_eqb a d = Some i -> exists b, In (b, i) d.
  Proof. intros V a d i. induction d as [|[b j] d IH]; cbn [aget]; [discriminate|]. destruct (ostr_eqb a b); intros H; [injection H as ->; exists b; left; reflexivity|]. destruct (IH H) as [x X]. exists x. right. exact X. Qed.
  Lemma aset_In : forall (V : Type) a (x : V) (d : list (option pystr * V)) b j, In (b, j) (aset ostr_eqb a x d) -> j = x \/ In (b, j) d.
  Proof.
    intros V a x d b j. induction d as [|[c k] d IH]; cbn [aset].
    - intros [H|[]]. injection H as _ <-. left. reflexivity.
    - destruct (ostr_eqb a c).
      + intros [H|H]; [injection H as _ <-; left; reflexivity|right; right; exact H].
      + intros [H|H]; [right; left; exact H|]. destruct (IH H) as [X|X]; [left; exact X|right; right; exact X].
  Qed.
  Lemma s_address : forall n a, safe n valid (address_item a).
  Proof.
    intros n a s Hs L. unfold address_item. destruct (aget ostr_eqb a (st_addr s)) as [i|] eqn:X; cbn [fst snd]; (split; [exact Hs|]; split; [lia|]); [|constructor].
    destruct (aget_In _ _ _ _ X) as [b B]. exact (i_addr s Hs _ _ B).
  Qed.
  Lemma s_classpath : forall n k, safe n (fun m l => forall i, In i l -> i < m) (classpath_list k).
  Proof.
    intros n k s Hs L. unfold classpath_list. cbn [fst snd]. split; [exact Hs|]. split; [lia|]. intros i. destruct (dget k (st_cp s)) as [l|] eqn:X; [|intros []].
    apply dget_In in X. exact (i_cp s Hs _ _ i X).
  Qed.
  Lemma s_last : forall n k, safe n valid (last_of_classpath k).
  Proof.
    intros n k s Hs L. unfold last_of_classpath. destruct (dget k (st_cp s)) as [l|] eqn:X.
    - apply dget_In in X. destruct (rev l) as [|i r] eqn:R; cbn [fst snd]; (split; [exact Hs|]; split; [lia|]); [constructor|].
      apply (i_cp s Hs _ _ i X). apply in_rev. rewrite R. left. reflexivity.
    - cbn [fst snd]. split; [exact Hs|]. split; [lia|constructor].
  Qed.
  Lemma s_add_address : forall n a i, i < n -> safe n any (add_address a i).
  Proof.
    intros n a i H s [A B C] L. unfold add_address. cbn. split; [|split; [lia|exact I]]. split; cbn [st_items st_addr st_cp]; [exact A| |exact C].
    intros b j X. apply aset_In in X as [->|X]; [lia|exact (B b j X)].
  Qed.
  Lemma dset_In : forall (V : Type) k (x : V) (d : dict V) b j, In (b, j) (dset k x d) -> j = x \/ In (b, j) d.
  Proof.
    intros V a x d b j. unfold dset. induction d as [|[c k] d IH]; cbn [aset].
    - intros [H|[]]. injection H as _ <-. left. reflexivity.
    - destruct (str_eqb a c).
      + intros [H|H]; [injection H as _ <-; left; reflexivity|right; right; exact H].
      + intros [H|H]; [right; left; exact H|]. destruct (IH H) as [X|X]; [left; exact X|right; right; exact X].
  Qed.
  Lemma s_add_classpath : forall n i k, i < n -> safe n any (add_classpath i k).
  Proof.
    intros n i k H s [A B C] L. unfold add_classpath. cbn. split; [|split; [lia|exact I]]. split; cbn [st_items st_addr st_cp]; [exact A|exact B|].
    intros b l j X Y. apply dset_In in X as [->|X]; [|exact (C b l j X Y)]. apply in_app_or in Y. destruct Y as [Y|[<-|[]]]; [|lia].
    destruct (dget k (st_cp s)) as [l|] eqn:D; [|destruct Y]. apply dget_In in D. exact (C _ _ j D Y).
  Qed.
  Lemma s_regexp : forall n k p r, re_compile p = Ok r -> safe n any (cached_regexp k p).
  Proof.
    intros n k p r H s Hs L. unfold cached_regexp. rewrite H. destruct (dget k (st_cache s)); cbn [fst snd]; (split; [|split; [|exact I]]); auto.
    destruct Hs as [A B C]. split; assumption.
  Qed.
  Lemma update_In : forall i (f : vitem -> vitem) l x, In x (update_nth i f l) -> In x l \/ exists y, In y l /\ x = f y.
  Proof.
    intros i f l x. revert i. induction l as [|y l IH]; intros [|i]; cbn; [tauto|tauto| |].
    - intros [<-|H]; [right; exists y; auto|auto].
    - intros [<-|H]; [auto|]. destruct (IH i H) as [X|[z [Z ->]]]; [auto|right; exists z; auto].
  Qed.
  Lemma update_length : forall i (f : vitem -> vitem) l, List.length (update_nth i f l) = List.length l.
  Proof. intros i f l. revert i. induction l as [|y l IH]; intros [|i]; cbn; auto. Qed.
  Lemma s_record : forall n i k st cm, i < n -> safe n any (record_finding i k st cm).
  Proof.
    intros n i k st cm H. unfold record_finding. eapply s_bind; [apply s_item; exact H|]. intros it m Hm _ s [A B C] L. unfold set_items, set_find. cbn [fst snd st_items st_addr st_cp]. rewrite update_length.
    split; [|split; [lia|exact I]]. split; cbn [st_items st_addr st_cp]; rewrite update_length; [|exact B|exact C].
    intros x X. apply update_In in X as [X|[y [Y ->]]]; [exact (A x X)|exact (A y Y)].
  Qed.
  Lemma s_store : forall n a b z, safe n any (store_minOccurs a b z).
  Proof. intros n a b z s [A B C] L. unfold store_minOccurs, set_classes. cbn [fst snd st_items]. split; [|split; [lia|exact I]]. split; assumption. Qed.
  Lemma s_for_in : forall A n (f : A -> M unit) l, (forall x k, In x l -> n <= k -> safe k any (f x)) -> safe n any (for_each f l).
  Proof.
    intros A n f l. revert n. induction l as [|x l IH]; intros n H; [apply s_ret; intros; exact I|]. cbn [for_each].
    eapply s_bind; [apply H; [left; reflexivity|lia]|]. intros _ k Hk _. apply IH. intros y m Hy Hm. apply H; [right; exact Hy|lia].
  Qed.
  Lemma s_weak : forall A n (P Q : nat -> A -> Prop) m, safe n P m -> (forall k a, P k a -> Q k a) -> safe n Q m.
  Proof. intros A n P Q m H HQ s Hs L. destruct (H s Hs L) as (A1 & A2 & A3). split; [exact A1|]. split; [exact A2|]. destruct (snd (m s)); auto. Qed.

  Ltac pick := first
    [ apply rok_decode_obj | apply rok_decode | apply rok_concat | apply rok_need; constructor | apply rok_dgetitem | apply rok_getitem
    | apply rok_hobj_in | apply rok_hobj_get | apply rok_hobj_getitem | apply rok_hobj_getopt | apply rok_attrs | apply rok_py_in | apply rok_node_item | apply rok_field_item
    | apply rok_find_enum | apply rok_join | apply rok_py_int | apply rok_base_class | apply rok_group_class | apply rok_minOccurs | apply rok_no_plot
    | apply rok_entry_data | apply rok_node_name | apply rok_address | apply rok_points | apply rok_link_target | apply rok_named | apply rok_definition | apply rok_match ].
  Ltac num := unfold valid, parent_ok in *;
    repeat match goal with
    | H : forall q, it_parent ?it = Some q -> q < _, X : it_parent ?it = Some ?i |- _ => specialize (H _ X)
    end; lia.
  Ltac step :=
    match goal with
    | |- safe _ _ (ret _) => first [apply (s_ret _ _ any); intros; exact I | apply s_ret]
    | |- safe _ _ (raise _) => first [apply (s_raise _ _ any); constructor | apply s_raise; constructor]
    | |- safe _ any (item _) => eapply s_weak; [apply s_item; num|intros; exact I]
    | |- safe _ _ (item _) => apply s_item; num
    | |- safe _ _ (address_item _) => apply s_address
    | |- safe _ _ (classpath_list _) => apply s_classpath
    | |- safe _ _ (last_of_classpath _) => apply s_last
    | |- safe _ _ (add_address _ _) => apply s_add_address; num
    | |- safe _ _ (add_classpath _ _) => apply s_add_classpath; num
    | |- safe _ _ (record_finding _ _ _ _) => apply s_record; num
    | |- safe _ _ (store_minOccurs _ _ _) => apply s_store
    | |- safe _ _ (lift _) => apply s_lift; pick
    | |- safe _ _ (bind get _) => fail 1
    | |- safe _ _ (bind _ _) => eapply s_bind; [|intros]
    | |- safe _ _ (for_each _ _) => apply s_for_in; intros
    | |- safe _ _ (match ?x with _ => _ end) => destruct x eqn:?
    end.
  Ltac go := repeat (step; cbv beta zeta).

  Lemma s_register : forall n it, parent_ok n it -> safe n valid (register it).
  Proof. intros n it H. unfold register. eapply s_bind; [apply s_new; exact H|]. intros i k Hk V. go; intros; num. Qed.
  Lemma node_parent : forall p h it, node_item E w p h = Ok it -> it_parent it = option_map fst p.
  Proof.
    intros p h it H. unfold node_item in H. cbv zeta in H. destruct (determine_NeXus_classpath E w _ h _); [|discriminate H]. cbn [rbind] in H.
    destruct (identify_object_type E w (ONode h)); [|discriminate H]. cbn [rbind] in H. injection H as <-. reflexivity.
  Qed.
  Lemma attr_parent : forall i it v k, it_parent (attr_item i it v k) = Some i.
  Proof. intros i it v k. unfold attr_item. destruct (str_eqb _ _); reflexivity. Qed.
  Lemma s_get_subject : forall n p h, (forall i, p = Some i -> i < n) -> safe n valid (get_subject CC p h).
  Proof.
    intros n p h H. unfold get_subject. cbn [c_env c_world].
    eapply s_bind with (P := fun k (q : option (nat * vitem)) => option_map fst q = p).
    { destruct p as [pi|]; [|apply s_ret; intros; reflexivity]. eapply s_bind; [apply s_item; apply H; reflexivity|]. intros it k Hk _. apply s_ret. intros. reflexivity. }
    intros q k Hk Q. eapply s_bind; [apply s_lift_eq; pick|]. intros it k1 Hk1 Hit. apply node_parent in Hit.
    eapply s_bind; [apply s_register; intros x X; rewrite Hit, Q in X; apply H in X; lia|]. intros i k2 Hk2 V.
    eapply s_bind; [apply s_for_in|].
    - intros [a v] k3 _ Hk3. eapply s_bind; [apply s_register; intros x X; rewrite attr_parent in X; injection X as <-; num|]. intros. go.
    - intros _ k3 Hk3 _. apply s_ret. intros. num.
  Qed.
  Lemma s_catalog : forall f n p h, (forall i, p = Some i -> i < n) -> safe n any (group_address_catalog f CC p h).
  Proof.
    induction f as [|f IH]; intros n p h H; cbn [group_address_catalog]; [go|].
    eapply s_bind; [apply s_get_subject; exact H|]. intros obj k Hk V. eapply s_bind; [apply s_item; exact V|]. intros it k1 Hk1 _.
    eapply s_bind; [apply s_last|]. intros q k2 Hk2 Q. cbn [c_world]. apply s_for_in. intros m k3 _ Hk3. eapply s_bind; [apply s_lift; pick|]. intros y k4 Hk4 _.
    assert (X : forall i, Some q = Some i -> i < k4) by (intros i X; injection X as <-; num).
    destruct (isHdf5Group w y); [apply IH; exact X|]. eapply s_bind; [apply s_get_subject; exact X|]. intros. go.
  Qed.
  Lemma strict_compiles : exists r, re_compile STRICT_PATTERN = Ok r.
  Proof. eexists. vm_compute. reflexivity. Qed.
  Lemma s_first_match : forall o l n, (forall k p, In (k, p) l -> exists r, re_compile p = Ok r) -> safe n any (first_match CC o l).
  Proof.
    intros o l. induction l as [|[k p] l IH]; intros n H; cbn [first_match]; [go|]. destruct (H k p (or_introl eq_refl)) as [r R].
    eapply s_bind; [eapply s_regexp; exact R|]. intros. cbn [c_env]. go. apply IH. intros k9 p9 I9. apply (H k9 p9). right. exact I9.
  Qed.
  Lemma patterns_In : forall k p, In (k, p) (getValidItemNamePatterns CC) -> exists r, re_compile p = Ok r.
  Proof.
    intros k p. unfold getValidItemNamePatterns. cbn [c_patterns]. cbv zeta.
    assert (S0 : forall k p, In (k, p) (dset (py "strict pattern: " ++ STRICT_PATTERN) STRICT_PATTERN []) -> exists r, re_compile p = Ok r).
    { intros k0 p0 X. apply dset_In in X as [->|[]]. apply strict_compiles. }
    destruct (dget (py "validItemName") pats) as [l|] eqn:D; [|apply S0]. revert S0. generalize (dset (py "strict pattern: " ++ STRICT_PATTERN) STRICT_PATTERN []).
    assert (L : forall q, In q l -> exists r, re_compile q = Ok r) by (intros q Q; eapply (proj1 compiles); [apply dget_In; exact D|exact Q]). clear D.
    induction l as [|q l IH]; intros d S0; cbn [fold_left]; [apply S0|]. apply IH; [intros x X; apply L; right; exact X|].
    intros k0 p0 X. apply dset_In in X as [->|X]; [apply L; left; reflexivity|eapply S0; exact X].
  Qed.
  Lemma s_match_key : forall n o, safe n any (validItemName_match_key CC o).
  Proof. intros n o. unfold validItemName_match_key. eapply s_bind; [apply s_first_match; apply patterns_In|]. intros; go. Qed.
  Lemma s_match_text : forall n s, safe n any (match_key_text CC s).
  Proof. intros n s. apply s_match_key. Qed.
  Lemma s_match_name : forall n k, safe n any (match_key_name CC k).
  Proof. intros n [k|]; apply s_match_key. Qed.
  Lemma enum_In : forall l i k p, In (k, p) (enum_patterns i l) -> In p l.
  Proof. induction l as [|q l IH]; intros i k p; cbn; [tauto|]. intros [H|H]; [injection H as _ ->; auto|right; eapply IH; exact H]. Qed.
  Lemma s_nx_class : forall n i, i < n -> safe n any (handle_NX_class CC i).
  Proof.
    intros n i H. unfold handle_NX_class. eapply s_bind; [apply s_item; exact H|]. intros it k Hk _. cbn [c_patterns].
    eapply s_bind; [apply s_lift_eq; pick|]. intros l k1 Hk1 D. cbv zeta.
    eapply s_bind; [apply s_first_match|].
    { intros a p X. apply enum_In in X. unfold dgetitem in D. destruct (dget _ pats) as [l0|] eqn:G; [|discriminate D]. injection D as ->. apply dget_In in G. eapply (proj1 compiles); eassumption. }
    intros m k2 Hk2 _. destruct m as [[a b]|]; [go|]. destruct (rev l) eqn:R; [|go]. exfalso.
    unfold dgetitem in D. destruct (dget _ pats) as [l0|] eqn:G; [|discriminate D]. injection D as ->. apply dget_In in G. apply (proj2 compiles l G).
    rewrite <- (rev_involutive l), R. reflexivity.
  Qed.
  Lemma s_item_name : forall n i, i < n -> safe n any (item_name_verify CC i).
  Proof.
    intros n i H. unfold item_name_verify, handle_any_attribute, handle_groups_and_fields.
    repeat first [apply s_nx_class; num | apply s_match_name | step; cbv beta].
  Qed.
  Lemma s_parent : forall n it, parent_ok n it -> safe n parent_ok (parent_item it).
  Proof. intros n it H. unfold parent_item. go. Qed.
  Ltac more := repeat first [apply s_match_key | apply s_match_text | apply s_match_name | apply s_parent; intros ? ?; num | step; cbv beta].
  Lemma s_axes : forall n i, i < n -> safe n any (axes_handler CC i).
  Proof. intros n i H. unfold axes_handler, axis_check. more. Qed.
  Lemma s_signal : forall n i, i < n -> safe n any (signal_handler CC i).
  Proof. intros n i H. unfold signal_handler, generic_handler. more. Qed.
  Lemma s_target_parts : forall l n i a, i < n -> safe n any (target_parts CC i a l).
  Proof. induction l as [|q l IH]; intros n i a H; cbn [target_parts]; cbv zeta; repeat first [apply IH; num | apply s_match_text | step; cbv beta]. Qed.
  Lemma s_target : forall n i, i < n -> safe n any (target_handler CC i).
  Proof. intros n i H. unfold target_handler. repeat first [apply s_target_parts; num | step; cbv beta]. Qed.
  Lemma s_nxclass : forall n i, i < n -> safe n any (nxclass_handler CC i).
  Proof. intros n i H. unfold nxclass_handler. do 2 (eapply s_bind; [step|intros]). apply s_get. intros. go. Qed.
  Lemma s_attribute : forall n i, i < n -> safe n any (attribute_verify CC i).
  Proof.
    intros n i H. unfold attribute_verify, generic_handler.
    repeat first [apply s_nxclass; num | apply s_target; num | apply s_signal; num | apply s_axes; num | step; cbv beta].
  Qed.

  (** ** groups *)
  Lemma s_nx_attr : forall n i c, i < n -> safe n any (validate_NX_class_attribute i c).
  Proof. intros n i c H. unfold validate_NX_class_attribute. apply s_get. intros. cbv zeta. go. Qed.
  Lemma s_group_attribute : forall n i d kv, i < n -> safe n any (group_attribute CC i d kv).
  Proof. intros n i d kv H. unfold group_attribute, child_exists. cbv zeta. go. Qed.
  Lemma s_group_child : forall n h d k, safe n any (group_child CC h d k).
  Proof. intros n h d k. unfold group_child. go. Qed.
  Lemma s_base_items : forall n i c d, i < n -> safe n any (base_class_items_verify CC i c d).
  Proof. intros n i c d H. unfold base_class_items_verify, base_field, base_group. go. Qed.
  Lemma s_validate_group : forall n i, i < n -> safe n any (validate_group CC i).
  Proof.
    intros n i H. unfold validate_group. eapply s_bind; [apply s_item; exact H|]. intros it k Hk _. destruct (str_eqb (it_cp it) NON_NEXUS); [go|].
    eapply s_bind; [step|]. intros c k1 Hk1 _. eapply s_bind; [apply s_nx_attr; num|]. intros _ k2 Hk2 _. apply s_get. intros s Hs Hk3.
    unfold verify_group_attributes, verify_group_children.
    repeat first [apply s_group_attribute; num | apply s_group_child | apply s_base_items; num | step; cbv beta].
  Qed.

  (** ** application definitions *)
  Lemma field_parent : forall i it h vi, field_item E w i it h = Ok vi -> it_parent vi = Some i.
  Proof. intros i it [h|] vi H; cbn [field_item] in H; [apply node_parent in H; exact H|]. injection H as <-. apply attr_parent. Qed.
  Lemma s_ad_field : forall n i it a fs, i < n -> safe n any (ad_field CC i it a fs).
  Proof.
    intros n i it a fs H. unfold ad_field. cbn [c_world c_env]. cbv zeta. eapply s_bind; [step|]. intros h k Hk _.
    eapply s_bind; [apply s_lift_eq; pick|]. intros vi k1 Hk1 V. apply field_parent in V.
    eapply s_bind; [apply s_new; intros x X; rewrite V in X; injection X as <-; lia|]. intros v k2 Hk2 U. go.
  Qed.
  Lemma s_app : forall n i, i < n -> safe n any (application_definition_verify CC i).
  Proof.
    intros n i H. unfold application_definition_verify. do 2 (eapply s_bind; [step|intros]). apply s_get. intros. cbv zeta.
    repeat first [apply s_ad_field; num | step; cbv beta].
  Qed.
  Lemma s_check_definition : forall n i, i < n -> safe n any (check_definition CC i).
  Proof. intros n i H. unfold check_definition. repeat first [apply s_app; num | step; cbv beta]. Qed.

  (** ** default plot *)
  Lemma s_v3_item : forall n i, i < n -> safe n any (v3_item CC i).
  Proof. intros n i H. unfold v3_item. cbv zeta. go. Qed.
  Lemma s_v3_loop : forall l n a r, (forall i, In i l -> i < n) -> (forall i, In i r -> i < n) -> safe n any (v3_loop CC a r l).
  Proof.
    induction l as [|i l IH]; intros n a r Hl Hr; cbn [v3_loop].
    - destruct r as [|i [|j r]]; [go| |go]. assert (i < n) by (apply Hr; left; reflexivity). go.
    - assert (i < n) by (apply Hl; left; reflexivity). eapply s_bind; [apply s_v3_item; exact H|]. intros x k Hk _. destruct x as [|b c]; [go|]. apply IH.
      + intros j J. specialize (Hl j (or_intror J)). lia.
      + intros j J. destruct c; [apply in_app_or in J as [J|[<-|[]]]|]; try (specialize (Hr j J)); lia.
  Qed.
  Definition review_ok (n : nat) (r : list (option pystr * list nat)) : Prop := forall g l i, In (g, l) r -> In i l -> i < n.
  Lemma s_v2_item : forall n r i, i < n -> review_ok n r -> safe n review_ok (v2_item CC r i).
  Proof.
    intros n r i H R. assert (R2 : forall k, n <= k -> review_ok k r) by (intros k Hk g l j A B; specialize (R g l j A B); lia).
    unfold v2_item. cbv zeta. eapply s_bind; [step|]. intros it k Hk P. eapply s_bind; [apply s_parent; exact P|]. intros pit k1 Hk1 P1.
    destruct (hobj_isdataset _ _); [|apply s_ret; intros; apply R2; lia]. eapply s_bind; [step|]. intros ad k2 Hk2 _. destruct (str_eqb _ _).
    - eapply s_bind; [step|]. intros _ k3 Hk3 _. eapply s_bind; [apply s_parent; intros x X; specialize (P1 x X); lia|]. intros gp k4 Hk4 _. apply s_ret. intros k5 Hk5 g l j A B.
      apply aset_In in A as [->|A]; [|specialize (R g l j A B); lia]. apply in_app_or in B as [B|[<-|[]]]; [|lia].
      destruct (aget ostr_eqb (it_addr gp) r) as [l|] eqn:D; [|destruct B]. destruct (aget_In _ _ _ _ D) as [b X]. specialize (R b l j X B). lia.
    - eapply s_bind; [step|]. intros _ k3 Hk3 _. apply s_ret. intros. apply R2. lia.
  Qed.
  Lemma s_v2_collect : forall l n r, (forall i, In i l -> i < n) -> review_ok n r -> safe n review_ok (v2_collect CC r l).
  Proof.
    induction l as [|i l IH]; intros n r Hl R; cbn [v2_collect].
    - apply s_ret. intros k Hk g x j A B. specialize (R g x j A B). lia.
    - eapply s_bind; [apply s_v2_item; [apply Hl; left; reflexivity|exact R]|]. intros r2 k Hk R2. apply IH; [|exact R2]. intros j J. specialize (Hl j (or_intror J)). lia.
  Qed.
  Lemma s_v2_decide : forall r n a, review_ok n r -> safe n any (v2_decide a r).
  Proof.
    induction r as [|[g l] r IH]; intros n a R; [apply s_ret; intros; exact I|].
    assert (R2 : forall k, n <= k -> review_ok k r) by (intros k Hk b x j A B; specialize (R b x j (or_intror A) B); lia).
    destruct l as [|i [|j l]]; cbn [v2_decide]; [apply IH; apply R2; lia| |]; assert (i < n) by (eapply R; [left; reflexivity|left; reflexivity]).
    - eapply s_bind; [step|]. intros it k Hk P. eapply s_bind; [apply s_parent; exact P|]. intros pit k1 Hk1 _. eapply s_bind; [step|]. intros ad k2 Hk2 _.
      eapply s_bind; [step|]. intros _ k3 Hk3 _. apply IH. apply R2. lia.
    - eapply s_bind; [step|]. intros it k Hk P. eapply s_bind; [apply s_parent; exact P|]. intros pit k1 Hk1 P1. eapply s_bind; [step|]. intros ad k2 Hk2 _.
      eapply s_bind with (P := valid); [destruct (it_parent pit) as [q|] eqn:Q; [apply s_ret; intros; unfold parent_ok in P1; specialize (P1 q Q); unfold valid; lia|step]|].
      intros gi k3 Hk3 V. eapply s_bind; [step|]. intros _ k4 Hk4 _. apply IH. apply R2. lia.
  Qed.
  Lemma signal_In : forall s i, inv s -> In i (signal_items (st_cp s)) -> i < List.length (st_items s).
  Proof. intros s i Hs H. unfold signal_items in H. apply in_flat_map in H as [[k l] [A B]]. cbn [fst snd] in B. destruct (endswith k _); [|destruct B]. exact (i_cp s Hs k l i A B). Qed.
  Lemma s_default_plot : forall n, safe n any (default_plot_verify CC).
  Proof.
    intros n. unfold default_plot_verify. eapply s_bind; [apply s_address|]. intros obj k Hk V. eapply s_bind with (P := any).
    - cbn [try_methods]. eapply s_bind with (P := any).
      { unfold default_plot_v3. eapply s_bind; [apply s_classpath|]. intros l k1 Hk1 L. apply s_v3_loop; [exact L|intros i []]. }
      intros a k1 Hk1 _. destruct a; [go|]. eapply s_bind with (P := any).
      { unfold default_plot_v2. apply s_get. intros s Hs Hn. eapply s_bind; [apply s_v2_collect; [intros i; apply signal_In; exact Hs|intros g l i []]|].
        intros rv k2 Hk2 R. apply s_v2_decide. exact R. }
      intros a k2 Hk2 _. destruct a; [go|]. unfold default_plot_v1. go.
    - intros r k1 Hk1 _. destruct r as [[a b]|]; [go|]. apply s_get. intros s Hs Hn. go.
  Qed.

  (** ** everything *)
  Lemma s_check_item : forall n i, i < n -> safe n any (check_item CC i).
  Proof. intros n i H. unfold check_item. eapply s_bind; [apply s_item_name; exact H|]. intros _ k Hk _. apply s_attribute. lia. Qed.
  Lemma s_check_group : forall n i, i < n -> safe n any (check_group CC i).
  Proof. intros n i H. unfold check_group. repeat first [apply s_validate_group; num | step; cbv beta]. Qed.
  Lemma s_validate : safe 0 any (validate_open CC).
  Proof.
    unfold validate_open. eapply s_bind; [unfold build_address_catalog; apply s_catalog; discriminate|]. intros _ k Hk _.
    eapply s_bind with (P := any).
    { unfold step1. apply s_get. intros s Hs Hn. apply s_for_in. intros i m Hi Hm. apply s_check_item.
      apply in_concat in Hi as [l [A B]]. unfold dvals in A. apply in_map_iff in A as [[c l0] [<- A]]. pose proof (i_cp s Hs _ _ _ A B). lia. }
    intros _ k1 Hk1 _. eapply s_bind with (P := any).
    { unfold step2. apply s_get. intros s Hs Hn. apply s_for_in. intros i m Hi Hm. apply s_check_group.
      apply in_map_iff in Hi as [[a j] [<- A]]. pose proof (i_addr s Hs _ _ A). cbn [snd]. lia. }
    intros _ k2 Hk2 _. eapply s_bind with (P := any).
    { unfold step3. apply s_get. intros s Hs Hn. apply s_for_in. intros i m Hi Hm. apply s_check_definition.
      apply in_flat_map in Hi as [c [_ A]]. destruct (dget c (st_cp s)) as [l|] eqn:D; [|destruct A]. apply dget_In in D. pose proof (i_cp s Hs _ _ _ D A). lia. }
    intros _ k3 Hk3 _. apply s_default_plot.
  Qed.
End Run.

Theorem validate_raises : forall u w v p e, patterns_compile (u_patterns u) -> snd (validate u w v p) = Exn e ->
  (e = FileNotFound /\ dget p w = None) \/ (e = HDF5_Open_Error /\ dget p w = Some FOther) \/ (failure e /\ exists objects, dget p w = Some (FHdf5 objects)).
Proof.
  intros u w v p e C H. unfold validate in H. destruct (dget p w) as [[objs|]|] eqn:D.
  - right. right. split; [|exists objs; reflexivity].
    assert (I0 : inv (fresh_state (st_classes (v_st v)))) by (split; cbn; contradiction).
    destruct (s_validate (u_env u) w (open_root p) (u_patterns u) (u_reclimit u) (u_field_minOccurs u) C _ I0 (Nat.le_0_l _)) as (_ & _ & X).
    change (mkCtx (u_env u) w (open_root p) (u_patterns u) (u_reclimit u) (u_field_minOccurs u)) with (mk_ctx u w p) in X.
    destruct (validate_open (mk_ctx u w p) (fresh_state (st_classes (v_st v)))) as [s r]. cbn [snd] in *. rewrite H in X. exact X.
  - right. left. cbn in H. split; [congruence|reflexivity].
  - left. cbn in H. split; [congruence|reflexivity].
Qed.
