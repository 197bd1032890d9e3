(** * Deciding facts about concrete findings *)

From Coq Require Import List NArith ZArith Bool String Lia.
From Verif Require Import PyBase PyFacts H5 Findings Nxdl Core Catalog Validate Samples Spec_Run RunFacts NameSamples CatalogSamples.
Import ListNotations.

(** an entry whose definition names a base class *)
Definition basedef_file : h5file :=
  [ grp [("entry"%string, 1)] [];
    grp [("definition"%string, 2)] [("NX_class"%string, str "NXentry")];
    ds (str "NXentry") [] ].

(** no other item has the address *)
Definition own_index (v : validator) (i : nat) : bool :=
  match nth_error (st_items (v_st v)) i with
  | None => true
  | Some it => forallb (fun j => match nth_error (st_items (v_st v)) j with
                                 | Some jt => negb (ostr_eqb (it_addr jt) (it_addr it)) || Nat.eqb j i
                                 | None => true end) (seq 0 (List.length (st_items (v_st v))))
  end.

Lemma own_index_spec : forall v i, own_index v i = true -> forall it, nth_error (st_items (v_st v)) i = Some it ->
  forall j jt, nth_error (st_items (v_st v)) j = Some jt -> it_addr jt = it_addr it -> j = i.
Proof.
  intros v i H it Hi j jt Hj Ha. unfold own_index in H. rewrite Hi in H. rewrite forallb_forall in H.
  assert (Hl : In j (seq 0 (List.length (st_items (v_st v))))) by (apply in_seq; split; [lia|]; simpl; apply nth_error_Some; congruence).
  apply H in Hl. rewrite Hj, Ha, (proj2 (ostr_eqb_eq _ _) eq_refl) in Hl. simpl in Hl. apply Nat.eqb_eq. auto.
Qed.

Lemma own_index_ok : forall f i, own_index (done f) i && Nat.ltb i (List.length (st_items (final f))) = true ->
  forall j jt, nth_error (st_items (final f)) j = Some jt -> it_addr jt = it_addr (item_of f i) -> j = i.
Proof.
  intros f i H j jt Hj Ha. apply andb_true_iff in H as [H1 H2]. eapply (own_index_spec (done f)); eauto.
  unfold item_of. apply nth_error_nth'. apply Nat.ltb_lt. auto.
Qed.

Lemma own_ok : forall v i, own_index v i = true -> own_address v i.
Proof. intros v i H it j jt [Li _] [Lj _] Ha. eapply own_index_spec; eauto. Qed.

Definition finding_eqb (a b : finding) : bool :=
  ostr_eqb (f_addr a) (f_addr b) && str_eqb (f_test a) (f_test b) && status_eqb (f_status a) (f_status b) && str_eqb (f_comment a) (f_comment b).
Lemma finding_eqb_ok : forall a b, finding_eqb a b = true -> a = b.
Proof.
  intros [a1 a2 a3 a4] [b1 b2 b3 b4] H. unfold finding_eqb in H. simpl in H. repeat (apply andb_true_iff in H as [H ?]).
  apply ostr_eqb_eq in H. apply str_eqb_eq in H2. apply str_eqb_eq in H0. destruct a3, b3; try discriminate; congruence.
Qed.
Lemma finding_in : forall v f, existsb (finding_eqb f) (st_find (v_st v)) = true -> In f (st_find (v_st v)).
Proof. intros v f H. apply existsb_exists in H as [g [A B]]. apply finding_eqb_ok in B. subst. auto. Qed.

Lemma no_error_ok : forall (d : dict finding), forallb (fun kv => negb (status_eqb (f_status (snd kv)) ERROR)) d = true ->
  forall t g, dget t d = Some g -> f_status g <> ERROR.
Proof.
  intros d H t g Hg E. apply dget_In in Hg. rewrite forallb_forall in H. apply H in Hg. simpl in Hg. rewrite E in Hg. discriminate.
Qed.
