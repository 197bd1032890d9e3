(** * Concrete groups for the theorems about groups *)

From Coq Require Import List NArith ZArith Bool String.
From Verif Require Import PyBase PyFacts H5 Findings Nxdl Core Catalog GroupChecks AttributeCheck Validate RunFacts Samples Spec_Run Spec_Catalog Spec_Groups NameSamples.
Import ListNotations.

Definition handle_of (f : h5file) (i : nat) : handle :=
  match it_obj (item_of f i) with ONode h => h | OVal _ => open_root fn end.

Definition catalogued_groupb (v : validator) (w : world) (i : nat) (it : vitem) : bool :=
  existsb (fun ai : option pystr * nat => ostr_eqb (fst ai) (it_addr it) && Nat.eqb (snd ai) i) (st_addr (v_st v))
  && match it_obj it with ONode h => is_group_obj w h | _ => false end.

Lemma catalogued_groupb_ok : forall f i, (i <? List.length (st_items (final f)))%nat = true ->
  catalogued_groupb (done f) (world_of f) i (item_of f i) = true -> catalogued_group (world_of f) (done f) i (item_of f i) (handle_of f i).
Proof.
  intros f i L H. apply andb_true_iff in H as [H1 H2]. apply existsb_exists in H1 as [[a j] [H1 H3]]. apply andb_true_iff in H3 as [H3 H4].
  simpl in H3, H4. apply ostr_eqb_eq in H3. apply Nat.eqb_eq in H4. subst. unfold catalogued_group, handle_of.
  destruct (it_obj (item_of f i)) as [h|]; [|discriminate]. split; auto. split; auto. unfold item_of, final. apply nth_error_nth'. apply Nat.ltb_lt. exact L.
Qed.

(** a file with a group of an unknown class and one whose class is an application definition *)
Definition unknown_file : h5file :=
  [ grp [("entry", 1); ("odd", 2)] [];
    grp [] [("NX_class", str "NXtest")];
    grp [] [("NX_class", str "NXodd")] ].

(** a contributed definition with one group only *)
Definition single_group_class : classes :=
  classes0 ++ [def0 "NXsingle" "contributed_definitions" [] [] [group0 "entry"]].
Definition single_file : h5file := [ grp [("entry", 1)] []; grp [] [("NX_class", str "NXsingle")] ].
