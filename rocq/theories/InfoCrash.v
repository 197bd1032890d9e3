(** * Every installation passes through a state with an empty info file *)

From Coq Require Import List NArith ZArith Bool String Lia.
From Verif Require Import PyBase PyFacts Cache Spec_FileSets Install Spec_Install InstallFacts InstallEnd.
Import ListNotations.
Open Scope list_scope.

Lemma unpack_writes : forall z top name e, top_of z = Ok top -> snd (unpack name z e) = Ok tt ->
  exists e1 text l0 l2 e' l3, extracted z top e e1 /\ z_info z name = Ok text /\ wwrite [top; INFO_FILE_NAME] text e1 = (l2, e', Ok tt)
    /\ fst (fst (unpack name z e)) = l0 ++ l2 ++ l3.
Proof.
  intros z top name e HT H. unfold unpack, wbind at 1, wlift at 1 in H. rewrite HT in H. simpl app in H.
  unfold unpack, wbind at 1, wlift at 1. rewrite HT. simpl app.
  unfold wbind at 1 in H. unfold wbind at 1. destruct (extract_all z top 0 (z_members z) e) as [[l1 e1] r1] eqn:X.
  destruct r1 as [count|x]; [|discriminate]. destruct (Nat.ltb count 2); [discriminate|].
  unfold wbind at 1, wlift at 1 in H. unfold wbind at 1, wlift at 1. destruct (z_info z name) as [text|x] eqn:Z; [|discriminate].
  unfold wbind at 1 in H. unfold wbind at 1. destruct (wwrite [top; INFO_FILE_NAME] text e1) as [[l2 e2] r2] eqn:WW.
  destruct r2 as [[]|x]; [|discriminate]. destruct (wbind (wrmtree name) (fun _u => wmove top name) e2) as [[l3 e3] r3].
  exists e1, text, l1, l2, e2, l3. split; [exists l1, count; exact X|]. split; auto.
Qed.

Lemma write_empty : forall top e1 c text l2 e', wwrite [top; INFO_FILE_NAME] (c :: text) e1 = (l2, e', Ok tt) ->
  exists s, In s l2 /\ with_info top e1 [] s.
Proof.
  intros top e1 c text l2 e' W. unfold wwrite in W.
  assert (D : is_dir (tget [top; INFO_FILE_NAME] e1) = false) by (destruct (tget [top; INFO_FILE_NAME] e1) as [[x|sub]|]; [reflexivity | discriminate | reflexivity]).
  destruct (tput [top; INFO_FILE_NAME] (TFile (c :: text)) e1) as [e2|] eqn:T; [|destruct (tget [top; INFO_FILE_NAME] e1) as [[x|sub]|]; discriminate].
  assert (E : exists s, tput [top; INFO_FILE_NAME] (TFile []) e1 = Some s).
  { rewrite tput_cons in T |- * by discriminate. destruct (dget top e1) as [[x|sub]|]; try discriminate. cbn [tput]. eauto. }
  destruct E as (s & E). exists s. split; [|apply tput_info_inv; assumption].
  assert (L : l2 = flat_map (fun k => match tput [top; INFO_FILE_NAME] (TFile (firstn k (c :: text))) e1 with Some x => [x] | None => [] end)
    (seq 0 (List.length (c :: text))) ++ [e2]) by (destruct (tget [top; INFO_FILE_NAME] e1) as [[x|sub]|]; inversion W; reflexivity).
  rewrite L. apply in_or_app. left. apply in_flat_map. exists 0. split; [left; reflexivity|]. cbn [firstn]. rewrite E. left. reflexivity.
Qed.

Lemma visited_empty : forall z top name replace net e, net 0 = AnArchive z -> plain_archive z top name -> ~ In name (map fst e) \/ replace = true ->
  snd (snd (download_file_set name replace net e)) = Ok tt -> z_info z name <> Ok [] ->
  exists s e1, visited e (snd (download_file_set name replace net e)) s /\ extracted z top e e1 /\ with_info top e1 [] s.
Proof.
  intros z top name replace net e HN PA D H NT. unfold visited. unfold download_file_set in *.
  assert (M : dmem name e && negb replace = false).
  { destruct D as [D | ->]; [|rewrite andb_false_r; reflexivity]. destruct (dmem name e) eqn:M; [|reflexivity]. apply dmem_In in M. contradiction. }
  rewrite M in *. unfold download_archive, GITHUB_RETRY_COUNT in *. cbn [try_rounds] in *. rewrite HN in *. cbn [try_round snd] in *.
  destruct (unpack_writes z top name e (top_ok z top name PA) H) as (e1 & text & l0 & l2 & e' & l3 & X & Z & W & L).
  destruct text as [|c text]; [contradiction|]. destruct (write_empty _ _ _ _ _ _ W) as (s & I & S). exists s, e1. split; [|auto].
  right. left. rewrite L. apply in_or_app. right. apply in_or_app. left. exact I.
Qed.
