(** * The number of array items shown changes only the arrays (C148) *)

From Coq Require Import List NArith ZArith Bool String Lia.
From Verif Require Import PyBase PyFacts Utf8 H5 Catalog H5Tree Spec_Tree Spec_Items ItemsFacts Properties_Tree.
Import ListNotations.
Local Open Scope string_scope.
Local Open Scope list_scope.

(** two reports with different numbers of items have the same lines in the same order, apart from what fields show
    behind " = " and from the lines that hold arrays of several dimensions *)
Theorem C148_lines : forall E up w ds fuel t m m' show ls ls',
  tree_lines E up w ds fuel (with_items m t) show = Ok (Some ls) -> tree_lines E up w ds fuel (with_items m' t) show = Ok (Some ls') ->
  Forall2 same_before_value (filter (fun l => negb (array_line l)) ls) (filter (fun l => negb (array_line l)) ls').
Proof.
  intros E up w ds fuel t m m' show ls ls' X Y. unfold tree_lines, with_items in *. cbn [t_filename t_nexus t_items] in *.
  destruct (t_filename t) as [file|]; [|discriminate X]. destruct (dget file w) as [[f|]|]; try discriminate X.
  match type of X with (dor _ <- ?q; _) = _ => destruct q as [a|] eqn:A; [|discriminate X] end.
  match type of Y with (dor _ <- ?q; _) = _ => destruct q as [b|] eqn:B; [|discriminate Y] end.
  injection X as <-. injection Y as <-. eapply group_alike; [exact A|exact B].
Qed.
Print Assumptions C148_lines.

(** if no array is longer than either number, in any direction, the reports are the same *)
Theorem C148_small : forall E up w ds fuel t m m' show, (m > 2)%Z -> (m' > 2)%Z -> arrays_up_to m ds -> arrays_up_to m' ds ->
  tree_report E up w ds fuel (with_items m t) show = tree_report E up w ds fuel (with_items m' t) show.
Proof.
  intros E up w ds fuel t m m' show G G' U U'. unfold tree_report, tree_lines, with_items. cbn [t_filename t_nexus t_items].
  destruct (t_filename t) as [file|]; [|reflexivity]. destruct (dget file w) as [[f|]|]; try reflexivity.
  rewrite (group_small E up w ds (t_nexus t) show m m' G G' U U'). reflexivity.
Qed.
Print Assumptions C148_small.

(** and the number of items does not decide whether the report fails *)
Theorem C148_failures : forall E up w ds fuel t m m' show e, (forall h dt shape a, ds h = DOther dt shape a -> fits shape a) ->
  tree_report E up w ds fuel (with_items m t) show = Exn e -> tree_report E up w ds fuel (with_items m' t) show = Exn e.
Proof.
  intros E up w ds fuel t m m' show e W H. unfold tree_report, tree_lines, with_items in *. cbn [t_filename t_nexus t_items] in *.
  destruct (t_filename t) as [file|]; [|discriminate H]. destruct (dget file w) as [[f|]|]; try exact H.
  match type of H with context [render_group E up w ds ?a ?b ?c ?f ?h ?n ?d ?md] => pose proof (group_fails E up w ds a c m m' W f h n d md) as X; destruct (render_group E up w ds a b c f h n d md) as [l|e1]; [discriminate H|] end.
  match type of X with fail_alike _ _ ?q => destruct q as [l|e2]; [destruct X|] end. cbn in X. subst e2. exact H.
Qed.
Print Assumptions C148_failures.

Example C148_failures_case : (forall h dt shape a, dsT h = DOther dt shape a -> fits shape a)
  /\ tree_report envT upT wLoop dsT 10 (with_items 5 (mkTree (Some (py "loop.h5")) false 5)) true = Exn RecursionError
  /\ tree_report envT upT wLoop dsT 10 (with_items 1 (mkTree (Some (py "loop.h5")) false 5)) true = Exn RecursionError.
Proof.
  split; [|split; vm_compute; reflexivity]. intros h t shape a D. unfold dsT in D.
  repeat match type of D with (match ?x with _ => _ end) = _ => destruct x end; injection D as <- <- <-; cbn; repeat (split || constructor).
Qed.

Example C148_lines_case :
  tree_report envT upT wT2 dsT 10 (with_items 2 tT2) true = Ok (Some [py "g.h5"; py "  img:int64[2,2] = [ ... ]"]) /\
  tree_report envT upT wT2 dsT 10 (with_items 5 tT2) true = Ok (Some
    [py "g.h5"; py "  img:int64[2,2] = __array";
     py "    __array = [" ++ [ch_nl] ++ py "        [1, 2]" ++ [ch_nl] ++ py "        [3, 4]" ++ [ch_nl] ++ py "      ]"]).
Proof. split; vm_compute; reflexivity. Qed.

Lemma seven : forall m, (7 <= m)%Z -> arrays_up_to m dsT.
Proof.
  intros m H h t shape a D. unfold dsT in D. repeat match type of D with (match ?x with _ => _ end) = _ => destruct x end; injection D as <- <- <-; repeat constructor; lia.
Qed.
Example C148_small_case : arrays_up_to 7 dsT /\ arrays_up_to 100 dsT /\ ~ arrays_up_to 6 dsT
  /\ tree_report envT upT wT dsT 10 (with_items 6 tT) false <> tree_report envT upT wT dsT 10 (with_items 7 tT) false
  /\ exists ls, tree_report envT upT wT dsT 10 (with_items 7 tT) false = Ok (Some ls) /\ In (py "    data:NX_INT64[7] = [10, 11, 12, 13, 14, 15, 16]") ls.
Proof.
  split; [apply seven; lia|]. split; [apply seven; lia|]. split; [|split].
  - intros X. specialize (X (mkH (py "f.h5") 3 (py "/entry/data") false) _ _ _ eq_refl). inversion X as [|? ? X1 _]. lia.
  - vm_compute. discriminate.
  - eexists. split; [vm_compute; reflexivity|]. vm_compute. tauto.
Qed.
