(** * Files with attributes worth checking, and the attribute properties as stated *)

From Coq Require Import List NArith ZArith Bool String Lia.
From Verif Require Import PyBase PyFacts H5 Findings Nxdl Core Catalog ItemName AttributeCheck Validate Trace CatalogFacts Samples Spec_Names Spec_Run Spec_Catalog
  Spec_Attributes NameFacts RunFacts NameRun PathFacts CatalogTerm PresenceFacts AttrRun AttrTotal NameSamples CatalogSamples.
Import ListNotations.
Open Scope string_scope.
Open Scope list_scope.

Definition attr_file : h5file :=
  [ (* 0 *) grp [("entry", 1)] [];
    (* 1 *) grp [("data", 2); ("other", 5)] [("NX_class", str "NXentry")];
    (* 2 *) grp [("y", 3); ("x", 4)] [("NX_class", str "NXdata"); ("signal", str "y"); ("axes", VArrO [py "x"; py "Not here"])];
    (* 3 *) ds (VArrNum [py "1"]) [("target", str "/entry/data/y")];
    (* 4 *) ds (VArrNum [py "1"]) [("target", str "/entry/nowhere/x"); ("signal", VInt 1)];
    (* 5 *) grp [] [("NX_class", str "NXdata"); ("signal", str "2y")] ].

(** attributes whose check fails *)
Definition with_attr (k : string) (v : pyval) : h5file :=
  [ grp [("entry", 1)] []; grp [] [("NX_class", str "NXentry"); (k, v)] ].
Definition with_field_attr (k : string) (v : pyval) : h5file :=
  [ grp [("entry", 1)] []; grp [("x", 2)] [("NX_class", str "NXentry")]; ds (VInt 1) [(k, v)] ].

(** a child by name, in any file *)
Lemma signal_child : forall u w v fname v', validate u w v fname = (v', Ok tt) ->
  forall i it val s p pit h, listed v' i it -> it_obj it = OVal val -> it_addr it <> None -> it_name it = Some (py "signal") ->
  it_parent it = Some p -> listed v' p pit -> it_obj pit = ONode h -> isHdf5Group w h = true -> decode_byte_string (u_env u) val = Ok (VStr s) -> link_name s ->
  exists st cm, shows v' i it (mkF (it_addr it) (py "attribute value") st cm)
    /\ ((st = OK /\ In s (map fst (links_of w h)) /\ cm = py "found: @signal=" ++ s) \/ (st = ERROR /\ ~ In s (map fst (links_of w h)) /\ cm = py "not found: @signal=" ++ s)).
Proof.
  intros u w v fname v' H i it val s p pit h L Ho Ha Hn Hp Lp Hpo Hg Hd Hl.
  destruct (signal_findings _ _ _ _ _ H _ _ _ _ _ _ _ L Ho Ha Hn Hp Lp Hpo Hg Hd) as [st1 [cm1 [st2 [cm2 [A1 [A2 [A2' [A3 [A4 A5]]]]]]]]].
  exists st2, cm2. split; auto. rewrite (contains_name _ _ _ Hl) in A4. rewrite <- (dmem_In _ s (links_of w h)).
  destruct A4 as [[-> [-> ->]]|[-> [-> ->]]]; auto.
Qed.

(** completed runs *)
Lemma completed_checkable : forall u w v fname v', validate u w v fname = (v', Ok tt) ->
  forall i it val k p pit h, listed v' i it -> it_obj it = OVal val -> it_addr it <> None -> it_name it = Some k ->
  it_parent it = Some p -> listed v' p pit -> it_obj pit = ONode h -> checkable (u_env u) w h val k.
Proof.
  intros u w v fname v' H i it val k p pit h L Ho Ha Hn Hp Lp Hpo.
  destruct (attr_listed _ _ _ _ _ H _ _ _ L Ho Ha) as [q [qit [g [k' [A1 [A2 [A3 [A4 [A5 [A6 A7]]]]]]]]]].
  assert (q = p) by congruence. subst q. rewrite (listed_fun _ _ _ _ A2 Lp) in *. assert (g = h) by congruence. subst g. assert (k' = k) by congruence. subst k'.
  destruct (attr_at _ _ _ _ _ H _ _ L) as [sm [sb O]]. destruct (ao_item _ _ _ _ _ _ _ _ _ O) as [it0 [Hi HS]].
  destruct (skel_eq _ _ HS) as [E1 [E2 [E3 [E4 [E5 E6]]]]].
  destruct (ao_other _ _ _ _ _ _ _ _ _ O _ _ Lp) as [pit0 [P1 P2]]. destruct (skel_eq _ _ P2) as [G1 [G2 _]].
  refine (attribute_returned (mk_ctx u w fname) i sm it0 pit0 p h val (h_name h ++ ch_at :: k) k Hi _ P1 _ _ _ _ _ sb (ao_run _ _ _ _ _ _ _ _ _ O)).
  - rewrite E1; auto.
  - rewrite G2; auto.
  - rewrite E2; auto.
  - rewrite E4; exact A6.
  - apply in_or_app. right. left. reflexivity.
  - rewrite E3; auto.
Qed.
