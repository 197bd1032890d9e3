(** * Theorems about print_tree of the summary of nxdl.xsd (C142) *)

From Coq Require Import List NArith ZArith Bool String Lia.
From Verif Require Import PyBase PyFacts H5 SchemaMgr NxdlSchema NxdlPrint Samples ShippedLines Spec_Print PrintFacts.
Import ListNotations.
Open Scope string_scope.
Open Scope list_scope.
Open Scope nat_scope.

(** ** C142: print_tree(summary.definition) shows the summary.  It does not show all of it:
    the components of an object are left out.  (build_tree renames the dictionary "elements"
    to "components", and print_tree looks for "elements".)  In the schema of v3.3 the
    component "symbols" of a definition is not shown. *)
Definition shows_all (su : summary) (p : printed) : Prop :=
  forall x j o, In (x, j) (kids_of KElement (su_heap su) (su_definition su)) -> nth_error (su_heap su) j = Some o -> In (tree_line 1 o) (fst p).
Theorem C142_refuted :
  ~ (forall E limit kids su p, nxdl_summary E limit kids = Ok su -> print_tree limit su 0 (su_definition su) = Ok p -> shows_all su p).
Proof.
  intros H. destruct (nxdl_summary env0 200 xsd_v3_3) as [su|e] eqn:S0; [|vm_compute in S0; discriminate S0].
  destruct (print_tree 200 su 0 (su_definition su)) as [p|e] eqn:P.
  - specialize (H _ _ _ _ _ S0 P). destruct (summary_shape _ _ _ _ S0) as (_ & _ & _ & [x X] & _).
    destruct (kids_In _ _ _ _ _ X) as [_ [o [O _]]]. specialize (H x _ o X O).
    assert (Z : match nxdl_summary env0 200 xsd_v3_3 with
                | Ok su => match print_tree 200 su 0 (su_definition su), nth_error (su_heap su) (su_symbols su) with
                           | Ok p, Some o => existsb (str_eqb (tree_line 1 o)) (fst p)
                           | _, _ => true
                           end
                | Exn _ => true
                end = false) by (vm_compute; reflexivity).
    rewrite S0, P, O in Z. apply Bool.not_true_iff_false in Z. apply Z. apply existsb_exists. exists (tree_line 1 o). split; [exact H|]. apply str_eqb_eq. reflexivity.
  - assert (Z : match nxdl_summary env0 200 xsd_v3_3 with
                | Ok su => match print_tree 200 su 0 (su_definition su) with Ok _ => true | Exn _ => false end
                | Exn _ => false
                end = true) by (vm_compute; reflexivity).
    rewrite S0, P in Z. discriminate Z.
Qed.
Print Assumptions C142_refuted.

(** what it does show: one line for each object of the outline, attributes before groups and
    each by name, four spaces for each level; the count and the numbers by kind are those of
    the lines *)
Theorem C142_partial : forall limit su level i lines count db, print_tree limit su level i = Ok (lines, (count, db)) ->
  exists out, outline su level i out
    /\ Forall2 line_of out lines
    /\ count = List.length lines
    /\ forall k, of_kind k out = match dget (py (kind_word k)) db with Some n => n | None => 0 end.
Proof.
  intros limit su level i lines count db H. destruct (printed_outline _ _ _ _ _ H) as [out [O (A1 & A2 & A3 & A4)]]. exists out. cbn [fst snd] in *.
  split; [exact O|]. split; [exact A1|]. split; [rewrite A2; clear - A1; induction A1; cbn; auto|]. intros k. rewrite <- A4. unfold num. destruct k; reflexivity.
Qed.
Print Assumptions C142_partial.

(** below the first object there are only attributes and groups, never a component *)
Theorem C142_components : forall su level i out, outline su level i out -> Forall (fun x => so_kind (snd x) <> KElement) (tl out).
Proof. intros su level i out H. eapply outline_kinds; [apply le_n|exact H]. Qed.
Print Assumptions C142_components.

(** every summary that could be made can be printed, within the same limit of recursion *)
Theorem C142_prints : forall E limit kids su level, nxdl_summary E limit kids = Ok su -> exists p, print_tree limit su level (su_definition su) = Ok p.
Proof.
  intros E limit kids su level H. destruct (summary_shape _ _ _ _ H) as (B & _ & G & _ & [o O]). eapply print_total; [exact O|exact B|]. apply kids_In in G as [G _]. exact G.
Qed.
Print Assumptions C142_prints.

(** the schema of v3.3: the numbers of the project's own test *)
Example C142_case :
  match nxdl_summary env0 200 xsd_v3_3 with
  | Ok su => match print_tree 200 su 0 (su_definition su) with
             | Ok (lines, (count, db)) =>
                 (nth 7 lines [], List.length lines, count, db)
                 = (py "    @name : NXDL_schema__attribute(maxLength=63, name=name, required=True, type=validItemName)", 18, 18,
                    [(py "element", 1); (py "attribute", 16); (py "group", 1)])
             | Exn _ => False
             end
  | Exn _ => False
  end.
Proof. vm_compute. reflexivity. Qed.
