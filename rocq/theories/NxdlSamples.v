(** * A small file set for the examples of Properties_Nxdl.v *)

From Coq Require Import List NArith ZArith Bool String.
From Verif Require Import PyBase Nxdl NxdlLoad Spec_Nxdl.
Import ListNotations.
Open Scope string_scope.
Open Scope list_scope.

Definition named (tag name : string) (kids : list xnode) : xnode := XN (py tag) [(py "name", py name)] kids.
Definition typed (ty : string) (kids : list xnode) : xnode := XN (py "group") [(py "type", py ty)] kids.
Definition nxdl (kids : list xnode) : xnode := XN (py "definition") [] kids.

(** the directory /d: two base classes, an application definition, and a
    contributed definition that repeats a base class *)
Definition ls0 (p : pystr) : option fsnode :=
  if str_eqb p (py "/d") then Some (FSDir [py "base_classes"; py "nxdl.xsd"])
  else if str_eqb p (py "/d/base_classes") then Some (FSDir [py "NXentry.nxdl.xml"; py "README"; py "NXdata.nxdl.xml"])
  else if str_eqb p (py "/d/applications") then Some (FSDir [py "NXapp.nxdl.xml"])
  else if str_eqb p (py "/d/contributed_definitions") then Some (FSDir [py "NXdata.nxdl.xml"])
  else None.

Definition entry0 : xnode := nxdl
  [typed "NXdata" []; typed "NXdata" [named "field" "x" []; typed "NXnote" [named "field" "x" []]]; XN (py "group") [(py "name", py "data1"); (py "type", py "NXlog")] [];
   named "field" "title" [named "attribute" "units" []; XN (py "enumeration") [] [XN (py "item") [(py "value", py "a")] []; XN (py "item") [] []]];
   named "field" "data" []; XN (py "link") [(py "name", py "title"); (py "target", py "/entry/x")] []].

Definition content0 (app : xnode) (p : pystr) : option xnode :=
  if str_eqb p (py "/d/base_classes/NXentry.nxdl.xml") then Some entry0
  else if str_eqb p (py "/d/base_classes/NXdata.nxdl.xml") then Some (nxdl [named "field" "x" []])
  else if str_eqb p (py "/d/applications/NXapp.nxdl.xml") then Some app
  else if str_eqb p (py "/d/contributed_definitions/NXdata.nxdl.xml") then Some (nxdl [named "field" "y" []])
  else None.

Definition app0 : xnode := nxdl [typed "NXentry" [named "field" "definition" []]].
Definition app_bare : xnode := nxdl [typed "NXentry" []].
Definition df0 : defaults := mkDf (Some (DText (py "true"))) (Some (DText (py "0"))) (Some (DText (py "0"))) true true.

Definition load0 (app : xnode) : defaults * res classes := load_manager ls0 (fun _ => true) (content0 app) df0 (py "/d").
Definition classes_of (r : defaults * res classes) : classes := match snd r with Ok c => c | Exn _ => [] end.

Ltac slashless := let X := fresh in intros X; cbn in X; repeat destruct X as [X | X]; try discriminate; exact X.

Lemma ls0_plain : listed_names_plain ls0.
Proof.
  intros p names n. unfold ls0.
  repeat match goal with |- context [if ?b then _ else _] => destruct b end; intros E; inversion E; subst; intros Hn;
    cbn [In] in Hn; repeat destruct Hn as [<- | Hn]; try contradiction; slashless.
Qed.

Lemma ls0_names : nxdl_names_plain ls0.
Proof.
  assert (X : forall l base, Forall (fun n => firstn (List.length n - 9) n = firstn (List.length n - 9) n /\ ~ In 46%N (firstn (List.length n - 9) n)) l ->
              In (base ++ py ".nxdl.xml") l -> ~ In 46%N base).
  { intros l base HF Hi. rewrite Forall_forall in HF. destruct (HF _ Hi) as [_ HN].
    rewrite app_length in HN. change (List.length (py ".nxdl.xml")) with 9 in HN.
    rewrite Nat.add_sub, firstn_app, Nat.sub_diag, firstn_all in HN. simpl in HN. rewrite app_nil_r in HN. exact HN. }
  intros p names base. unfold ls0.
  repeat match goal with |- context [if ?b then _ else _] => destruct b end; intros E; inversion E; subst; apply X;
    repeat (constructor; [split; [reflexivity | cbn; slashless]|]); constructor.
Qed.
