(** * The defaults of a file set that was read from its own schema (C44) *)

From Coq Require Import List NArith ZArith Bool String Lia.
From Verif Require Import PyBase PyFacts H5 Nxdl NxdlLoad NxdlSchema Session Spec_Nxdl Spec_Session NxdlFacts SessionFacts NxdlSamples SessionSamples Samples Properties_Nxdl.
Import ListNotations.
Local Open Scope nat_scope.

(** the default of an attribute in nxdl.xsd *)
Definition declared (su : summary) (component : summary -> nat) (name : pystr) : option dflt :=
  match attribute_of (su_heap su) (component su) name with
  | None => None
  | Some a => Some match ad_default a with Some text => DText text | None => DNone end
  end.

(** after a file set is read, the defaults are those of its own nxdl.xsd, except for what its application definitions have *)
Theorem C44_loaded : forall E limit valid D path kids d cl, sd_nxdl D = Some kids -> listed_names_plain (sd_ls D) ->
  nxdl_manager E limit valid D path = Ok (Some d, cl) ->
  exists su, nxdl_summary E limit kids = Ok su
  /\ ((application_with_field (sd_ls D) (sd_content D) path /\ forall f, field_minOccurs d f = Some (DInt 1))
      \/ (~ application_with_field (sd_ls D) (sd_content D) path /\ forall f, field_minOccurs d f = declared su su_field (py "minOccurs")))
  /\ ((application_that has_group (sd_ls D) (sd_content D) path /\ forall g, group_minOccurs d g = Some (DInt 1))
      \/ (~ application_that has_group (sd_ls D) (sd_content D) path /\ forall g, group_minOccurs d g = declared su su_group_attrs (py "minOccurs")))
  /\ ((application_that has_attribute (sd_ls D) (sd_content D) path /\ forall a, attr_optional d a = Some DFalse)
      \/ (~ application_that has_attribute (sd_ls D) (sd_content D) path /\ forall a, attr_optional d a = declared su su_attribute (py "optional"))).
Proof.
  intros E limit valid D path kids d cl K PN M. unfold nxdl_manager in M. destruct (sd_ls D path); [|discriminate]. rewrite K in M.
  destruct (nxdl_summary E limit kids) as [su|e]; cbn [rbind] in M; [|discriminate]. exists su. split; [reflexivity|].
  destruct (load_manager (sd_ls D) valid (sd_content D) (defaults_of su) path) as [d' [c|e]] eqn:L; inversion M; subst.
  assert (X : forall comp name, option_map dflt_of (attribute_of (su_heap su) (comp su) name) = declared su comp name).
  { intros comp name. unfold declared. destruct (attribute_of (su_heap su) (comp su) name) as [a|]; [|reflexivity]. cbn [option_map]. unfold dflt_of. destruct (ad_default a); reflexivity. }
  split; [|split].
  - destruct (C44_exact _ _ _ _ _ _ _ PN L) as [H | [H H']]; [left; exact H | right; split; [exact H|]]. intros q. rewrite H', <- X. reflexivity.
  - destruct (C44_groups _ _ _ _ _ _ _ PN L) as [H | [H H']]; [left; exact H | right; split; [exact H|]]. intros q. rewrite H', <- X. reflexivity.
  - destruct (C44_attributes _ _ _ _ _ _ _ PN L) as [H | [H H']]; [left; exact H | right; split; [exact H|]]. intros q. rewrite H', <- X. reflexivity.
Qed.
Print Assumptions C44_loaded.

(** an application definition with a group only, and one with a field *)
Definition bare_set : set_dir := mkSD (sd_nxdl set1) (sd_types set1) ls0 (content0 app_bare).
Example C44_loaded_case : listed_names_plain (sd_ls bare_set) /\
  (exists d cl, nxdl_manager env0 900 (fun _ => true) bare_set (py "/d") = Ok (Some d, cl)
    /\ df_field_minOccurs d = Some (DText (py "0")) /\ df_group_minOccurs d = Some (DInt 1) /\ df_attr_optional d = Some (DText (py "true")))
  /\ exists d cl, nxdl_manager env0 900 (fun _ => true) set1 (py "/d") = Ok (Some d, cl) /\ df_field_minOccurs d = Some (DInt 1).
Proof.
  split; [exact ls0_plain|]. split.
  - destruct (nxdl_manager env0 900 (fun _ => true) bare_set (py "/d")) as [[[d|] cl]|e] eqn:M; vm_compute in M; try discriminate M. exists d, cl. injection M as <- _. repeat split.
  - destruct (nxdl_manager env0 900 (fun _ => true) set1 (py "/d")) as [[[d|] cl]|e] eqn:M; vm_compute in M; try discriminate M. exists d, cl. injection M as <- _. repeat split.
Qed.
