(** * Specification of the open files of a validator *)

From Coq Require Import List NArith Bool String.
From Verif Require Import PyBase H5 Findings Nxdl Core Validate Handles Spec_History.
Import ListNotations.

Definition p_call (u : setup) (p : process) (c : call) : process :=
  match c with CValidate w fname => fst (p_validate u w p fname) | CClose => p_close p end.
Definition p_after (u : setup) (cl : classes) (calls : list call) : process := fold_left (p_call u) calls (p_new cl).

(** the file opened by the last of the calls that did anything about open files:
    opening an HDF5 file, finding that a file is no HDF5 file, closing *)
Inductive left_open : list call -> option pystr -> Prop :=
| lo_nil : left_open [] None
| lo_open : forall calls w f h, dget f w = Some (FHdf5 h) -> left_open (calls ++ [CValidate w f]) (Some f)
| lo_unreadable : forall calls w f, dget f w = Some FOther -> left_open (calls ++ [CValidate w f]) None
| lo_missing : forall calls w f o, dget f w = None -> left_open calls o -> left_open (calls ++ [CValidate w f]) o
| lo_close : forall calls, left_open (calls ++ [CClose]) None.
