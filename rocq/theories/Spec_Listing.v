(** * Specification of listing file sets while others are installed *)

From Coq Require Import List NArith ZArith Bool String.
From Verif Require Import PyBase Cache Install Conc Spec_FileSets.
Import ListNotations.

(** the turns of the others *)
Definition others (turns : list (option nat)) : list nat := flat_map (fun t => match t with Some i => [i] | None => [] end) turns.
(** the directory at some moment of the turns *)
Definition moment {A} (turns : list (option nat)) (e : entries) (ps : list (prog A)) (s : entries) : Prop :=
  exists before after, turns = before ++ after /\ s = fst (schedule (others before) e ps).

(** the content of the info file of a directory *)
Definition info_file (s : entries) (n : pystr) : option tree := tget [n; py "__github_info__.json"] s.

(** why listing can fail: an info file that cannot be read; or one that was there and then is not *)
Inductive trouble (rj : json_reader) (at_some_moment : entries -> Prop) : pystr -> exn -> Prop :=
| tr_text : forall n s text x, at_some_moment s -> info_file s n = Some (TFile text) -> rj text = Exn x -> trouble rj at_some_moment n x
| tr_gone : forall n s s', at_some_moment s -> at_some_moment s' -> info_file s n <> None -> (forall text, info_file s' n <> Some (TFile text)) ->
    trouble rj at_some_moment n OSError.
