(** * Listing the file sets while other processes install some *)

From Coq Require Import List NArith ZArith Bool String.
From Verif Require Import PyBase Cache Install Conc.
Import ListNotations.
Open Scope string_scope.
Open Scope list_scope.

(** a process that only looks at the directory; each look sees it as it is then *)
Inductive look (B : Type) : Type :=
| Got (r : res B)
| Look (f : entries -> look B).
Arguments Got {B} r.
Arguments Look {B} f.

(** the loop of punx/cache_manager.py:420-425, with 513-531: [os.path.isdir], [os.path.exists], once more in
    read_info_file, then [open].  FileNotFoundError and IsADirectoryError are OSErrors.  Simplification: the
    file is read in one step. *)
Fixpoint list_items (rj : json_reader) (cpath : pystr) (acc : dict fileset) (items : list pystr) : look (dict fileset) :=
  match items with
  | [] => Got (Ok acc)
  | item :: rest =>
      Look (fun e1 => if match tget [item] e1 with Some (TDir _) => true | _ => false end then
        Look (fun e2 => if is_some (tget [item; INFO_FILE_NAME] e2) then
          Look (fun e3 => if is_some (tget [item; INFO_FILE_NAME] e3) then
            Look (fun e4 => match tget [item; INFO_FILE_NAME] e4 with
                            | Some (TFile text) =>
                                match rj text with
                                | Ok i => let path := cpath ++ [ch_slash] ++ item in
                                          list_items rj cpath (dset item (mkFS path (cache_label path) i) acc) rest
                                | Exn x => Got (Exn x)
                                end
                            | _ => Got (Exn OSError)
                            end)
          else Got (Exn OSError))
        else list_items rj cpath acc rest)
      else list_items rj cpath acc rest)
  end.
(** punx/cache_manager.py:412-426 all_file_sets of one cache: [os.listdir] first *)
Definition list_sets (rj : json_reader) (cpath : pystr) : look (dict fileset) :=
  Look (fun e => list_items rj cpath [] (map fst e)).

(** processes that change the directory, and one that looks at it: a turn is one of theirs or ([None]) its own *)
Fixpoint watch {A B} (turns : list (option nat)) (e : entries) (ps : list (prog A)) (q : look B) : entries * list (prog A) * look B :=
  match turns with
  | [] => (e, ps, q)
  | Some i :: rest => let '(e', ps') := schedule [i] e ps in watch rest e' ps' q
  | None :: rest => watch rest e ps (match q with Got r => Got r | Look f => f e end)
  end.
