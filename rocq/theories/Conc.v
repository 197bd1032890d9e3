(** * Installations at the same time

    Install.v has the states that one process passes through, when no other process changes the
    cache directory.  Here a process is the steps it still has to do; each sees the directory as it is
    then, and between two of them other processes may do theirs. *)

From Coq Require Import List NArith ZArith Bool String.
From Verif Require Import PyBase Cache Install Cli.
Import ListNotations.
Open Scope string_scope.
Open Scope list_scope.

(** ** Processes *)
Inductive prog (A : Type) : Type :=
| Done (r : res A)
| Step (f : entries -> entries * prog A).
Arguments Done {A} r.
Arguments Step {A} f.

(** one program after the other (Python's statement sequence; an exception ends it) *)
Fixpoint pbind {A B} (m : prog A) (k : A -> prog B) : prog B :=
  match m with
  | Done (Ok a) => k a
  | Done (Exn x) => Done (Exn x)
  | Step f => Step (fun e => let '(e', m') := f e in (e', pbind m' k))
  end.
Notation "'pdo' x <- m ; f" := (pbind m (fun x => f))
  (at level 200, x binder, m at level 100, f at level 200, right associativity).
(** look at the directory *)
Definition plook {A} (k : entries -> prog A) : prog A := Step (fun e => (e, k e)).

(** a process that is alone, as in Install.v *)
Fixpoint alone {A} (p : prog A) (e : entries) : list entries * entries * res A :=
  match p with
  | Done r => ([], e, r)
  | Step f => let '(e1, p1) := f e in let '(l, e2, r) := alone p1 e1 in (e1 :: l, e2, r)
  end.

(** a process does its next step, if it has one *)
Definition step {A} (p : prog A) (e : entries) : entries * prog A := match p with Done r => (e, Done r) | Step f => f e end.
Fixpoint replace_at {A} (i : nat) (x : A) (l : list A) : list A :=
  match l, i with
  | [], _ => []
  | _ :: l', O => x :: l'
  | y :: l', S i' => y :: replace_at i' x l'
  end.
(** several processes: a schedule says whose turn it is.  A process that is stopped has no turns any more. *)
Fixpoint schedule {A} (turns : list nat) (e : entries) (ps : list (prog A)) : entries * list (prog A) :=
  match turns with
  | [] => (e, ps)
  | i :: rest => match nth_error ps i with
                 | None => schedule rest e ps
                 | Some p => let '(e', p') := step p e in schedule rest e' (replace_at i p' ps)
                 end
  end.

(** ** Steps of download_file_set *)
(** [os.makedirs]: a directory that is missing is made in a second step.  If it is there by then, that is
    FileExistsError for the last one, and ignored for its parents. *)
Fixpoint pmakedirs (done todo : list pystr) : prog unit :=
  match todo with
  | [] => Done (Ok tt)
  | n :: rest =>
      plook (fun e =>
        match tget (done ++ [n]) e with
        | Some (TDir _) => pmakedirs (done ++ [n]) rest
        | Some (TFile _) => Done (Exn OSError)
        | None => Step (fun e' =>
            match tget (done ++ [n]) e' with
            | Some _ => (e', match rest with [] => Done (Exn OSError) | _ => pmakedirs (done ++ [n]) rest end)
            | None => match tput (done ++ [n]) (TDir []) e' with
                      | Some e'' => (e'', pmakedirs (done ++ [n]) rest)
                      | None => (e', Done (Exn OSError))
                      end
            end)
        end)
  end.

(** write [todo] after [done], character by character.  Simplifications: what is written after the file has
    been moved or removed is lost; of two processes that write to one file at the same time, the last has
    written all of it.  (Neither happens in the schedules of the refutations of C119.) *)
Fixpoint pfill (p : list pystr) (done todo : pystr) : prog unit :=
  match todo with
  | [] => Done (Ok tt)
  | c :: rest =>
      Step (fun e => (match tput p (TFile (done ++ [c])) e with Some e' => e' | None => e end, pfill p (done ++ [c]) rest))
  end.
(** [open(path, "wb")] makes the file, or empties it *)
Definition pwrite (p : list pystr) (data : pystr) : prog unit :=
  Step (fun e =>
    match tget p e with
    | Some (TDir _) => (e, Done (Exn OSError))
    | _ => match tput p (TFile []) e with
           | Some e' => (e', pfill p [] data)
           | None => (e, Done (Exn OSError))
           end
    end).

(** [ZipFile.extract(name, cache_path)] *)
Definition pextract (name data : pystr) : prog unit :=
  let p := safe_parts name in
  pdo _u <- pmakedirs [] (removelast p) ;
  if endswith name [ch_slash] then
    plook (fun e =>
      match tget p e with
      | Some (TDir _) => Done (Ok tt)
      | Some (TFile _) => Done (Exn OSError)
      | None => Step (fun e' =>
          match tget p e' with
          | Some _ => (e', Done (Exn OSError))
          | None => match tput p (TDir []) e' with
                    | Some e'' => (e'', Done (Ok tt))
                    | None => (e', Done (Exn OSError))
                    end
          end)
      end)
  else pwrite p data.

(** the loop of punx/cache_manager.py:204-209 *)
Fixpoint pextract_all (z : archive) (top : pystr) (count : nat) (ms : list member) : prog nat :=
  match ms with
  | [] => Done (Ok count)
  | m :: rest =>
      if is_extractable (m_name m) NXDL_file_endings (allowed_parents top) then
        pdo _u <- pextract (m_name m) (getinfo z (m_name m)) ;
        pextract_all z top (S count) rest
      else pextract_all z top count rest
  end.

(** the paths in a tree, each directory after its entries *)
Fixpoint rm_paths (p : list pystr) (t : tree) {struct t} : list (list pystr) :=
  match t with
  | TFile _ => [p]
  | TDir es =>
      (fix go (es : list (pystr * tree)) : list (list pystr) :=
         match es with
         | [] => [p]
         | (n, t') :: rest => rm_paths (p ++ [n]) t' ++ go rest
         end) es
  end.
(** the directory without what is at a path *)
Fixpoint tdel (p : list pystr) (e : entries) : entries :=
  match p with
  | [] => e
  | [n] => dremove n e
  | n :: p' => match dget n e with Some (TDir e') => dset n (TDir (tdel p' e')) e | _ => e end
  end.
(** [os.unlink] or [os.rmdir]; errors are ignored, such as that of a directory that is not empty *)
Definition pdelete (p : list pystr) (e : entries) : entries :=
  match tget p e with Some (TDir (_ :: _)) => e | _ => tdel p e end.
Fixpoint pdeletes (ps : list (list pystr)) : prog unit :=
  match ps with
  | [] => Done (Ok tt)
  | p :: rest => Step (fun e => (pdelete p e, pdeletes rest))
  end.
(** [shutil.rmtree(path, ignore_errors=True)].  Simplification: all directories are listed at the beginning. *)
Definition prmtree (name : pystr) : prog unit :=
  plook (fun e => match dget name e with Some (TDir es) => pdeletes (rm_paths [name] (TDir es)) | _ => Done (Ok tt) end).

(** [shutil.move(src, dst)]: if [dst] is a directory by now, [src] becomes an entry of it.  Simplification:
    the test for this and the rename are one step. *)
Definition pmove (src dst : pystr) : prog unit :=
  Step (fun e =>
    match dget src e, dget dst e with
    | Some t, None => (dset dst t (dremove src e), Done (Ok tt))
    | Some t, Some (TDir es) => if dmem src es then (e, Done (Exn OSError)) else (dset dst (TDir (dset src t es)) (dremove src e), Done (Ok tt))
    | _, _ => (e, Done (Exn OSError))
    end).

(** punx/cache_manager.py:193-238 *)
Definition punpack (name : pystr) (z : archive) : prog unit :=
  pdo top <- Done (top_of z) ;
  pdo count <- pextract_all z top 0 (z_members z) ;
  if Nat.ltb count 2 then Done (Exn ValueError)
  else
    pdo text <- Done (z_info z name) ;
    pdo _u <- pwrite [top; INFO_FILE_NAME] text ;
    pdo _u <- prmtree name ;
    pmove top name.

(** punx/cache_manager.py:162-238 download_file_set *)
Definition pdownload (name : pystr) (replace : bool) (net : nat -> answer) : prog unit :=
  plook (fun e =>
    if dmem name e && negb replace then Done (Ok tt)
    else match snd (download_archive net) with
         | Exn x => Done (Exn x)
         | Ok None => Done (Ok tt)
         | Ok (Some z) => punpack name z
         end).

(** the loop of punx/main.py:252-259 *)
Fixpoint pinstall_all (update : bool) (net : nat -> nat -> answer) (i : nat) (names : list pystr) : prog unit :=
  match names with
  | [] => Done (Ok tt)
  | n :: rest => pdo _u <- pdownload n update (net i) ; pinstall_all update net (S i) rest
  end.

(** one [punx install] at its downloads: [--update], the network, and the names *)
Record job := mkJob { j_update : bool; j_net : nat -> nat -> answer; j_names : list pystr }.
Definition process (j : job) : prog unit := pinstall_all (j_update j) (j_net j) 0 (j_names j).
