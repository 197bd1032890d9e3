(** * The HDF5 file objects a validator opens: punx/validate.py:96-115 and 221-236

    [Validate.validate] keeps only the name of the open file.  Here the h5py.File
    objects are explicit: which are open, and which one is [self.h5].  Files that the
    HDF5 library opens by itself to follow external links are not counted. *)

From Coq Require Import List NArith Bool String.
From Verif Require Import PyBase H5 Findings Nxdl Core Validate.
Import ListNotations.

(** [p_open]: the open h5py.File objects (object number, file name); [p_next]: the
    number of the next object; the rest: attributes of the Data_File_Validator *)
Record process := mkP {
  p_open : list (nat * pystr);
  p_next : nat;
  p_h5 : option nat;
  p_fname : option pystr;
  p_st : vstate
}.

(** validate.py:96-99 __init__ *)
Definition p_new (cl : classes) : process := mkP [] 0 None None (fresh_state cl).

(** h5py.File.close (library): the object is no longer open; nothing if it was closed *)
Definition close_file (id : nat) (l : list (nat * pystr)) : list (nat * pystr) := filter (fun o => negb (Nat.eqb (fst o) id)) l.

(** validate.py:109-115 close *)
Definition p_close (p : process) : process :=
  match p_h5 p with
  | Some id => mkP (close_file id (p_open p)) (p_next p) None (p_fname p) (p_st p)
  | None => p
  end.

(** validate.py:221-260 validate: [self.fname = fname], close the file left open,
    open the new one, and the checks *)
Definition p_validate (u : setup) (w : world) (p : process) (fname : pystr) : process * res unit :=
  match dget fname w with
  | None => (p, Exn FileNotFound)
  | Some content =>
      let p1 := mkP (p_open p) (p_next p) (p_h5 p) (Some fname) (p_st p) in
      let p2 := match p_h5 p1 with Some _ => p_close p1 | None => p1 end in
      match content with
      | FOther => (p2, Exn HDF5_Open_Error)
      | FHdf5 _ =>
          let '(s, r) := validate_open (mk_ctx u w fname) (fresh_state (st_classes (p_st p2))) in
          (mkP (p_open p2 ++ [(p_next p2, fname)]) (S (p_next p2)) (Some (p_next p2)) (p_fname p2) s, r)
      end
  end.
