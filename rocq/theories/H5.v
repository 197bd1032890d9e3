(** * Values and HDF5 files as seen through h5py

    Models what punx sees of h5py and numpy: attribute and dataset values, the
    object graph of a file, path lookup ([group[name]], [group.get(name)],
    [name in group]), iteration over a group and [obj.name].
    Nothing is assumed about the graph: links may form cycles, dangle, or share
    objects. *)

From Coq Require Import List NArith ZArith Bool String.
From Verif Require Import PyBase Regex Utf8.
Import ListNotations.
Open Scope string_scope.
Open Scope list_scope.

(** ** Platform parameters *)
Record env := mkEnv {
  e_uw : N -> bool;              (* does [\w] match this non-ASCII code point *)
  e_isdigit : N -> bool;         (* str.isdigit for non-ASCII code points *)
  e_decimal : N -> option N;     (* decimal value for int() of non-ASCII code points *)
  e_space : N -> bool;           (* white space for int() among non-ASCII code points *)
  e_enc : encoding               (* sys.stdout.encoding, or utf8 if it is None *)
}.

(** ** Python values that come out of an HDF5 file *)
Inductive pyval :=
| VStr (s : pystr)
| VBytes (b : list N)            (* bytes or numpy.bytes_ *)
| VInt (z : Z)                   (* Python or numpy integer scalar *)
| VFloat (repr : pystr)          (* other numeric scalar, given by its str() *)
| VNone
| VList (l : list pystr)         (* list of str (a decoded array) *)
| VArrO (l : list pystr)         (* 1-D numpy object array of str *)
| VArrS (l : list (list N))      (* 1-D numpy fixed-length bytes array *)
| VArrNum (l : list pystr)       (* numeric numpy array; elements given by their str() *)
| VOther (repr : pystr).         (* h5py.Empty, references, compound values, ... *)

(** a list comprehension; the first exception ends it *)
Fixpoint traverse {A B} (f : A -> res B) (l : list A) : res (list B) :=
  match l with
  | [] => Ok []
  | x :: l' => dor y <- f x ; dor ys <- traverse f l' ; Ok (y :: ys)
  end.

(** punx/utils.py:36-53 decode_byte_string.  [value.astype('U')] of a bytes
    array decodes ASCII. *)
Definition decode_byte_string (E : env) (v : pyval) : res pyval :=
  match v with
  | VArrO l => match l with [] => Ok VNone | _ => Ok (VList l) end
  | VArrS l => match l with
               | [] => Ok VNone
               | _ => rmap VList (traverse (decode_bytes EncAscii) l)
               end
  | VBytes b => rmap VStr (decode_bytes (e_enc E) b)
  | _ => Ok v
  end.

(** punx/utils.py:56-60 string_list_to_hdf5 *)
Definition string_list_to_hdf5 (l : list pystr) : res (list pyval) :=
  traverse (fun s => rmap VBytes (utf8_encode s)) l.

(** the repr of a text without quotes and special characters *)
Definition quote1 (s : pystr) : pystr := py "'" ++ s ++ py "'".

(** [str(v)].  Simplification: no escapes inside the quotes of a list or bytes
    repr; used in comments, and in the comparison with "1" of
    default_plot.py:139 and the isdigit test of attribute.py:124, none of
    which depends on the escapes. *)
Definition py_str (v : pyval) : pystr :=
  match v with
  | VStr s => s
  | VBytes b => py "b" ++ quote1 b
  | VInt z => str_Z z
  | VFloat r => r
  | VNone => py "None"
  | VList l => py "[" ++ join (py ", ") (map quote1 l) ++ py "]"
  | VArrO l => py "[" ++ join (py " ") (map quote1 l) ++ py "]"
  | VArrS l => py "[" ++ join (py " ") (map (fun b => py "b" ++ quote1 b) l) ++ py "]"
  | VArrNum l => py "[" ++ join (py " ") l ++ py "]"
  | VOther r => r
  end.

(** [s.isdigit()] *)
Definition char_isdigit (E : env) (c : N) : bool := if (c <? 128)%N then ascii_digit c else e_isdigit E c.
Definition py_isdigit (E : env) (s : pystr) : bool :=
  match s with [] => false | _ => forallb (char_isdigit E) s end.

(** the value of a decimal digit, as [\d] of regular expressions finds them *)
Definition char_decimal (E : env) (c : N) : option N :=
  if (c <? 128)%N then (if ascii_digit c then Some (c - 48)%N else None) else e_decimal E c.

(** [int(s)] for text: white space, a sign, digits with single underscores between them,
    white space.  Non-ASCII white space is looked for before digits (CPython's
    _PyUnicode_TransformDecimalAndSpaceToASCII).  Simplification: no limit on the number of digits. *)
Definition int_space (E : env) (c : N) : bool :=
  if (c <? 128)%N then ((9 <=? c)%N && (c <=? 13)%N) || (c =? 32)%N else e_space E c.
Definition int_digit (E : env) (c : N) : option N := if int_space E c then None else char_decimal E c.
Fixpoint skip_spaces (E : env) (s : pystr) : pystr :=
  match s with c :: t => if int_space E c then skip_spaces E t else s | [] => [] end.
Definition int_strip (E : env) (s : pystr) : pystr := rev (skip_spaces E (rev (skip_spaces E s))).
Fixpoint digits_val (E : env) (acc : N) (s : pystr) : option N :=
  match s with
  | [] => Some acc
  | c :: s' => match int_digit E c with
               | Some d => digits_val E (10 * acc + d)%N s'
               | None => if (c =? 95)%N then
                           match s' with
                           | c' :: s'' => match int_digit E c' with
                                          | Some d => digits_val E (10 * acc + d)%N s''
                                          | None => None
                                          end
                           | [] => None
                           end
                         else None
               end
  end.
Definition int_digits (E : env) (s : pystr) : option N :=
  match s with c :: s' => match int_digit E c with Some d => digits_val E d s' | None => None end | [] => None end.
Definition int_signed (E : env) (s : pystr) : option Z :=
  match s with
  | c :: t => if (c =? 45)%N then option_map (fun n => - Z.of_N n)%Z (int_digits E t)
              else if (c =? 43)%N then option_map Z.of_N (int_digits E t)
              else option_map Z.of_N (int_digits E s)
  | [] => None
  end.
Definition py_int_text (E : env) (s : pystr) : res Z :=
  match int_signed E (int_strip E s) with Some z => Ok z | None => Exn ValueError end.

(** ** Files *)
Inductive link :=
| LHard (oid : nat)
| LSoft (path : pystr)
| LExt (file path : pystr).

(** what kinds of objects h5py gives for a file: groups with their links, and datasets *)
Inductive h5kind :=
| KGroup (links : dict link)
| KDataset (data : pyval)
| KDatatype.

(** an object of a file, with its attributes *)
Record h5obj := mkObj { ob_kind : h5kind; ob_attrs : dict pyval }.

(** objects of a file by number; number 0 is the root group *)
Definition h5file := list h5obj.

(** what a path in the file system holds *)
Inductive fstate := FHdf5 (f : h5file) | FOther.
Definition world := dict fstate.

(** an open h5py object: which file, which object, the [.name] it reports, and
    whether it is the h5py.File object itself *)
Record handle := mkH { h_file : pystr; h_oid : nat; h_name : pystr; h_isfile : bool }.

(** an object of an HDF5 file by its number *)
Definition get_obj (w : world) (file : pystr) (oid : nat) : option h5obj :=
  match dget file w with
  | Some (FHdf5 f) => nth_error f oid
  | _ => None
  end.

(** the object of an h5py handle *)
Definition obj_of (w : world) (h : handle) : option h5obj := get_obj w (h_file h) (h_oid h).

(** [obj.attrs.items()] *)
Definition attrs_of (w : world) (h : handle) : dict pyval :=
  match obj_of w h with Some o => ob_attrs o | None => [] end.

(** links of a group, in iteration order *)
Definition links_of (w : world) (h : handle) : dict link :=
  match obj_of w h with
  | Some o => match ob_kind o with KGroup l => l | _ => [] end
  | None => []
  end.

(** [isinstance(obj, h5py.Group)]: groups and files (punx/utils.py:63-70) *)
Definition is_group_obj (w : world) (h : handle) : bool :=
  match obj_of w h with
  | Some o => match ob_kind o with KGroup _ => true | _ => false end
  | None => false
  end.

(** punx/utils.py:63-75 *)
Definition isHdf5FileObject (h : handle) : bool := h_isfile h.
Definition isHdf5Group (w : world) (h : handle) : bool := is_group_obj w h && negb (h_isfile h).
Definition isHdf5Dataset (w : world) (h : handle) : bool :=
  match obj_of w h with
  | Some o => match ob_kind o with KDataset _ => true | _ => false end
  | None => false
  end.

(** ** Path lookup *)
Definition slash : pystr := [ch_slash].

(** components of a path; HDF5 ignores empty components and "." *)
Definition path_comps (p : pystr) : list pystr :=
  filter (fun c => negb (str_eqb c [] || str_eqb c [ch_dot])) (split ch_slash p).

(** does an HDF5 path start at the root *)
Definition is_abs (p : pystr) : bool := startswith p slash.

(** name of a member of [h] *)
Definition child_path (p c : pystr) : pystr :=
  if str_eqb p slash then slash ++ c else p ++ slash ++ c.

(** the root group, as h5py returns it for the path "/" *)
Definition root_handle (file : pystr) : handle := mkH file 0 slash false.

(** HDF5's limit on soft/external links traversed within links *)
Definition max_nlinks : nat := 16.

(** Follow [comps] from [cur].  Hard links and soft links keep the access path
    as the object's name; an external link takes the path in the other file.
    A missing component is KeyError; more than [nl] nested soft/external links is
    RuntimeError (h5py's mapping of H5E_NLINKS). *)
Fixpoint resolve (nl : nat) (w : world) (cur : handle) (comps : list pystr) {struct nl} : res handle :=
  (fix walk (cur : handle) (comps : list pystr) {struct comps} : res handle :=
     match comps with
     | [] => Ok cur
     | c :: rest =>
         match dget c (links_of w cur) with
         | None => Exn KeyError
         | Some (LHard o) =>
             match get_obj w (h_file cur) o with
             | Some _ => walk (mkH (h_file cur) o (child_path (h_name cur) c) false) rest
             | None => Exn KeyError
             end
         | Some (LSoft p) =>
             match nl with
             | O => Exn RuntimeError
             | S n =>
                 match resolve n w (if is_abs p then root_handle (h_file cur) else cur) (path_comps p) with
                 | Ok t => walk (mkH (h_file t) (h_oid t) (child_path (h_name cur) c) false) rest
                 | Exn e => Exn e
                 end
             end
         | Some (LExt f p) =>
             match nl with
             | O => Exn RuntimeError
             | S n =>
                 match get_obj w f 0 with
                 | None => Exn KeyError
                 | Some _ =>
                     match resolve n w (root_handle f) (path_comps p) with
                     | Ok t => walk (mkH (h_file t) (h_oid t) (h_name t) false) rest
                     | Exn e => Exn e
                     end
                 end
             end
         end
     end) cur comps.

(** [group[name]] for text [name]; an empty name is ValueError (H5E_BADVALUE) *)
Definition getitem (w : world) (h : handle) (name : pystr) : res handle :=
  match name with
  | [] => Exn ValueError
  | _ =>
      let start := if is_abs name then root_handle (h_file h)
                   else mkH (h_file h) (h_oid h) (h_name h) false in
      resolve max_nlinks w start (path_comps name)
  end.

(** [group.get(name)]: KeyError becomes None *)
Definition getopt (w : world) (h : handle) (name : pystr) : res (option handle) :=
  match getitem w h name with
  | Ok t => Ok (Some t)
  | Exn KeyError => Ok None
  | Exn e => Exn e
  end.

(** [name in group], h5py's [h5g._path_valid]: the last component only has to
    be a link, whatever it points to; the ones before must lead to groups *)
Fixpoint path_valid (w : world) (cur : handle) (comps : list pystr) : bool :=
  match comps with
  | [] => true
  | [c] => dmem c (links_of w cur)
  | c :: rest =>
      if dmem c (links_of w cur) then
        match resolve max_nlinks w cur [c] with
        | Ok t => if is_group_obj w t then path_valid w t rest else false
        | Exn _ => false
        end
      else false
  end.

(** [name in group] of h5py *)
Definition contains (w : world) (h : handle) (name : pystr) : bool :=
  match name with
  | [] => false
  | _ =>
      let start := if is_abs name then root_handle (h_file h)
                   else mkH (h_file h) (h_oid h) (h_name h) false in
      path_valid w start (path_comps name)
  end.

(** [x in obj] for an h5py object and a decoded value.  A group wants text
    (TypeError otherwise).  A dataset is searched by iteration: a scalar cannot
    be iterated (TypeError); elements are bytes or numbers, never equal to text
    (simplification: for other element types too). *)
Definition py_in (w : world) (h : handle) (v : pyval) : res bool :=
  match obj_of w h with
  | Some o =>
      match ob_kind o with
      | KGroup _ => match v with VStr s => Ok (contains w h s) | _ => Exn TypeError end
      | KDataset d =>
          match d with
          | VArrO _ | VArrS _ | VArrNum _ | VList _ => Ok false
          | _ => Exn TypeError
          end
      | KDatatype => Exn TypeError
      end
  | None => Exn ValueError
  end.

(** [obj[()]]: the value of a dataset; a group or datatype raises TypeError *)
Definition read_data (w : world) (h : handle) : res pyval :=
  match obj_of w h with
  | Some o => match ob_kind o with KDataset d => Ok d | _ => Exn TypeError end
  | None => Exn ValueError
  end.

(** [isinstance(x, (list, tuple, ndarray)) -> x[0]] idiom
    (application_definition.py:23-24, 67-68) *)
Definition first_if_array (v : pyval) : res pyval :=
  match v with
  | VArrO (s :: _) => Ok (VStr s)
  | VList (s :: _) => Ok (VStr s)
  | VArrS (b :: _) => Ok (VBytes b)
  | VArrNum (r :: _) => Ok (VFloat r)
  | VArrO [] | VList [] | VArrS [] | VArrNum [] => Exn IndexError
  | _ => Ok v
  end.

(** punx/utils.py:78-83 isHdf5Link, for an open object: the kind of the link its
    name ends with *)
Definition dirname_comps (p : pystr) : list pystr := removelast (path_comps p).
Definition isHdf5Link (w : world) (h : handle) : res bool :=
  dor parent <- resolve max_nlinks w (root_handle (h_file h)) (dirname_comps (h_name h)) ;
  match dget (last (path_comps (h_name h)) []) (links_of w parent) with
  | Some (LHard _) | Some (LSoft _) => Ok true
  | Some (LExt _ _) => Ok false
  | None => Exn KeyError
  end.

(** punx/utils.py:128-136 isNeXusGroup *)
Definition py_eq_text (v : pyval) (s : pystr) : bool :=
  match v with VStr t => str_eqb t s | _ => false end.

(** punx/utils.py:128-136 isNeXusGroup *)
Definition isNeXusGroup (E : env) (w : world) (h : handle) (nxtype : pystr) : res bool :=
  if isHdf5Group w h then
    match dget (py "NX_class") (attrs_of w h) with
    | None => Ok false
    | Some v =>
        dor v0 <- (match v with
                   | VArrO _ | VArrS _ | VArrNum _ => first_if_array v
                   | _ => Ok v
                   end) ;
        dor d <- decode_byte_string E v0 ;
        Ok (py_eq_text d nxtype)
    end
  else Ok false.

(** the loop of punx/utils.py:119-124: a KeyError of one member is skipped *)
Fixpoint any_entry (E : env) (w : world) (root : handle) (names : list pystr) : res bool :=
  match names with
  | [] => Ok false
  | n :: rest =>
      match (dor h <- getitem w root n ; isNeXusGroup E w h (py "NXentry")) with
      | Ok true => Ok true
      | Ok false => any_entry E w root rest
      | Exn KeyError => any_entry E w root rest
      | Exn e => Exn e
      end
  end.

(** [h5py.File(file)], punx/validate.py:232, punx/h5tree.py:83 *)
Definition open_root (file : pystr) : handle := mkH file 0 slash true.

(** punx/utils.py:112-125 isNeXusFile; [None] when the file does not exist;
    h5py raises OSError for a file that is not HDF5 *)
Definition isNeXusFile (E : env) (w : world) (file : pystr) : res (option bool) :=
  match dget file w with
  | None => Ok None
  | Some FOther => Exn OSError
  | Some (FHdf5 _) => rmap Some (any_entry E w (open_root file) (dkeys (links_of w (open_root file))))
  end.
