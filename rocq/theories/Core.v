(** * The validator's state and the monad its code runs in

    punx/validate.py Data_File_Validator (punx/validate.py:96-124) and ValidationItem. *)

From Coq Require Import List NArith ZArith Bool String.
From Verif Require Import PyBase Regex Utf8 H5 Findings Nxdl.
Import ListNotations.
Open Scope string_scope.
Open Scope list_scope.

(** the h5_object of an item: an open HDF5 object or an attribute value *)
Inductive hobj := ONode (h : handle) | OVal (v : pyval).

(** punx/validate.py:393-417 ValidationItem.  Items are referred to by their
    creation number, [it_parent] included. *)
Record vitem := mkItem {
  it_parent : option nat;
  it_obj : hobj;
  it_name : option pystr;        (* None only for application_definition.py:60 *)
  it_addr : option pystr;        (* h5_address *)
  it_cp : pystr;                 (* classpath *)
  it_nxclass : option pystr;     (* nx_class, when the Python attribute exists *)
  it_vals : dict finding         (* validations *)
}.

(** everything a running validate() call can change *)
Record vstate := mkSt {
  st_items : list vitem;
  st_addr : list (option pystr * nat);    (* validator.addresses *)
  st_cp : dict (list nat);                (* validator.classpaths *)
  st_find : list finding;                 (* validator.validations *)
  st_cache : dict compiled;               (* validator.regexp_cache *)
  st_classes : classes                    (* validator.manager.classes *)
}.

(** what it only reads *)
Record ctx := mkCtx {
  c_env : env;
  c_world : world;
  c_root : handle;                        (* validator.h5 *)
  c_patterns : dict (list pystr);         (* nxdl.patterns[...].re_list *)
  c_reclimit : nat;                       (* levels of recursion the interpreter allows *)
  c_field_minOccurs : option Z            (* default_value of the one minOccurs object all
                                             NXDL fields share, if it is a number
                                             (nxdl_manager.py:205-206, 259); see NxdlLoad *)
}.

(** a method of Data_File_Validator: it changes the state and returns or raises (Python semantics) *)
Definition M (A : Type) := vstate -> vstate * res A.

(** return *)
Definition ret {A} (a : A) : M A := fun s => (s, Ok a).
(** raise *)
Definition raise {A} (e : exn) : M A := fun s => (s, Exn e).
(** statements in sequence; the effects before an exception stay *)
Definition bind {A B} (m : M A) (f : A -> M B) : M B :=
  fun s => match m s with
           | (s', Ok a) => f a s'
           | (s', Exn e) => (s', Exn e)
           end.
(** an expression without effects on the validator *)
Definition lift {A} (r : res A) : M A := fun s => (s, r).
(** reading the validator's attributes (punx/validate.py:101-107) *)
Definition get : M vstate := fun s => (s, Ok s).

Notation "'let*' x ':=' m 'in' f" := (bind m (fun x => f))
  (at level 200, x binder, m at level 100, f at level 200, right associativity).
Notation "m ;;; f" := (bind m (fun _ => f)) (at level 100, f at level 200, right associativity).

(** [for x in l: f(x)] *)
Fixpoint for_each {A} (f : A -> M unit) (l : list A) : M unit :=
  match l with
  | [] => ret tt
  | x :: l' => f x ;;; for_each f l'
  end.

(** ** State updates *)
Definition set_items (s : vstate) (x : list vitem) := mkSt x (st_addr s) (st_cp s) (st_find s) (st_cache s) (st_classes s).
Definition set_find (s : vstate) x := mkSt (st_items s) (st_addr s) (st_cp s) x (st_cache s) (st_classes s).
Definition set_cache (s : vstate) x := mkSt (st_items s) (st_addr s) (st_cp s) (st_find s) x (st_classes s).
Definition set_classes (s : vstate) x := mkSt (st_items s) (st_addr s) (st_cp s) (st_find s) (st_cache s) x.

(** [v_item.validations] is replaced (punx/validate.py:117-124) *)
Definition set_vals (it : vitem) v :=
  mkItem (it_parent it) (it_obj it) (it_name it) (it_addr it) (it_cp it) (it_nxclass it) v.

(** items are objects: a change through one reference is seen through all *)
Fixpoint update_nth {A} (n : nat) (f : A -> A) (l : list A) : list A :=
  match l, n with
  | [], _ => []
  | x :: l', O => f x :: l'
  | x :: l', S n' => x :: update_nth n' f l'
  end.

(** dereferencing an item number; numbers handed out are always valid, the
    error value is never reached (proved in the invariants) *)
Definition item (i : nat) : M vitem := fun s =>
  match nth_error (st_items s) i with
  | Some it => (s, Ok it)
  | None => (s, Exn AssertionError)
  end.

(** creating a ValidationItem object *)
Definition new_item (it : vitem) : M nat := fun s =>
  (set_items s (st_items s ++ [it]), Ok (List.length (st_items s))).

(** punx/validate.py:117-124 record_finding *)
Definition record_finding (i : nat) (key : pystr) (st : status) (comment : pystr) : M unit :=
  let* it := item i in
  let f := mkF (it_addr it) key st comment in
  fun s =>
    (set_items (set_find s (st_find s ++ [f]))
               (update_nth i (fun it => set_vals it (dset key f (it_vals it))) (st_items s)),
     Ok tt).

(** [s1 + s2] where [s1] is text: text or TypeError *)
Definition concat_text (s1 : pystr) (v : pyval) : res pystr :=
  match v with VStr s2 => Ok (s1 ++ s2) | _ => Exn TypeError end.

(** None where text is needed: [None + "..."], [None.endswith] etc. *)
Definition need_text (e : exn) (o : option pystr) : res pystr :=
  match o with Some s => Ok s | None => Exn e end.

(** decode_byte_string applied to an item's h5_object: an open object passes
    unchanged *)
Definition decode_obj (E : env) (o : hobj) : res hobj :=
  match o with
  | ONode h => Ok (ONode h)
  | OVal v => rmap OVal (decode_byte_string E v)
  end.

(** [str(obj)] of an open object; simplification: one fixed text, never a digit,
    never "1" *)
Definition hobj_str (o : hobj) : pystr :=
  match o with ONode _ => "<HDF5 object>" | OVal v => py_str v end.

(** [utils.isHdf5Group(v_item.h5_object)], punx/utils.py:68-70 *)
Definition hobj_isgroup (w : world) (o : hobj) : bool :=
  match o with ONode h => isHdf5Group w h | OVal _ => false end.
(** [utils.isHdf5Dataset(v_item.h5_object)], punx/utils.py:73-75 *)
Definition hobj_isdataset (w : world) (o : hobj) : bool :=
  match o with ONode h => isHdf5Dataset w h | OVal _ => false end.
(** [utils.isHdf5FileObject(v_item.h5_object)], punx/utils.py:63-65 *)
Definition hobj_isfile (o : hobj) : bool :=
  match o with ONode h => isHdf5FileObject h | OVal _ => false end.
(** [obj.attrs]: attribute values have no attrs *)
Definition hobj_attrs (w : world) (o : hobj) : res (dict pyval) :=
  match o with ONode h => Ok (attrs_of w h) | OVal _ => Exn AttributeError end.
(** [x in obj] *)
Definition hobj_in (w : world) (v : pyval) (o : hobj) : res bool :=
  match o with ONode h => py_in w h v | OVal _ => Exn TypeError end.
