(** * The exceptions a caller of validate() has to expect

    [failure e]: one of the exceptions that stand for something in the HDF5 file, or in
    the NXDL files, that the checks do not foresee.

    [patterns_compile ps]: the patterns of the file set are regular expressions, and there
    is one for the names of classes, if these have patterns at all. *)

From Coq Require Import List String.
From Verif Require Import PyBase Regex.

Inductive failure : exn -> Prop :=
| f_key : failure KeyError                   (* a dangling link, a name not found *)
| f_type : failure TypeError                 (* a value that is not text *)
| f_attribute : failure AttributeError
| f_value : failure ValueError
| f_index : failure IndexError               (* an empty array, a definition without groups *)
| f_recursion : failure RecursionError       (* groups nested too deep, or cycles *)
| f_runtime : failure RuntimeError           (* soft links in a circle *)
| f_decode : failure UnicodeDecodeError.     (* bytes that are no text *)

Definition patterns_compile (ps : dict (list pystr)) : Prop :=
  (forall name l p, In (name, l) ps -> In p l -> exists r, re_compile p = Ok r)
  /\ (forall l, In (py "validNXClassName", l) ps -> l <> nil).
