(** * Findings: punx/finding.py *)

From Coq Require Import List NArith ZArith Bool String.
From Verif Require Import PyBase.
Import ListNotations.
Open Scope string_scope.
Open Scope list_scope.

(** punx/finding.py:51-68: the eight status objects, in VALID_STATUS_DICT order *)
Inductive status := OK | NOTE | WARN | ERROR | TODO | UNUSED | COMMENT | OPTIONAL.

(** statuses are compared by identity; the eight objects are distinct (punx/finding.py:51-68) *)
Definition status_eqb (a b : status) : bool :=
  match a, b with
  | OK, OK | NOTE, NOTE | WARN, WARN | ERROR, ERROR | TODO, TODO
  | UNUSED, UNUSED | COMMENT, COMMENT | OPTIONAL, OPTIONAL => true
  | _, _ => false
  end.

(** punx/finding.py:70 VALID_STATUS_LIST *)
Definition VALID_STATUS_LIST : list status := [OK; NOTE; WARN; ERROR; TODO; UNUSED; COMMENT; OPTIONAL].

(** punx/finding.py:50 *)
Definition VERY_BAD : Z := (-10000000)%Z.

(** punx/finding.py:51-68 value *)
Definition status_value (s : status) : Z :=
  match s with
  | OK => 100 | NOTE => 75 | WARN => 25 | ERROR => VERY_BAD
  | TODO => 0 | UNUSED => 0 | COMMENT => 0 | OPTIONAL => 99
  end%Z.

(** punx/finding.py:51-68 key, also [str(status)] (lines 46-47) *)
Definition status_key (s : status) : pystr :=
  match s with
  | OK => "OK" | NOTE => "NOTE" | WARN => "WARN" | ERROR => "ERROR"
  | TODO => "TODO" | UNUSED => "UNUSED" | COMMENT => "COMMENT" | OPTIONAL => "OPTIONAL"
  end.

(** punx/finding.py:51-68 description *)
Definition status_description (s : status) : pystr :=
  match s with
  | OK => "meets NeXus specification"
  | NOTE => "does not meet NeXus specification, but acceptable"
  | WARN => "does not meet NeXus specification, not generally acceptable"
  | ERROR => "violates NeXus specification"
  | TODO => "validation not implemented yet"
  | UNUSED => "optional NeXus item not used in data file"
  | COMMENT => "comment from the punx source code"
  | OPTIONAL => "allowed by NeXus specification, not identified"
  end.

(** punx/finding.py:72 TF_RESULT *)
Definition TF_RESULT (b : bool) : status := if b then OK else ERROR.

(** punx/finding.py:79-97; [h5_address] may be Python's None *)
Record finding := mkF {
  f_addr : option pystr;
  f_test : pystr;
  f_status : status;
  f_comment : pystr
}.

(** what a caller may pass as [status]: one of the status objects or anything else *)
Inductive status_arg := SObj (s : status) | SJunk.

(** punx/finding.py:89-97 Finding.__init__ with an arbitrary status argument *)
Definition Finding_init (addr : option pystr) (test : pystr) (st : status_arg) (comment : pystr) : res finding :=
  match st with
  | SObj s => if existsb (status_eqb s) VALID_STATUS_LIST then Ok (mkF addr test s comment) else Exn ValueError
  | SJunk => Exn ValueError
  end.

(** punx/finding.py:111-117 make_md5, the digest function being a parameter;
    [bytes(None, "utf8")] is TypeError; text is hashed as code points
    (UTF-8 is injective) *)
Definition make_md5 {D} (digest : pystr -> D) (f : finding) : res D :=
  match f_addr f with
  | Some a => Ok (digest (a ++ [ch_nl] ++ f_test f))
  | None => Exn TypeError
  end.
