(** * Vocabulary for statements about completed validations *)

From Coq Require Import List NArith Bool String.
From Verif Require Import PyBase H5 Findings Core Validate.
Import ListNotations.

(** item number [i] is [it] and is listed under some class path of the validator *)
Definition listed (v : validator) (i : nat) (it : vitem) : Prop :=
  nth_error (st_items (v_st v)) i = Some it
  /\ exists classpath l, In (classpath, l) (st_cp (v_st v)) /\ In i l.

(** no other listed item has the same address *)
Definition own_address (v : validator) (i : nat) : Prop :=
  forall it j jt, listed v i it -> listed v j jt -> it_addr jt = it_addr it -> j = i.

(** the findings recorded for an address and a test name, in order *)
Definition findings_for (v : validator) (a : option pystr) (test : pystr) : list finding :=
  filter (fun f => ostr_eqb (f_addr f) a && str_eqb (f_test f) test) (st_find (v_st v)).

(** item [it] shows finding [f] under its test name; [f] is a recorded finding
    and, when no other item shares the address, the only one for that test *)
Definition shows (v : validator) (i : nat) (it : vitem) (f : finding) : Prop :=
  dget (f_test f) (it_vals it) = Some f
  /\ f_addr f = it_addr it
  /\ In f (st_find (v_st v))
  /\ (own_address v i -> findings_for v (it_addr it) (f_test f) = [f]).

(** [name] is the last component of the path [addr] *)
Definition last_component (addr name : pystr) : Prop :=
  (addr = [47%N] /\ name = [47%N]) \/
  (addr <> [47%N] /\ ~ In 47%N name /\ (addr = name \/ exists d, addr = d ++ 47%N :: name)).

(** the relaxed item name patterns and the class name patterns of the schema *)
Definition ctx_patterns (u : setup) : list pystr :=
  match dget (py "validItemName") (u_patterns u) with Some l => l | None => [] end.
Definition class_patterns (u : setup) : option (list pystr) := dget (py "validNXClassName") (u_patterns u).

(** the object's own @target (decoded) names another place *)
Definition linked_elsewhere (E : env) (attrs : dict pyval) (addr : pystr) : Prop :=
  exists v t, dget (py "target") attrs = Some v /\ decode_byte_string E v = Ok t /\ t <> VStr addr.

(** the patterns of the nxdlTypes.xsd files in /repo/punx/cache *)
Definition shipped_class_patterns : list pystr := [py "NX.+"; py "[A-Za-z_][\w_]*"].
Definition shipped_item_patterns : list pystr := [py "[A-Za-z_][\w_]*"].

