(** * Vocabulary of C131: how the lines of a tree view read *)

From Coq Require Import List NArith ZArith Bool String.
From Verif Require Import PyBase Utf8 H5 H5Tree Spec_Tree.
Import ListNotations.
Open Scope string_scope.
Open Scope list_scope.

(** two blanks for each level *)
Fixpoint blanks (d : nat) : pystr := match d with O => [] | S d => py "  " ++ blanks d end.

(** the text of a line *)
Inductive reads : line -> pystr -> Prop :=
| rd_group : forall d n c, reads (mkLine d (BGroup n c)) (blanks d ++ n ++ c)
| rd_attr : forall d n v, reads (mkLine d (BAttr n v)) (blanks d ++ py "@" ++ n ++ py " = " ++ v)
| rd_soft : forall d n p, reads (mkLine d (BSoft n p)) (blanks d ++ n ++ py ": --> " ++ p)
| rd_link : forall d n a, reads (mkLine d (BLink n a)) (blanks d ++ n ++ py " --> " ++ a)
| rd_missing : forall d n, reads (mkLine d (BMissing n)) (blanks d ++ n ++ py ": missing external file")
| rd_field : forall d n t, reads (mkLine d (BField n t)) (blanks d ++ n ++ py ":" ++ t)
| rd_array : forall d v, reads (mkLine d (BArray v)) (blanks d ++ py "__array = " ++ v).

(** the type of a dataset, before it is made a NeXus type: text has the type CHAR, or char
    with the length of each text; any other type has the name numpy gives it *)
Inductive plain_type : dsview -> pystr -> Prop :=
| pt_bytes : forall b, plain_type (DBytes b) (py "CHAR")
| pt_texts : forall l, plain_type (DBytesArr l) (py "char[" ++ join (py ",") (map (fun b => str_nat (List.length b)) l) ++ py "]")
| pt_rows : forall r k, plain_type (DBytesNd r k) (py "char[" ++ join (py ",") (repeat (str_nat k) r) ++ py "]")
| pt_object : forall s t, plain_type (DObject s t) (py "CHAR")
| pt_other : forall t s a, plain_type (DOther t s a) t.

(** in NeXus files, in capitals and with NX_ before it *)
Definition shown_type (nexus : bool) (upper : pystr -> pystr) (v : dsview) (t : pystr) : Prop :=
  exists p, plain_type v p /\ t = if nexus then py "NX_" ++ upper p else p.

(** the shape: nothing for an array of one element *)
Inductive shown_shape : list nat -> pystr -> Prop :=
| ss_one : shown_shape [1] []
| ss_dims : forall s, s <> [1] -> shown_shape s (py "[" ++ join (py ",") (map str_nat s) ++ py "]").

Definition quoted (s : pystr) : pystr := py """" ++ s ++ py """".

(** the value of a dataset behind its type and shape, and the lines of its own below that of
    the dataset; [m] items of an array are shown, [d] is the depth of the dataset *)
Inductive shown_value (E : env) (m : Z) (d : nat) : dsview -> pystr -> list line -> Prop :=
| sv_bytes : forall b s, decode_bytes (e_enc E) b = Ok s -> shown_value E m d (DBytes b) (py " = " ++ s) []
| sv_no_text : shown_value E m d (DBytesArr []) (py " = ") []
| sv_one_text : forall b s, decode_bytes (e_enc E) b = Ok s -> shown_value E m d (DBytesArr [b]) (py " = " ++ quoted s) []
| sv_texts : forall l ss, 2 <= List.length l -> Forall2 (fun b s => decode_bytes (e_enc E) b = Ok s) l ss ->
    shown_value E m d (DBytesArr l) (py " = [" ++ join (py ", ") (map quoted ss) ++ py "]") []
| sv_no_rows : forall k, shown_value E m d (DBytesNd 0 k) (py " = ") []
| sv_object : forall s t, shown_value E m d (DObject s t) (py " = " ++ t) []
| sv_single : forall t s r, shown_value E m d (DOther t [1] (NArr [NVal s r])) (py " = " ++ s) []
| sv_hidden : forall t shape a, shape <> [1] -> (m <= 2)%Z -> shown_value E m d (DOther t shape a) (py " = [ ... ]") []
| sv_scalar : forall t a, (2 < m)%Z -> shown_value E m d (DOther t [] a) (py " = ") []
| sv_flat : forall t n a v, n <> 1 -> (2 < m)%Z -> array_text (Z.to_nat m) [n] a (blanks (d + 2)) v ->
    shown_value E m d (DOther t [n] a) (py " = " ++ v) []
| sv_nested : forall t shape a v, 2 <= List.length shape -> (2 < m)%Z -> array_text (Z.to_nat m) shape a (blanks (d + 2)) v ->
    shown_value E m d (DOther t shape a) (py " = __array") [mkLine (S d) (BArray v)].

(** the shape of a dataset, shown for numbers and the like only *)
Definition shape_of (v : dsview) : option (list nat) := match v with DOther _ s _ => Some s | _ => None end.

(** what h5py gives of an array has its shape *)
Definition has_shape (v : dsview) : Prop := match v with DOther _ s a => fits s a | _ => True end.

(** the text behind the name of a dataset, and the lines of its own *)
Definition shown_field (E : env) (nexus : bool) (upper : pystr -> pystr) (m : Z) (d : nat) (v : dsview) (text : pystr) (own : list line) : Prop :=
  exists ty sh value, shown_type nexus upper v ty /\ shown_value E m d v value own /\ text = ty ++ sh ++ value
    /\ match shape_of v with Some s => shown_shape s sh | None => sh = [] end.
