(** * Specification of text values and of NeXus files *)

From Coq Require Import List NArith Bool String.
From Verif Require Import PyBase Utf8 H5 Findings Core Validate Spec_Run Spec_Catalog.
Import ListNotations.

(** a Unicode string: code points that are not surrogates, up to U+10FFFF *)
Definition unicode (s : pystr) : Prop := Forall (fun c => (c < 55296 \/ 57343 < c /\ c < 1114112)%N) s.
Definition ascii_text (s : pystr) : Prop := Forall (fun c => (c < 128)%N) s.

(** byte strings and arrays of (byte) strings; everything else is text, a number,
    None, a list, a numeric array or another object *)
Definition needs_decoding (v : pyval) : Prop :=
  (exists b, v = VBytes b) \/ (exists l, v = VArrO l) \/ (exists l, v = VArrS l).

(** no top-level object has its NX_class in an array *)
Definition scalar_classes (f : h5file) : Prop :=
  forall n o v, leads f 0 [n] o -> dget (py "NX_class") (attributes f o) = Some v ->
  (forall l, v <> VArrO l) /\ (forall l, v <> VArrS l) /\ (forall l, v <> VArrNum l).

(** validate() catalogued a member of the root as a group with class path /NXentry *)
Definition has_entry (w : world) (f : h5file) (v : validator) : Prop :=
  exists n i it h, In n (map fst (members f 0)) /\ listed v i it /\ it_addr it = Some (path_text [n])
    /\ it_obj it = ONode h /\ isHdf5Group w h = true /\ it_cp it = py "/NXentry".
