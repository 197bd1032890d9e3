(** * NXDL structures as loaded by punx/nxdl_manager.py (data types only) *)

From Coq Require Import List NArith ZArith Bool String.
From Verif Require Import PyBase.
Import ListNotations.

(** punx/nxdl_manager.py:460-498 NXDL__attribute *)
Record nxattr := mkNA { na_name : pystr; na_enums : list pystr }.

(** punx/nxdl_manager.py:501-524 NXDL__dim; each of its texts may be missing.  Its name is its index. *)
Record nxdim := mkDim { dm_index : option pystr; dm_value : option pystr; dm_ref : option pystr; dm_refindex : option pystr; dm_incr : option pystr }.
(** punx/nxdl_manager.py:527-559 NXDL__dimensions; the dictionary of its dims has their indices as keys *)
Record nxdims := mkDims { ds_rank : option pystr; ds_dims : list (option pystr * nxdim) }.

(** punx/nxdl_manager.py:562-598 NXDL__field; an enumeration item may lack a value (None) *)
Record nxfield := mkNF { nf_name : pystr; nf_attrs : dict nxattr; nf_dims : option nxdims; nf_enums : list (option pystr) }.

(** punx/nxdl_manager.py:635-660 NXDL__link *)
Record nxlink := mkNL { nl_name : pystr; nl_target : option pystr }.

(** a value in the attributes dictionary of a group: an NXDL__attribute, or the
    text of an XML attribute (punx/nxdl_manager.py:625-629) *)
Inductive gattr := GAObj (a : nxattr) | GAText (s : pystr).

(** punx/nxdl_manager.py:601-632 NXDL__group.  [minOccurs] is the Python
    attribute that base_class_items_in_hdf5_group.py:55 adds during validation;
    None: the object has no such attribute. *)
Inductive nxgroup :=
  NXG (name : pystr) (attrs : dict gattr) (fields : dict nxfield)
      (groups : list (pystr * nxgroup)) (links : dict nxlink) (minOccurs : option Z).

(** the attributes of a group object (punx/nxdl_manager.py:601-633) *)
Definition g_name (g : nxgroup) := let 'NXG n _ _ _ _ _ := g in n.
Definition g_attrs (g : nxgroup) := let 'NXG _ a _ _ _ _ := g in a.
Definition g_fields (g : nxgroup) := let 'NXG _ _ f _ _ _ := g in f.
Definition g_groups (g : nxgroup) := let 'NXG _ _ _ g _ _ := g in g.
Definition g_links (g : nxgroup) := let 'NXG _ _ _ _ l _ := g in l.
Definition g_minOccurs (g : nxgroup) := let 'NXG _ _ _ _ _ m := g in m.
(** [spec.minOccurs = ...] (punx/validations/base_class_items_in_hdf5_group.py:55) *)
Definition set_minOccurs (z : Z) (g : nxgroup) : nxgroup :=
  let 'NXG n a f gs l _ := g in NXG n a f gs l (Some z).

(** punx/nxdl_manager.py:365-457 NXDL__definition *)
Record nxdef := mkDef {
  d_title : pystr;
  d_category : pystr;
  d_attrs : dict nxattr;
  d_fields : dict nxfield;
  d_groups : list (pystr * nxgroup);
  d_links : dict nxlink;
  d_symbols : list pystr
}.

(** a definition with its groups replaced *)
Definition set_d_groups (d : nxdef) (g : list (pystr * nxgroup)) : nxdef :=
  mkDef (d_title d) (d_category d) (d_attrs d) (d_fields d) g (d_links d) (d_symbols d).

(** NXDL_Manager.classes *)
Definition classes := dict nxdef.
