(** * The texts of file sets, findings and items: __str__ of punx/nxdl_manager.py,
    punx/finding.py and punx/validate.py *)

From Coq Require Import List NArith ZArith Bool String.
From Verif Require Import PyBase H5 Findings Nxdl Core Catalog.
Import ListNotations.
Open Scope string_scope.
Open Scope list_scope.

(** punx/nxdl_manager.py:112-116: how often each category occurs *)
Fixpoint count_categories (l : list nxdef) (count : dict nat) : dict nat :=
  match l with
  | [] => count
  | d :: l' =>
      let count := match dget (d_category d) count with Some _ => count | None => dset (d_category d) 0%nat count end in
      let n := match dget (d_category d) count with Some n => n | None => 0%nat end in
      count_categories l' (dset (d_category d) (S n) count)
  end.

(** punx/nxdl_manager.py:110-120 NXDL_Manager.__str__ *)
Definition manager_text (classes : dict nxdef) : pystr :=
  py "NXDL_Manager("
  ++ join (py ", ") (map (fun kv => fst kv ++ py ":" ++ str_nat (snd kv)) (sorted_items (count_categories (dvals classes) [])))
  ++ py ")".

(** punx/finding.py:99-107 Finding.__str__ (no part of it fails) *)
Definition finding_text (f : finding) : pystr :=
  py "finding.Finding("
  ++ (ostr (f_addr f) ++ py ", " ++ f_test f ++ py ", finding." ++ status_key (f_status f) ++ py ", " ++ f_comment f)
  ++ py ")".

(** punx/validate.py:430-444 identify_object_type, as text; [type_text] gives the text
    of the type of anything else than a file, group or dataset *)
Definition object_type (E : env) (w : world) (type_text : hobj -> pystr) (o : hobj) : res pystr :=
  match o with
  | ONode h =>
      match obj_of w h with
      | Some ob =>
          match ob_kind ob with
          | KDatatype => Ok (type_text o)
          | KGroup _ => dor b <- isNeXusLink E w h ;
                        Ok (if b then py "NeXus link" else if h_isfile h then py "HDF5 file root" else py "HDF5 group")
          | KDataset _ => dor b <- isNeXusLink E w h ; Ok (if b then py "NeXus link" else py "HDF5 dataset")
          end
      | None => Ok (type_text o)
      end
  | OVal _ => Ok (type_text o)
  end.

(** punx/validate.py:419-426 ValidationItem.__str__ *)
Definition item_text (E : env) (w : world) (type_text : hobj -> pystr) (it : vitem) : res pystr :=
  dor t <- object_type E w type_text (it_obj it) ;
  Ok (py "ValidationItem("
      ++ join (py ", ") [py "name=" ++ ostr (it_name it); py "type=" ++ t; py "classpath=" ++ it_cp it]
      ++ py ")").
