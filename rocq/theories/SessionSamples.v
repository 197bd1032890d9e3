(** * A file set directory and data files for the examples of Properties_Session.v

    nxdl.xsd and nxdlTypes.xsd are those of /repo/punx/cache/v3.3. *)

From Coq Require Import List NArith ZArith Bool String.
From Verif Require Import PyBase H5 Findings Nxdl NxdlLoad SchemaMgr NxdlSchema Core Catalog Validate Session Samples
  Spec_Nxdl Spec_Session NxdlSamples ShippedXsd ShippedLines.
Import ListNotations.
Open Scope string_scope.
Open Scope list_scope.
Local Open Scope nat_scope.

(** an application definition: two fields that may be missing, one of them and another with an enumeration, and a nested group with a field that may not *)
Definition app1 : xnode := nxdl
  [typed "NXentry"
     [XN (py "field") [(py "name", py "comment"); (py "minOccurs", py "0")] [];
      XN (py "field") [(py "name", py "mode"); (py "minOccurs", py "0")] [XN (py "enumeration") [] [XN (py "item") [(py "value", py "a")] []; XN (py "item") [(py "value", py "b")] []]];
      named "field" "definition" [XN (py "enumeration") [] [XN (py "item") [(py "value", py "NXapp")] []]];
      typed "NXdata" [XN (py "field") [(py "name", py "x"); (py "minOccurs", py "1")] []]]].
Definition set1 : set_dir := mkSD (Some xsd_v3_3) (Some nxdlTypes_v3_3) ls0 (content0 app1).
Definition opened1 : shared * res (setup * classes) := open_file_set env0 60 900 900 (fun _ => true) set1 (py "/d") process_start.
Definition opened_ok (r : shared * res (setup * classes)) : setup * classes := match snd r with Ok p => p | Exn _ => (setup0, []) end.
Definition u1 : setup := fst (opened_ok opened1).
Definition cl1 : classes := snd (opened_ok opened1).

Definition follows_file : h5file :=
  [ (* 0 *) grp [("entry", 1)] [];
    (* 1 *) grp [("definition", 2); ("Data", 3); ("odd", 5); ("mode", 6)] [("NX_class", str "NXentry")];
    (* 2 *) ds (str "NXapp") [];
    (* 3 *) grp [("y", 4)] [("NX_class", str "NXdata")];
    (* 4 *) ds (VArrNum [py "1"; py "2"]) [];
    (* 5 *) grp [] [("NX_class", str "NXodd")];
    (* 6 *) ds (str "a") [] ].
Definition done1 : validator := fst (validate u1 (world_of follows_file) (new_validator cl1) fn).
