(** * A cache, an archive and a data file for the examples of Properties_Whole.v *)

From Coq Require Import List NArith ZArith Bool String.
From Verif Require Import PyBase H5 Findings Nxdl NxdlLoad SchemaMgr NxdlSchema Core Catalog Validate Cache Install InfoFile Session H5Tree Cli Main Whole Samples
  NxdlSamples ShippedXsd ShippedLines SessionSamples Properties_Info Properties_Cli.
Import ListNotations.
Open Scope string_scope.
Open Scope list_scope.

Fixpoint with_lines (n : snode) : lnode :=
  match n with
  | SComment => LComment
  | SN t a k => LN t 1%N a (map with_lines k)
  end.

(** the contents of files are represented by short texts *)
Definition lxml1 : lxml := mkLxml
  (fun c => dget c [(py "entry", entry0); (py "app", app1); (py "data", nxdl [named "field" "y" []]); (py "data2", nxdl [named "field" "x" []])])
  (fun c => dget c [(py "nxdl", xsd_v3_3); (py "types", map with_lines nxdlTypes_v3_3)])
  (fun a b _ => match a, b with Some _, Some _ => true | _, _ => false end).
Definition limits1 : limits := mkLim 60 900 900.

Definition members2 : list member :=
  [mkM (py "definitions-2022/") []; mkM (py "definitions-2022/nxdl.xsd") (py "nxdl"); mkM (py "definitions-2022/nxdlTypes.xsd") (py "types");
   mkM (py "definitions-2022/base_classes/NXentry.nxdl.xml") (py "entry"); mkM (py "definitions-2022/base_classes/NXdata.nxdl.xml") (py "data2");
   mkM (py "definitions-2022/applications/NXapp.nxdl.xml") (py "app"); mkM (py "definitions-2022/contributed_definitions/NXdata.nxdl.xml") (py "data");
   mkM (py "definitions-2022/manual/NXodd.nxdl.xml") (py "entry"); mkM (py "definitions-2022/README.md") (py "text")].
Definition top2 : pystr := py "definitions-2022".
Definition dates2 (n : pystr) : stamp := if str_eqb n (py "definitions-2022/nxdl.xsd") then mkStamp 2022 3 5 1 7 45 else mkStamp 2021 11 19 1 7 45.
Definition sha2 : pystr := py "9285af9c80ff5bc4e908ee8aae300f974dda7d38".
Definition now2 : pystr := py "2022-06-01 13:01:35.673810".
Definition zip2 : archive := github_archive members2 dates2 sha2 now2.

(** the cache that comes with punx: its only file set is incomplete here *)
Definition disk4 : disk := mkDisk (py "/x/punx/cache") [(py "v3.3", TDir [(py "__github_info__.json", TFile shipped)])] (py "/home/me/.config/punx") [].
Definition sets4 : dict fileset := match all_file_sets read_json disk4 with Ok s => s | Exn _ => [] end.
Definition world4 : world := world_of follows_file.
Definition out4 : outside :=
  mkOut rj2 load0 upc0 env0 (fun s => s) (fun _ => DObject [] []) 100 (fun _ => XMissing) (fun _ _ => SMissing) (fun _ _ => AnArchive zip2) fn.
Definition installed4 : list entries * entries * (list event * res unit) := punx lxml1 limits1 out4 disk4 world4 [py "install"; py "v2022"].
Definition validated4 : list entries * entries * (list event * res unit) := punx lxml1 limits1 out4 (afterwards disk4 installed4) world4 [py "validate"; fn].
