(** * Concrete files and schemas

    Used to show that hypotheses of theorems are met and as witnesses of
    refutations.  The classes are a small extract of NXDL; the patterns are those
    of the nxdlTypes.xsd files in /repo/punx/cache. *)

From Coq Require Import List NArith ZArith Bool String.
From Verif Require Import PyBase Regex Utf8 H5 Findings Nxdl Core Catalog ItemName AttributeCheck
  GroupChecks AppDef DefaultPlot Validate.
Import ListNotations.
Open Scope string_scope.
Open Scope list_scope.

Definition env0 : env := mkEnv (fun c => N.eqb c 233) (fun c => N.eqb c 178) (fun _ => None) (fun c => N.eqb c 160) EncUtf8.

Definition pats0 : dict (list pystr) :=
  [(py "validItemName", [py "[A-Za-z_][\w_]*"]);
   (py "validNXClassName", [py "NX.+"; py "[A-Za-z_][\w_]*"]);
   (py "validTargetName", [py "(/[a-zA-Z_][\w_]*(:[a-zA-Z_][\w_]*)?)+"])].

Definition setup0 : setup := mkSetup env0 pats0 900 (Some 0%Z).

Definition attr0 (n : string) (e : list string) : pystr * nxattr := (py n, mkNA (py n) (map py e)).
Definition field0 (n : string) (e : list string) : pystr * nxfield := (py n, mkNF (py n) [] None (map (fun x => Some (py x)) e)).
Definition group0 (n : string) : pystr * nxgroup := (py n, NXG (py n) [] [] [] [] None).

Definition def0 (t cat : string) attrs fields groups : pystr * nxdef :=
  (py t, mkDef (py t) (py cat) attrs fields groups [] []).

Definition classes0 : classes :=
  [def0 "NXroot" "base_classes" [attr0 "default" []; attr0 "file_name" []] [] [group0 "entry"];
   def0 "NXentry" "base_classes" [attr0 "default" []] [field0 "title" []; field0 "definition" []] [group0 "data"; group0 "sample"];
   def0 "NXdata" "base_classes" [attr0 "signal" []; attr0 "axes" []] [field0 "x" []; field0 "errors" []] [];
   def0 "NXcollection" "base_classes" [] [] [];
   def0 "NXdetector" "base_classes" [] [field0 "layout" ["point"; "linear"]] [];
   def0 "NXtest" "applications" [] []
     [(py "entry", NXG (py "entry") [] [field0 "title" []; field0 "definition" ["NXtest"]] [] [] None)]].

Definition str (s : string) : pyval := VStr (py s).
Definition ats (l : list (string * pyval)) : dict pyval := map (fun kv => (py (fst kv), snd kv)) l.
Definition lks (l : list (string * nat)) : dict link := map (fun kv => (py (fst kv), LHard (snd kv))) l.
Definition grp (links : list (string * nat)) (attrs : list (string * pyval)) : h5obj := mkObj (KGroup (lks links)) (ats attrs).
Definition ds (v : pyval) (attrs : list (string * pyval)) : h5obj := mkObj (KDataset v) (ats attrs).

(** a NeXus file with a default plot, a collection and non-NeXus content *)
Definition good_file : h5file :=
  [ (* 0 *) grp [("entry", 1); ("scratch", 7)] [("default", str "entry"); ("file_name", str "good.nxs")];
    (* 1 *) grp [("title", 2); ("Data", 3); ("notes", 6)] [("NX_class", str "NXentry"); ("default", str "Data")];
    (* 2 *) ds (str "hello") [];
    (* 3 *) grp [("counts", 4); ("x", 5)] [("NX_class", str "NXdata"); ("signal", str "counts"); ("axes", VArrO [py "x"])];
    (* 4 *) ds (VArrNum [py "1"; py "2"]) [("units", str "counts")];
    (* 5 *) ds (VArrNum [py "0"; py "1"]) [("2bad", VInt 3)];
    (* 6 *) grp [("any old thing", 2)] [("NX_class", str "NXcollection")];
    (* 7 *) grp [("deep", 8)] [("note", str "not NeXus")];
    (* 8 *) ds (VInt 3) [("units", str "mm")] ].

Definition fn : pystr := py "file.nxs".
Definition world_of (f : h5file) : world := [(fn, FHdf5 f)].
Definition ctx_of (f : h5file) : ctx := mk_ctx setup0 (world_of f) fn.
Definition run (f : h5file) : validator * res unit := validate setup0 (world_of f) (new_validator classes0) fn.
Definition final (f : h5file) : vstate := v_st (fst (run f)).

(** awkward names: a trailing newline, 64 characters, an NX_class without NX *)
Definition names_file : h5file :=
  [ grp [("entry", 1)] [("NX_class", str "entry")];
    mkObj (KGroup [(py "a" ++ [10%N], LHard 2); (repeat 97%N 64, LHard 2); (py "Bad", LHard 3); (py "bad name", LHard 2)])
      (ats [("NX_class", str "NXentry")]);
    ds (str "x") [("bad name", VInt 1)];
    grp [("Inside", 2)] [("NX_class", str "entry")] ].
