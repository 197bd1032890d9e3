(** * Specification of the program with the files of its caches *)

From Coq Require Import List NArith ZArith Bool String Permutation.
From Verif Require Import PyBase H5 Findings Report Nxdl NxdlLoad Core Validate Cache Install InfoFile Cli Whole
  Spec_Install Spec_Nxdl Spec_Info Spec_Run Spec_Catalog Spec_Groups Spec_Cli Spec_Session.
Import ListNotations.
Open Scope string_scope.
Open Scope list_scope.

(** an archive whose definition files are files, and in whose paths nothing that ends in
    ".nxdl.xml" has a further dot *)
Record tidy_archive (z : archive) (top : pystr) : Prop := mkTidy {
  ta_files : forall m : Install.member, In m (z_members z) -> definition_file top (m_name m) -> ~ exists d, m_name m = d ++ py "/";
  ta_names : forall m p base, In m (z_members z) -> definition_file top (m_name m) -> destination m p ->
    In (base ++ py ".nxdl.xml") p -> ~ In 46%N base
}.

(** [data] is the NXDL file of the archive for the class [cls]: the one of the last category that has
    something of that name *)
Definition archive_nxdl (z : archive) (top cat cls data : pystr) : Prop :=
  exists early late, [py "base_classes"; py "applications"; py "contributed_definitions"] = early ++ cat :: late
    /\ provides z top [top; cat; cls ++ py ".nxdl.xml"] data
    /\ forall c m rest, In c late -> In m (z_members z) -> definition_file top (m_name m) ->
         ~ destination m (top :: c :: (cls ++ py ".nxdl.xml") :: rest).

(** the archive has nothing for the class *)
Definition no_archive_nxdl (z : archive) (top cls : pystr) : Prop :=
  forall c m rest, In c [py "base_classes"; py "applications"; py "contributed_definitions"] -> In m (z_members z) -> definition_file top (m_name m) ->
    ~ destination m (top :: c :: (cls ++ py ".nxdl.xml") :: rest).

(** an archive as downloaded for the file set [name], with nothing in the way *)
Record good_archive (k : disk) (name top : pystr) (ms : list Install.member) (dates : pystr -> stamp) (comment now : pystr) : Prop := mkGood {
  ga_plain : plain_archive (github_archive ms dates comment now) top name;
  ga_tidy : tidy_archive (github_archive ms dates comment now) top;
  ga_name : safe_name name /\ ordinary name;
  ga_now : ordinary now;
  ga_left : ~ In top (map fst (usr_dir k))
}.

(** neither of the two cache directories is inside the other *)
Definition apart (k : disk) : Prop :=
  ~ (exists a, src_path k = usr_path k ++ py "/" ++ a) /\ ~ (exists a, usr_path k = src_path k ++ py "/" ++ a) /\ src_path k <> usr_path k.

(** the report about a group: with the NXDL file [root] of its class, every field element and every
    group element of this file, and every member of the group *)
Definition compared_with (w : world) (v : validator) (it : vitem) (h : handle) (cls : pystr) (root : xnode) : Prop :=
  exists gk fk lk, entry_names root gk fk lk
  /\ (exists names, Permutation names fk /\ Forall2 (nxdl_field_finding w h (it_addr it)) names
        (findings_for v (it_addr it) (py "NXDL field in data file")))
  /\ (exists names, Permutation names gk /\ Forall2 (nxdl_group_finding w h (it_addr it)) names
        (findings_for v (it_addr it) (py "NXDL group in data file")))
  /\ (forall n, In n (map fst (links_of w h)) -> exists f, member_finding w h cls gk fk n f /\ In f (st_find (v_st v))).

(** what [punx validate file] does when it uses the file set [name] of the user's cache, made of the
    archive: nothing is validated with another one; and if it succeeds, the report lists the findings
    of a validation where groups are compared with the NXDL files of the archive, and where a class
    that the archive does not have is an error *)
Definition uses_archive (L : lxml) (E : env) (k : disk) (w : world) (z : archive) (top name file : pystr) (out : list event * res unit) : Prop :=
  (forall fs f, In (Validating fs f) (fst out) -> fs_path fs = usr_path k ++ py "/" ++ name /\ f = file)
  /\ (snd out = Ok tt -> exists fs rep v, fst out = [Validating fs file; Reported rep; Version name]
       /\ reports file (fun _ => True) (st_find (v_st v)) rep
       /\ forall i it h cls, catalogued_group w v i it h -> has_class E w it h cls ->
            (forall cat data root, archive_nxdl z top cat cls data -> lx_nxdl L data = Some root ->
               In (mkF (it_addr it) (py "known NXDL") OK (cls ++ py ": recognized NXDL specification")) (st_find (v_st v))
               /\ compared_with w v it h cls root)
            /\ (no_archive_nxdl z top cls ->
               In (mkF (it_addr it) (py "known NXDL") ERROR (cls ++ py ": recognized NXDL specification")) (st_find (v_st v)))).
