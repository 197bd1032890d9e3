(** * The command line: punx/main.py and punx/nxdltree.py

    Logging and the layout of printed tables are not modelled; [exit_message]
    (main.py:84-92) is the exception SystemExit 1.  The functions take the values
    of the options; Args.v reads them from the command line. *)

From Coq Require Import List NArith ZArith Bool String.
From Verif Require Import PyBase H5 Findings Report Nxdl Core Validate H5Tree Cache Install.
Import ListNotations.
Open Scope string_scope.
Open Scope list_scope.

(** ** The subcommand *)

(** punx/main.py:341-408 *)
Definition subcommands : list pystr :=
  [py "configuration"; py "demonstrate"; py "install"; py "tree"; py "validate"].

(** punx/main.py:273-312 MyArgumentParser.parse_args on the first word of the command
    line, when it does not start with "-"; then argparse takes the word if it is one
    of the choices, and otherwise fails like [self.error] (exit code 2) *)
Definition parse_subcommand (choices : list pystr) (word : pystr) : res pystr :=
  let accept w := if existsb (str_eqb w) choices then Ok w else Exn (SystemExit 2) in
  if Nat.ltb 0 (List.length choices) && negb (existsb (str_eqb word) choices) then
    if Nat.ltb (List.length word) 2 then Exn (SystemExit 2)
    else match filter (fun c => startswith c word) choices with
         | [] => Exn (SystemExit 2)
         | [c] => accept c
         | _ => Exn (SystemExit 2)
         end
  else accept word.

(** ** What a command does, in order *)
Inductive event :=
| Validating (fs : fileset) (file : pystr)   (* validator.validate(file), with that file set *)
| Reported (r : report)                      (* print_report *)
| Version (name : pystr)                     (* main.py:238 *)
| Printed (lines : list pystr)               (* print("\n".join(lines)) *)
| Table (rows : list (list pystr))           (* print(cm.table_of_caches()) *)
| Default (ref : option pystr).              (* main.py:102, 262 *)

(** ** punx validate *)

(** [s.upper()]: character by character; [upc] is what it does to a character that
    is not ASCII *)
Definition upper_char (upc : N -> list N) (c : N) : list N :=
  if (c <? 128)%N then [if (97 <=? c)%N && (c <=? 122)%N then (c - 32)%N else c] else upc c.
Definition upper (upc : N -> list N) (s : pystr) : pystr := flat_map (upper_char upc) s.

(** [c in finding.VALID_STATUS_DICT] *)
Definition is_status_name (c : pystr) : bool := existsb (str_eqb c) (map status_key VALID_STATUS_LIST).

(** options of validate *)
Record vargs := mkVA { va_infile : pystr; va_set : option pystr; va_report : pystr }.

(** punx/main.py:189-238 func_validate.  [load] is NXDL_Manager(file set).
    validate.py has no [validate_xml], so punx/main.py:198 is AttributeError.  SchemaNotFound
    (punx/main.py:233) is raised by no modelled code. *)
Definition func_validate (rj : json_reader) (load : fileset -> res (setup * classes)) (upc : N -> list N)
    (k : disk) (w : world) (p : proc) (a : vargs) : proc * (list event * res unit) :=
  match cache_manager rj k p with
  | (p1, Exn e) => (p1, ([], Exn e))
  | (p1, Ok _) =>
      if endswith (va_infile a) (py ".nxdl.xml") then (p1, ([], Exn AttributeError))
      else
        let p2 := refresh rj k p1 in
        match all_file_sets rj k with
        | Exn e => (p2, ([], Exn e))
        | Ok sets =>
            match va_set a with
            | None => (p2, ([], Exn (SystemExit 1)))
            | Some name =>
                if negb (dmem name sets) then (p2, ([], Exn (SystemExit 1)))
                else
                  match used_file_set rj k p2 (Some name) with
                  | (p3, Exn e) => (p3, ([], Exn e))
                  | (p3, Ok fs) =>
                      match load fs with
                      | Exn e => (p3, ([], Exn e))
                      | Ok (u, cl) =>
                          let words := split ch_comma (upper upc (va_report a)) in
                          let choices := filter is_status_name words in
                          let trouble := filter (fun c => negb (is_status_name c)) words in
                          if Nat.ltb 0 (List.length trouble) then (p3, ([], Exn (SystemExit 1)))
                          else
                            let '(v, r) := validate u w (new_validator cl) (va_infile a) in
                            let ev := [Validating fs (va_infile a)] in
                            match r with
                            | Exn FileNotFound | Exn HDF5_Open_Error => (p3, (ev, Exn (SystemExit 1)))
                            | Exn e => (p3, (ev, Exn e))
                            | Ok _ =>
                                match print_report (v_fname v) choices (st_find (v_st v)) with
                                | Exn e => (p3, (ev, Exn e))
                                | Ok rep => (p3, (ev ++ [Reported rep; Version name], Ok tt))
                                end
                            end
                      end
                  end
            end
        end
  end.

(** punx/main.py:315-431: the CacheManager, and the defaults of the options of
    validate that come from it *)
Definition default_ref (c : cmgr) : res (option pystr) :=
  match cm_default c with Some fs => Ok (i_ref (fs_info fs)) | None => Exn AttributeError end.
Definition all_statuses : pystr := join (py ",") (sorted_strs (map status_key VALID_STATUS_LIST)).

(** [punx validate infile], with the options as given or not *)
Definition punx_validate (rj : json_reader) (load : fileset -> res (setup * classes)) (upc : N -> list N)
    (k : disk) (w : world) (infile : pystr) (file_set_name : option pystr) (report : option pystr) : list event * res unit :=
  match cache_manager rj k None with
  | (_, Exn e) => ([], Exn e)
  | (p, Ok c) =>
      match default_ref c with
      | Exn e => ([], Exn e)
      | Ok ref =>
          snd (func_validate rj load upc k w p
                 (mkVA infile (match file_set_name with Some n => Some n | None => ref end)
                       (match report with Some r => r | None => all_statuses end)))
      end
  end.

(** ** punx tree *)

(** what is at the path of an NXDL file: nothing, something lxml cannot parse, or a
    document with this category attribute *)
Inductive xml_file := XMissing | XBad | XDoc (category : option pystr).
(** what comes of transforming a document with a style sheet: there is no such file,
    it cannot be parsed, lxml raises, or text (in lines) *)
Inductive xslt_result := SMissing | SBad | SRaise (e : exn) | SLines (l : list pystr).

(** punx/nxdltree.py:73-99 _determine_category_ ([None.getroot] is AttributeError) *)
Definition determine_category (x : xml_file) : res pystr :=
  match x with
  | XMissing | XBad => Exn AttributeError
  | XDoc None => Exn ValueError
  | XDoc (Some c) =>
      if str_eqb c (py "application") then Ok (py "applications")
      else if str_eqb c (py "base") then Ok (py "base_classes")
      else if str_eqb c (py "contributed") then Ok (py "contributed_definitions")
      else Exn ValueError
  end.

(** punx/nxdltree.py:43-50: the category is set only if the file exists *)
Definition new_nxdl_tree (x : xml_file) : res (option pystr) :=
  match x with XMissing => Ok None | _ => rmap Some (determine_category x) end.

(** punx/nxdltree.py:52-71, 101-133 report.  Without a default file set, or a category,
    there is AttributeError; so there is for the None of a style sheet that cannot be
    parsed. *)
Definition nxdl_report (rj : json_reader) (k : disk) (p : proc) (transform : pystr -> xslt_result) (file : pystr) (category : option pystr) : res (list pystr) :=
  match cache_manager rj k p with
  | (_, Exn e) => Exn e
  | (_, Ok c) =>
      match cm_default c, category with
      | Some fs, Some cat =>
          let xslt := fs_path fs ++ py "/" ++ cat ++ py "/nxdlformat.xsl" in
          match transform xslt with
          | SMissing => Exn ValueError
          | SBad => Exn AttributeError
          | SRaise e => Exn e
          | SLines l => Ok ([py "file: " ++ file; py "XSLT: " ++ xslt] ++ l)
          end
      | _, _ => Exn AttributeError
      end
  end.

(** options of tree *)
Record targs := mkTA { ta_infile : pystr; ta_attributes : bool; ta_items : Z }.

(** punx/main.py:160-186 func_tree.  [os.path.abspath]: the names of files are taken to
    be absolute.  [except FileNotFound] and [except Exception] (punx/main.py:167-170) both exit;
    [report or ""] of None is printed as an empty line. *)
Definition func_tree (rj : json_reader) (E : env) (up : pystr -> pystr) (k : disk) (w : world) (ds : handle -> dsview) (fuel : nat)
    (xml : pystr -> xml_file) (transform : pystr -> pystr -> xslt_result) (p : proc) (a : targs) : list event * res unit :=
  if endswith (ta_infile a) (py ".nxdl.xml") then
    match new_nxdl_tree (xml (ta_infile a)) with
    | Exn _ => ([], Exn (SystemExit 1))
    | Ok category =>
        match nxdl_report rj k p (transform (ta_infile a)) (ta_infile a) category with
        | Exn e => ([], Exn e)
        | Ok l => ([Printed l], Ok tt)
        end
    end
  else
    match new_tree E w (ta_infile a) with
    | Exn FileNotFound => ([], Exn (SystemExit 1))
    | Exn e => ([], Exn e)
    | Ok t =>
        match tree_report E up w ds fuel (mkTree (t_filename t) (t_nexus t) (ta_items a)) (ta_attributes a) with
        | Exn HDF5_Open_Error => ([], Exn (SystemExit 1))
        | Exn e => ([], Exn e)
        | Ok None => ([Printed []], Ok tt)
        | Ok (Some l) => ([Printed l], Ok tt)
        end
    end.

(** ** punx configuration *)
(** the table and the default reference, as main.py:101-102 and 261-262 print them *)
Definition show_caches (rj : json_reader) (k : disk) (c : cmgr) : list event * res unit :=
  match table_of_caches rj k with
  | Exn e => ([], Exn e)
  | Ok rows => match default_ref c with
               | Exn e => ([Table rows], Exn e)
               | Ok r => ([Table rows; Default r], Ok tt)
               end
  end.

(** punx/main.py:95-102 func_configuration *)
Definition func_configuration (rj : json_reader) (k : disk) (p : proc) : list event * res unit :=
  match cache_manager rj k p with
  | (_, Exn e) => ([], Exn e)
  | (_, Ok c) => show_caches rj k c
  end.

(** ** punx demonstrate *)
(** punx/main.py:105-149 func_demo; [demo] is the data file that comes with punx.  A
    report of None cannot be joined (punx/main.py:149): TypeError. *)
Definition GITHUB_NXDL_BRANCH : pystr := py "main".   (* punx/cache_manager.py:85 *)
Definition func_demo (rj : json_reader) (load : fileset -> res (setup * classes)) (upc : N -> list N) (E : env) (up : pystr -> pystr)
    (k : disk) (w : world) (ds : handle -> dsview) (fuel : nat) (p : proc) (demo : pystr) : list event * res unit :=
  match func_validate rj load upc k w p (mkVA demo (Some GITHUB_NXDL_BRANCH) all_statuses) with
  | (_, (ev, Exn e)) => (ev, Exn e)
  | (_, (ev, Ok _)) =>
      match new_tree E w demo with
      | Exn e => (ev, Exn e)
      | Ok t => match tree_report E up w ds fuel (mkTree (t_filename t) (t_nexus t) 5) true with
                | Exn e => (ev, Exn e)
                | Ok None => (ev, Exn TypeError)
                | Ok (Some l) => (ev ++ [Printed l], Ok tt)
                end
      end
  end.

(** ** punx install *)
(** the loop of punx/main.py:252-259: [net i] is what the network gives to the download
    of the [i]-th name.  The states of the user's cache directory. *)
Fixpoint install_all (update : bool) (net : nat -> nat -> answer) (i : nat) (names : list pystr) : W unit :=
  match names with
  | [] => wret tt
  | n :: rest => wdo _u <- (fun e => snd (download_file_set n update (net i) e)) ; install_all update net (S i) rest
  end.

(** punx/main.py:241-262 func_install, with the directory states it passes through *)
Definition func_install (rj : json_reader) (k : disk) (p : proc) (update : bool) (net : nat -> nat -> answer) (names : list pystr)
    : list entries * entries * (list event * res unit) :=
  match cache_manager rj k p with
  | (_, Exn e) => ([], usr_dir k, ([], Exn e))
  | (_, Ok c) =>
      let '(l, e, r) := install_all update net 0 names (usr_dir k) in
      match r with
      | Exn x => (l, e, ([], Exn x))
      | Ok _ => (l, e, show_caches rj (mkDisk (src_path k) (src_dir k) (usr_path k) e) c)
      end
  end.
