(** * The program: punx/main.py:434-441 main *)

From Coq Require Import List NArith ZArith Bool String.
From Verif Require Import PyBase H5 Findings Nxdl Core Validate H5Tree Cache Install Cli Args.
Import ListNotations.
Open Scope list_scope.

(** what the program finds in its surroundings, besides the caches and the data files:
    how JSON and file sets are read, upper case, the views of data sets, NXDL documents and
    style sheets, what the network answers, and where the demonstration file is *)
Record outside := mkOut {
  x_json : json_reader;
  x_load : fileset -> res (setup * classes);
  x_upper : N -> list N;
  x_env : env;
  x_type : pystr -> pystr;
  x_views : handle -> dsview;
  x_fuel : nat;
  x_xml : pystr -> xml_file;
  x_xslt : pystr -> pystr -> xslt_result;
  x_net : nat -> nat -> answer;
  x_demo : pystr
}.

(** [args.func(args)], main.py:441; the states of the user's cache directory, the last of
    them, and what is printed *)
Definition run_command (x : outside) (k : disk) (w : world) (p : proc) (ref : option pystr) (c : command)
    : list entries * entries * (list event * res unit) :=
  match c with
  | CConfiguration => ([], usr_dir k, func_configuration (x_json x) k p)
  | CDemonstrate =>
      ([], usr_dir k, func_demo (x_json x) (x_load x) (x_upper x) (x_env x) (x_type x) k w (x_views x) (x_fuel x) p (x_demo x))
  | CInstall names update => func_install (x_json x) k p update (x_net x) names
  | CTree a =>
      ([], usr_dir k, func_tree (x_json x) (x_env x) (x_type x) k w (x_views x) (x_fuel x) (x_xml x) (x_xslt x) p a)
  | CValidate infile f r =>
      ([], usr_dir k, snd (func_validate (x_json x) (x_load x) (x_upper x) k w p
                             (mkVA infile (match f with Some n => Some n | None => ref end)
                                   (match r with Some t => t | None => all_statuses end))))
  end.

(** main.py:434-441, and 315-431: the caches are read before the command line is; without a
    subcommand the exit code is 1 *)
Definition main (x : outside) (k : disk) (w : world) (argv : list pystr) : list entries * entries * (list event * res unit) :=
  match cache_manager (x_json x) k None with
  | (_, Exn e) => ([], usr_dir k, ([], Exn e))
  | (p, Ok c) =>
      match default_ref c with
      | Exn e => ([], usr_dir k, ([], Exn e))
      | Ok ref =>
          match parse_args (x_env x) argv with
          | Exn e => ([], usr_dir k, ([], Exn e))
          | Ok None => ([], usr_dir k, ([], Exn (SystemExit 1)))
          | Ok (Some cmd) => run_command x k w p ref cmd
          end
      end
  end.
