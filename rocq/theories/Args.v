(** * The options of the command line: punx/main.py:315-431

    argparse, as main.py uses it: options with and without a value, abbreviations of
    long options, values after "=", several short options in one word, and one
    positional argument per subcommand.  The model follows argparse of Python 3.11.10
    ([ArgumentParser._parse_known_args], [_parse_optional], [_get_option_tuples]).
    Simplification: the texts of usage and error messages are left out (exit code 2
    stands for [self.error]). *)

From Coq Require Import List NArith ZArith Bool String.
From Verif Require Import PyBase H5 Findings Cache Install Cli.
Import ListNotations.
Open Scope string_scope.
Open Scope list_scope.

(** characters that argparse looks for *)
Definition ch_dash : N := 45.
Definition ch_eq : N := 61.
Definition ch_space : N := 32.

(** ** Options *)
(** store_true and store_false; a value, as text or [type=int]; help and version *)
Inductive okind := OFlag | OText | OInt | OExit (code : Z).
Record opt := mkOpt { o_flags : list pystr; o_kind : okind; o_dest : pystr }.

(** of argparse: the options of punx/main.py:315-431 without an action take one value *)
Definition takes_value (o : opt) : bool := match o_kind o with OText | OInt => true | _ => false end.

(** [option_string in self._option_string_actions] *)
Definition find_opt (opts : list opt) (flag : pystr) : option opt :=
  find (fun o => existsb (str_eqb flag) (o_flags o)) opts.
(** all option strings, each with its option *)
Definition all_flags (opts : list opt) : list (pystr * opt) :=
  flat_map (fun o => map (fun f => (f, o)) (o_flags o)) opts.

(** argparse adds it to every parser *)
Definition opt_help : opt := mkOpt [py "-h"; py "--help"] (OExit 0) (py "help").
(** punx/main.py:331 *)
Definition opts_punx : list opt := [opt_help; mkOpt [py "-v"; py "--version"] (OExit 0) (py "version")].
(** punx/main.py:341-350 *)
Definition opts_plain : list opt := [opt_help].
(** punx/main.py:374-380 *)
Definition opts_install : list opt := [opt_help; mkOpt [py "-u"; py "--update"] OFlag (py "update")].
(** punx/main.py:389-404 *)
Definition opts_tree : list opt :=
  [opt_help; mkOpt [py "-a"] OFlag (py "show_attributes"); mkOpt [py "-m"; py "--max_array_items"] OInt (py "max_array_items")].
(** punx/main.py:414-428 *)
Definition opts_validate : list opt :=
  [opt_help; mkOpt [py "-f"; py "--file_set_name"] OText (py "file_set_name"); mkOpt [py "--report"] OText (py "report")].

(** ** What a word is *)
(** a positional argument; an option, with the option string and the text after it in the
    word, if any (true: after "="); something that looks like an option *)
Inductive word := WPos | WOpt (o : opt) (flag : pystr) (explicit : option (bool * pystr)) | WUnknown.

(** [s.split("=", 1)], if there is one *)
Fixpoint cut_eq (s : pystr) : option (pystr * pystr) :=
  match s with
  | [] => None
  | c :: t => if N.eqb c ch_eq then Some ([], t)
              else match cut_eq t with Some (a, b) => Some (c :: a, b) | None => None end
  end.

(** argparse._get_option_tuples, for a word of at least two characters, the first of them "-" *)
Definition option_tuples (opts : list opt) (w : pystr) : list word :=
  match w with
  | _ :: c :: rest =>
      if N.eqb c ch_dash then
        let '(prefix, explicit) := match cut_eq w with Some (a, b) => (a, Some (true, b)) | None => (w, None) end in
        flat_map (fun fo => if startswith (fst fo) prefix then [WOpt (snd fo) (fst fo) explicit] else []) (all_flags opts)
      else
        flat_map (fun fo => if str_eqb (fst fo) [ch_dash; c] then [WOpt (snd fo) (fst fo) (Some (false, rest))]
                            else if startswith (fst fo) w then [WOpt (snd fo) (fst fo) None] else []) (all_flags opts)
  | _ => []
  end.

(** argparse: [re.compile(r'^-\d+$|^-\d*\.\d+$')]; "$" is also before a line end at the end *)
Definition decimal (E : env) (c : N) : bool := is_some (char_decimal E c).
Fixpoint after_digits (E : env) (s : pystr) : pystr :=
  match s with c :: t => if decimal E c then after_digits E t else s | [] => [] end.
Definition all_digits (E : env) (s : pystr) : bool := match s with [] => false | _ => forallb (decimal E) s end.
Definition before_line_end (w : pystr) : pystr := if N.eqb (last w 0%N) 10 then removelast w else w.
Definition negative_number (E : env) (w : pystr) : bool :=
  match before_line_end w with
  | c :: s => N.eqb c ch_dash
              && (all_digits E s || match after_digits E s with d :: t => N.eqb d ch_dot && all_digits E t | [] => false end)
  | [] => false
  end.

(** argparse._parse_optional: none of the options of punx looks like a negative number *)
Definition classify (E : env) (opts : list opt) (w : pystr) : res word :=
  match w with
  | [] => Ok WPos
  | c :: t =>
      if negb (N.eqb c ch_dash) then Ok WPos
      else match find_opt opts w with
           | Some o => Ok (WOpt o w None)
           | None =>
               match t with
               | [] => Ok WPos
               | _ =>
                   match match cut_eq w with
                         | Some (f, x) => match find_opt opts f with Some o => Some (WOpt o f (Some (true, x))) | None => None end
                         | None => None
                         end with
                   | Some r => Ok r
                   | None =>
                       match option_tuples opts w with
                       | _ :: _ :: _ => Exn (SystemExit 2)
                       | [r] => Ok r
                       | [] => if negative_number E w then Ok WPos
                               else if has_char ch_space w then Ok WPos
                               else Ok WUnknown
                       end
                   end
               end
           end
  end.

(** all words, in order; argparse does this before it looks for values *)
Fixpoint classify_all (E : env) (opts : list opt) (ws : list pystr) : res (list (pystr * word)) :=
  match ws with
  | [] => Ok []
  | w :: rest => dor k <- classify E opts w ; dor l <- classify_all E opts rest ; Ok ((w, k) :: l)
  end.

(** ** The options of one word *)
(** the loop of [consume_optional]: option [o], written as [flag], with [explicit] after it
    ([sep]: after "=").  The options found, whether the last one still wants a value, and
    whether something was not recognized. *)
Record found := mkFound { fo_acts : list (opt * pystr); fo_wants : option opt; fo_extra : bool }.
Fixpoint expand (opts : list opt) (o : opt) (flag : pystr) (sep : bool) (explicit : pystr) {struct explicit} : res found :=
  if takes_value o then Ok (mkFound [(o, explicit)] None false)
  else match flag, explicit with
       | _ :: c :: _, d :: rest =>
           if N.eqb c ch_dash || sep || N.eqb d ch_dash then Exn (SystemExit 2)      (* ignored explicit argument *)
           else match find_opt opts [ch_dash; d] with
                | None => Ok (mkFound [(o, [])] None true)
                | Some o' =>
                    match rest with
                    | [] => if takes_value o' then Ok (mkFound [(o, [])] (Some o') false)
                            else Ok (mkFound [(o, []); (o', [])] None false)
                    | e :: rest' =>
                        dor r <- (if N.eqb e ch_eq then expand opts o' [ch_dash; d] true rest'
                                  else expand opts o' [ch_dash; d] false rest) ;
                        Ok (mkFound ((o, []) :: fo_acts r) (fo_wants r) (fo_extra r))
                    end
                end
       | _, _ => Exn (SystemExit 2)
       end.
(** the options of one word *)
Definition word_options (opts : list opt) (o : opt) (flag : pystr) (explicit : option (bool * pystr)) : res found :=
  match explicit with
  | None => if takes_value o then Ok (mkFound [] (Some o) false) else Ok (mkFound [(o, [])] None false)
  | Some (sep, x) => expand opts o flag sep x
  end.

(** [take_action]: [type=int] rejects what is not a number; help and version exit *)
Definition take_action (E : env) (ov : opt * pystr) : res (pystr * pystr) :=
  match o_kind (fst ov) with
  | OExit code => Exn (SystemExit code)
  | OInt => match py_int_text E (snd ov) with Ok _ => Ok (o_dest (fst ov), snd ov) | Exn _ => Exn (SystemExit 2) end
  | _ => Ok (o_dest (fst ov), snd ov)
  end.
Fixpoint take_actions (E : env) (l : list (opt * pystr)) : res (list (pystr * pystr)) :=
  match l with
  | [] => Ok []
  | ov :: rest => dor a <- take_action E ov ; dor b <- take_actions E rest ; Ok (a :: b)
  end.

(** ** The words of one subcommand *)
(** the positional arguments of a subcommand: none, one, or [nargs="*"] *)
Inductive nargs := NoArg | OneArg | ManyArgs.
(** the options so far; the positional arguments, and whether more may follow; whether
    some words were not recognized *)
Record scanned := mkSc { s_acts : list (pystr * pystr); s_pos : list pystr; s_open : bool; s_extra : bool }.

(** [consume_positionals], one word at a time *)
Definition take_word (n : nargs) (w : pystr) (s : scanned) : scanned :=
  if s_open s then
    match n with
    | NoArg => mkSc (s_acts s) (s_pos s) false true
    | OneArg => mkSc (s_acts s) [w] false (s_extra s)
    | ManyArgs => mkSc (s_acts s) (s_pos s ++ [w]) true (s_extra s)
    end
  else mkSc (s_acts s) (s_pos s) false true.
(** an option ends a sequence of positional arguments *)
Definition close (s : scanned) : scanned :=
  mkSc (s_acts s) (s_pos s) (match s_pos s with [] => s_open s | _ => false end) (s_extra s).
Definition add_acts (a : list (pystr * pystr)) (extra : bool) (s : scanned) : scanned :=
  mkSc (s_acts s ++ a) (s_pos s) (s_open s) (s_extra s || extra).

(** the loop of [_parse_known_args] *)
Fixpoint scan (E : env) (opts : list opt) (n : nargs) (ws : list (pystr * word)) (s : scanned) : res scanned :=
  match ws with
  | [] => Ok s
  | (w, WPos) :: rest => scan E opts n rest (take_word n w s)
  | (_, WUnknown) :: rest => scan E opts n rest (add_acts [] true (close s))
  | (_, WOpt o flag explicit) :: rest =>
      match word_options opts o flag explicit with
      | Exn e => Exn e
      | Ok (mkFound l None x) => dor a <- take_actions E l ; scan E opts n rest (add_acts a x (close s))
      | Ok (mkFound l (Some o') x) =>
          match rest with
          | (v, WPos) :: rest' => dor a <- take_actions E (l ++ [(o', v)]) ; scan E opts n rest' (add_acts a x (close s))
          | _ => Exn (SystemExit 2)
          end
      end
  end.

(** the words before the first "--", and those after it *)
Fixpoint cut_dashes (ws : list pystr) : list pystr * option (list pystr) :=
  match ws with
  | [] => ([], None)
  | w :: rest => if str_eqb (py "--") w then ([], Some rest) else let (a, b) := cut_dashes rest in (w :: a, b)
  end.
Definition start : scanned := mkSc [] [] true false.
(** the end of [_parse_known_args]: a required argument must be there *)
Definition required (n : nargs) (s : scanned) : res scanned :=
  match n, s_pos s with OneArg, [] => Exn (SystemExit 2) | _, _ => Ok s end.
(** the parser of a subcommand.  All words after "--" are positional arguments.  The word "--" itself
    is dropped as part of the positional arguments if it follows the first of them without an option in
    between, or if there are none before it ([_get_nargs_pattern], [_get_values]): [m] is the scan for
    any number of positional arguments, that is open as long as the first sequence of them has not
    ended.  Otherwise "--" is a word that is not recognized. *)
Definition parse_words (E : env) (opts : list opt) (n : nargs) (ws : list pystr) : res scanned :=
  match cut_dashes ws with
  | (_, None) =>
      dor l <- classify_all E opts ws ;
      dor s <- scan E opts n l start ;
      required n s
  | (before, Some after) =>
      dor l <- classify_all E opts before ;
      dor s <- scan E opts n l start ;
      dor m <- scan E opts ManyArgs l start ;
      required n (fold_left (fun s w => take_word n w s) after
                    (match n with NoArg => add_acts [] true s | _ => if s_open m then s else add_acts [] true s end))
  end.

(** ** The command *)
Inductive command :=
| CConfiguration | CDemonstrate
| CInstall (names : list pystr) (update : bool)
| CTree (a : targs)
| CValidate (infile : pystr) (file_set_name : option pystr) (report : option pystr).

(** the value an option has in the end *)
Definition last_act (dest : pystr) (l : list (pystr * pystr)) : option pystr := aget str_eqb dest (rev l).

(** punx/main.py:341-430: the subcommands, with the defaults of their options.  Words that
    are not recognized make [parse_args] fail after the subcommand's own parser is done. *)
Definition parse_command (E : env) (c : pystr) (ws : list pystr) : res (command * bool) :=
  if str_eqb c (py "configuration") then
    dor s <- parse_words E opts_plain NoArg ws ; Ok (CConfiguration, s_extra s)
  else if str_eqb c (py "demonstrate") then
    dor s <- parse_words E opts_plain NoArg ws ; Ok (CDemonstrate, s_extra s)
  else if str_eqb c (py "install") then
    dor s <- parse_words E opts_install ManyArgs ws ;
    Ok (CInstall (match s_pos s with [] => [GITHUB_NXDL_BRANCH] | l => l end) (is_some (last_act (py "update") (s_acts s))), s_extra s)
  else if str_eqb c (py "tree") then
    dor s <- parse_words E opts_tree OneArg ws ;
    dor z <- match last_act (py "max_array_items") (s_acts s) with Some v => py_int_text E v | None => Ok 5%Z end ;
    Ok (CTree (mkTA (hd [] (s_pos s)) (negb (is_some (last_act (py "show_attributes") (s_acts s)))) z), s_extra s)
  else if str_eqb c (py "validate") then
    dor s <- parse_words E opts_validate OneArg ws ;
    Ok (CValidate (hd [] (s_pos s)) (last_act (py "file_set_name") (s_acts s)) (last_act (py "report") (s_acts s)), s_extra s)
  else Exn (SystemExit 2).

(** the words before the subcommand, and the rest; the options of punx itself all exit *)
Fixpoint top (E : env) (ws : list (pystr * word)) (extra : bool) : res (option (pystr * list pystr) * bool) :=
  match ws with
  | [] => Ok (None, extra)
  | (w, WPos) :: rest => Ok (Some (w, map fst rest), extra)
  | (_, WUnknown) :: rest => top E rest true
  | (_, WOpt o flag explicit) :: rest =>
      dor f <- word_options opts_punx o flag explicit ;
      dor a <- take_actions E (fo_acts f) ; top E rest (extra || fo_extra f)
  end.

(** punx/main.py:273-312 MyArgumentParser.parse_args: an abbreviation of the first word *)
Definition unabbreviate (argv : list pystr) : res (list pystr) :=
  match argv with
  | w :: rest => if startswith w (py "-") then Ok argv else dor c <- parse_subcommand subcommands w ; Ok (c :: rest)
  | [] => Ok []
  end.

(** the command line without the name of the program: the command, if there is one.  The word
    "--" stays in the words of the subcommand ([nargs=PARSER]); where it stands before the
    subcommand, it is taken for its name. *)
Definition parse_args (E : env) (argv : list pystr) : res (option command) :=
  dor ws <- unabbreviate argv ;
  let (before, after) := cut_dashes ws in
  dor l <- classify_all E opts_punx before ;
  dor t <- top E l false ;
  match t with
  | (None, extra) => if extra || is_some after then Exn (SystemExit 2) else Ok None
  | (Some (c, rest), extra) =>
      dor r <- parse_command E c (rest ++ match after with Some ws => py "--" :: ws | None => [] end) ;
      if extra || snd r then Exn (SystemExit 2) else Ok (Some (fst r))
  end.
