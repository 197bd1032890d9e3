(** * JSON text: json.dumps and json.loads

    Models Python's standard module [json] (encoder and decoder of CPython) as used by
    punx/cache_manager.py:109-124. *)

From Coq Require Import List NArith ZArith Bool String.
From Verif Require Import PyBase.
Import ListNotations.
Open Scope string_scope.
Open Scope list_scope.
Local Open Scope N_scope.

(** ** Values
    Simplification: a number is kept as its text, whatever its kind; so are NaN and the
    infinities. *)
Inductive json :=
| JNull
| JBool (b : bool)
| JNum (text : pystr)
| JStr (s : pystr)
| JArr (l : list json)
| JObj (d : dict json).

(** ** Writing *)
(** one hexadecimal digit, in lower case *)
Definition hex (n : N) : N := if n <? 10 then 48 + n else 87 + n.
(** ["\\u{:04x}".format(n)] *)
Definition u_escape (n : N) : pystr :=
  [92; 117; hex (n / 4096); hex (n / 256 mod 16); hex (n / 16 mod 16); hex (n mod 16)].
(** one character (json.encoder.py_encode_basestring_ascii): everything outside the
    printable ASCII characters is escaped, beyond U+FFFF as two surrogates *)
Definition json_char (c : N) : pystr :=
  if c =? 34 then [92; 34]
  else if c =? 92 then [92; 92]
  else if c =? 10 then [92; 110]
  else if c =? 13 then [92; 114]
  else if c =? 9 then [92; 116]
  else if c =? 12 then [92; 102]
  else if c =? 8 then [92; 98]
  else if (32 <=? c) && (c <=? 126) then [c]
  else if c <? 65536 then u_escape c
  else u_escape (55296 + (c - 65536) / 1024 mod 1024) ++ u_escape (56320 + (c - 65536) mod 1024).
Definition json_str (s : pystr) : pystr := [34] ++ flat_map json_char s ++ [34].
(** [json.dumps(obj, indent=2)] for a dictionary of texts (punx/cache_manager.py:115) *)
Definition json_pair (kv : pystr * pystr) : pystr := json_str (fst kv) ++ [58; 32] ++ json_str (snd kv).
Definition dumps (d : dict pystr) : pystr :=
  match d with
  | [] => [123; 125]
  | _ => [123] ++ [10; 32; 32] ++ join [44; 10; 32; 32] (map json_pair d) ++ [10; 125]
  end.

(** ** Reading *)
(** white space between the parts *)
Definition json_space (c : N) : bool := (c =? 32) || (c =? 9) || (c =? 10) || (c =? 13).
Fixpoint skip_space (s : pystr) : pystr :=
  match s with
  | [] => []
  | c :: t => if json_space c then skip_space t else s
  end.

(** the rest after a given character *)
Definition eat (c : N) (s : pystr) : option pystr :=
  match s with
  | x :: t => if x =? c then Some t else None
  | [] => None
  end.

(** a hexadecimal digit, as json's decoder reads it *)
Definition hex_val (c : N) : option N :=
  if (48 <=? c) && (c <=? 57) then Some (c - 48)
  else if (97 <=? c) && (c <=? 102) then Some (c - 87)
  else if (65 <=? c) && (c <=? 70) then Some (c - 55)
  else None.
(** four of them, after \u *)
Definition hex4 (a b c d : N) : option N :=
  match hex_val a, hex_val b, hex_val c, hex_val d with
  | Some a', Some b', Some c', Some d' => Some (a' * 4096 + b' * 256 + c' * 16 + d')
  | _, _, _, _ => None
  end.
(** the escapes of one letter *)
Definition unescape (e : N) : option N :=
  if e =? 34 then Some 34
  else if e =? 92 then Some 92
  else if e =? 47 then Some 47
  else if e =? 98 then Some 8
  else if e =? 102 then Some 12
  else if e =? 110 then Some 10
  else if e =? 114 then Some 13
  else if e =? 116 then Some 9
  else None.
Definition is_high (x : N) : bool := (55296 <=? x) && (x <=? 56319).
Definition is_low (x : N) : bool := (56320 <=? x) && (x <=? 57343).
Definition join_surrogates (x y : N) : N := 65536 + (x - 55296) * 1024 + (y - 56320).
(** a character in front of what has been read *)
Definition rcons {A B} (c : A) (r : res (list A * B)) : res (list A * B) :=
  match r with Ok (s, t) => Ok (c :: s, t) | Exn e => Exn e end.

(** the text after an opening quote, and what follows its closing quote
    (json.decoder.scanstring, strict).  All errors are JSONDecodeError, a ValueError. *)
Fixpoint scan_str (s : pystr) : res (pystr * pystr) :=
  match s with
  | [] => Exn ValueError
  | c :: t =>
      if c =? 34 then Ok ([], t)
      else if c <? 32 then Exn ValueError
      else if c =? 92 then
        match t with
        | [] => Exn ValueError
        | e :: t1 =>
            if e =? 117 then
              match t1 with
              | a1 :: a2 :: a3 :: a4 :: t2 =>
                  match hex4 a1 a2 a3 a4 with
                  | None => Exn ValueError
                  | Some x =>
                      if is_high x then
                        match t2 with
                        | b :: u :: b1 :: b2 :: b3 :: b4 :: t3 =>
                            if (b =? 92) && (u =? 117) then
                              match hex4 b1 b2 b3 b4 with
                              | None => Exn ValueError
                              | Some y => if is_low y then rcons (join_surrogates x y) (scan_str t3) else rcons x (scan_str t2)
                              end
                            else rcons x (scan_str t2)
                        | _ => rcons x (scan_str t2)
                        end
                      else rcons x (scan_str t2)
                  end
              | _ => Exn ValueError
              end
            else match unescape e with
                 | Some x => rcons x (scan_str t1)
                 | None => Exn ValueError
                 end
        end
      else rcons c (scan_str t)
  end.

(** ASCII digits at the beginning, and the rest *)
Definition json_digit (c : N) : bool := (48 <=? c) && (c <=? 57).
Fixpoint digits (s : pystr) : pystr * pystr :=
  match s with
  | c :: t => if json_digit c then let '(d, r) := digits t in (c :: d, r) else ([], s)
  | [] => ([], [])
  end.
(** an optional fraction *)
Definition num_frac (s : pystr) : pystr * pystr :=
  match eat 46 s with
  | Some t => match digits t with ([], _) => ([], s) | (d, r) => (46 :: d, r) end
  | None => ([], s)
  end.
(** an optional exponent *)
Definition num_exp (s : pystr) : pystr * pystr :=
  match s with
  | e :: t =>
      if (e =? 101) || (e =? 69) then
        let '(sign, t1) := match t with c :: t' => if (c =? 43) || (c =? 45) then ([c], t') else ([], t) | [] => ([], t) end in
        match digits t1 with ([], _) => ([], s) | (d, r) => (e :: sign ++ d, r) end
      else ([], s)
  | [] => ([], s)
  end.
(** the number at the beginning: a minus sign or none, 0 or digits that do not begin with
    0, an optional fraction, an optional exponent *)
Definition scan_num (s : pystr) : option (pystr * pystr) :=
  let '(sign, t) := match eat 45 s with Some t => ([45], t) | None => ([], s) end in
  match t with
  | c :: t1 =>
      if json_digit c then
        let '(d, r) := if c =? 48 then ([], t1) else digits t1 in
        let '(f, r1) := num_frac r in
        let '(e, r2) := num_exp r1 in
        Some (sign ++ c :: d ++ f ++ e, r2)
      else None
  | [] => None
  end.

(** the rest after a word *)
Fixpoint after (w s : pystr) : option pystr :=
  match w, s with
  | [], _ => Some s
  | x :: w', y :: s' => if x =? y then after w' s' else None
  | _ :: _, [] => None
  end.
Definition words : list (pystr * json) :=
  [(py "null", JNull); (py "true", JBool true); (py "false", JBool false);
   (py "NaN", JNum (py "NaN")); (py "Infinity", JNum (py "Infinity")); (py "-Infinity", JNum (py "-Infinity"))].
Fixpoint scan_word (l : list (pystr * json)) (s : pystr) : option (json * pystr) :=
  match l with
  | [] => None
  | (w, v) :: l' => match after w s with Some r => Some (v, r) | None => scan_word l' s end
  end.

Section Loops.
  Context (value : pystr -> res (json * pystr)).
  (** the members of an object, from a key on; [d[k] = v] for each *)
  Fixpoint members (fuel : nat) (d : dict json) (s : pystr) : res (json * pystr) :=
    match fuel with
    | O => Exn RecursionError
    | S f =>
        match eat 34 s with
        | None => Exn ValueError
        | Some t =>
            dor kt <- scan_str t ;
            match eat 58 (skip_space (snd kt)) with
            | None => Exn ValueError
            | Some t2 =>
                dor vt <- value (skip_space t2) ;
                let d' := dset (fst kt) (fst vt) d in
                let r := skip_space (snd vt) in
                match eat 125 r, eat 44 r with
                | Some t4, _ => Ok (JObj d', t4)
                | None, Some t4 => members f d' (skip_space t4)
                | None, None => Exn ValueError
                end
            end
        end
    end.
  (** the elements of an array, from one on *)
  Fixpoint elements (fuel : nat) (s : pystr) : res (list json * pystr) :=
    match fuel with
    | O => Exn RecursionError
    | S f =>
        dor vt <- value s ;
        let r := skip_space (snd vt) in
        match eat 93 r, eat 44 r with
        | Some t, _ => Ok ([fst vt], t)
        | None, Some t => rcons (fst vt) (elements f (skip_space t))
        | None, None => Exn ValueError
        end
    end.
End Loops.

(** the value at the beginning (json.scanner), and the rest.  Simplification: [fuel]
    bounds the nesting; [loads] gives as much as the text is long, so that it does not run
    out, while Python raises RecursionError from a nesting of about one thousand on. *)
Fixpoint scan_value (fuel : nat) (s : pystr) : res (json * pystr) :=
  match fuel with
  | O => Exn RecursionError
  | S f =>
      match s with
      | [] => Exn ValueError
      | c :: t =>
          if c =? 34 then dor st <- scan_str t ; Ok (JStr (fst st), snd st)
          else if c =? 123 then
            match eat 125 (skip_space t) with
            | Some r => Ok (JObj [], r)
            | None => members (scan_value f) (S (List.length t)) [] (skip_space t)
            end
          else if c =? 91 then
            match eat 93 (skip_space t) with
            | Some r => Ok (JArr [], r)
            | None => dor lt <- elements (scan_value f) (S (List.length t)) (skip_space t) ; Ok (JArr (fst lt), snd lt)
            end
          else match scan_num s with
               | Some (n, r) => Ok (JNum n, r)
               | None => match scan_word words s with Some vr => Ok vr | None => Exn ValueError end
               end
      end
  end.

(** [json.loads(s)] *)
Definition loads (s : pystr) : res json :=
  match eat 65279 s with
  | Some _ => Exn ValueError
  | None =>
      let s' := skip_space s in
      dor vt <- scan_value (S (List.length s')) s' ;
      match skip_space (snd vt) with
      | [] => Ok (fst vt)
      | _ => Exn ValueError
      end
  end.
