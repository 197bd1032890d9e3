(** * Regular expressions

    Models the part of Python's [re] module that punx uses: compiling
    ["^" + p + "$"] and testing [.match(s) is not None]
    (punx/validations/item_name.py:115-118, 157-161).

    Simplification: the pattern language is the subset with literals, [.],
    [\w], escaped punctuation, character classes, grouping, alternation and the
    greedy quantifiers [*], [+], [?].  Any other pattern text yields the
    exception value [Unsupported]; all patterns of the shipped
    nxdl.xsd/nxdlTypes.xsd files used by item_name.py are inside the subset. *)

From Coq Require Import List NArith Bool String.
From Verif Require Import PyBase.
Import ListNotations.
Local Open Scope N_scope.

(** character classes *)
Inductive cclass :=
| CCany                       (* [.]: any character but newline *)
| CClit (c : N)
| CCrange (a b : N)
| CCword                      (* [\w] *)
| CCor (x y : cclass)
| CCnone
| CCnot (x : cclass).

(** regular expressions of Python's re, as far as NXDL uses them *)
Inductive re :=
| Void | Eps
| Cls (c : cclass)
| Seq (a b : re)
| Alt (a b : re)
| Star (a : re).

(** classes of ASCII characters *)
Definition ascii_lower (x : N) : bool := (97 <=? x) && (x <=? 122).
Definition ascii_upper (x : N) : bool := (65 <=? x) && (x <=? 90).
Definition ascii_digit (x : N) : bool := (48 <=? x) && (x <=? 57).
Definition ascii_word (x : N) : bool := ascii_lower x || ascii_upper x || ascii_digit x || (x =? 95).

Section Match.
  (** [uw c]: does [\w] match the non-ASCII code point [c]?  (Unicode tables of
      the Python build; a parameter of every statement.) *)
  Variable uw : N -> bool.

  (** \w of re for text: [uw] for characters that are not ASCII *)
  Definition is_word (x : N) : bool := if x <? 128 then ascii_word x else uw x.

  (** does a character belong to a class *)
  Fixpoint cmatch (c : cclass) (x : N) : bool :=
    match c with
    | CCany => negb (x =? ch_nl)
    | CClit y => x =? y
    | CCrange a b => (a <=? x) && (x <=? b)
    | CCword => is_word x
    | CCor a b => cmatch a x || cmatch b x
    | CCnone => false
    | CCnot a => negb (cmatch a x)
    end.

  (** does the expression match the empty text *)
  Fixpoint nullable (r : re) : bool :=
    match r with
    | Void => false
    | Eps => true
    | Cls _ => false
    | Seq a b => nullable a && nullable b
    | Alt a b => nullable a || nullable b
    | Star _ => true
    end.

  (** Brzozowski derivative, with the obvious simplifications so that
      evaluation stays small *)
  Definition mkseq (a b : re) : re :=
    match a with Void => Void | Eps => b | _ => Seq a b end.
  Definition mkalt (a b : re) : re :=
    match a, b with Void, _ => b | _, Void => a | _, _ => Alt a b end.

  (** what has to follow the character [x] *)
  Fixpoint deriv (x : N) (r : re) : re :=
    match r with
    | Void => Void
    | Eps => Void
    | Cls c => if cmatch c x then Eps else Void
    | Seq a b => if nullable a then mkalt (mkseq (deriv x a) b) (deriv x b)
                 else mkseq (deriv x a) b
    | Alt a b => mkalt (deriv x a) (deriv x b)
    | Star a => mkseq (deriv x a) (Star a)
    end.

  (** the whole text matches *)
  Fixpoint full (r : re) (s : pystr) : bool :=
    match s with
    | [] => nullable r
    | x :: s' => full (deriv x r) s'
    end.

  (** some prefix of the text matches *)
  Fixpoint prefix (r : re) (s : pystr) : bool :=
    nullable r || match s with [] => false | x :: s' => prefix (deriv x r) s' end.

  (** [r$]: [$] matches at the end, and before a newline that ends the text *)
  Definition dollar (r : re) (s : pystr) : bool :=
    full r s || match rev s with
                | x :: t => (x =? ch_nl) && full r (rev t)
                | [] => false
                end.

  (** ["^" + p + "$"] where [p] has the given top level branches: the [^]
      belongs to the first and the [$] to the last branch; [.match] is anchored
      at the start anyway *)
  Fixpoint branches_match (bs : list re) (s : pystr) : bool :=
    match bs with
    | [] => false
    | [r] => dollar r s
    | r :: rest => prefix r s || branches_match rest s
    end.

  (** the language of an expression, for the statements *)
  Inductive lang : re -> pystr -> Prop :=
  | L_eps : lang Eps []
  | L_cls : forall c x, cmatch c x = true -> lang (Cls c) [x]
  | L_seq : forall a b s t, lang a s -> lang b t -> lang (Seq a b) (s ++ t)
  | L_altl : forall a b s, lang a s -> lang (Alt a b) s
  | L_altr : forall a b s, lang b s -> lang (Alt a b) s
  | L_star0 : forall a, lang (Star a) []
  | L_star1 : forall a s t, lang a s -> lang (Star a) t -> lang (Star a) (s ++ t).
End Match.

(** ** Parsing pattern text *)

(** characters with a meaning in re *)
Definition is_special (c : N) : bool :=
  existsb (N.eqb c) (py "()[]{}*+?|\.^$").
(** letters and digits *)
Definition is_alnum_ascii (c : N) : bool := ascii_lower c || ascii_upper c || ascii_digit c.

(** one class member, then the rest of the text inside the brackets *)
Definition class_char (s : pystr) : option (cclass * option N * pystr) :=
  match s with
  | 92 :: 119 :: s' => Some (CCword, None, s')                        (* \w *)
  | 92 :: c :: s' => if is_alnum_ascii c then None else Some (CClit c, Some c, s')
  | c :: s' => Some (CClit c, Some c, s')
  | [] => None
  end.

(** the content of [[...]], as re reads it *)
Fixpoint p_class (fuel : nat) (first : bool) (s : pystr) : option (cclass * pystr) :=
  match fuel with
  | O => None
  | S n =>
      match s with
      | [] => None
      | 93 :: s' => if first then None else Some (CCnone, s')         (* ] *)
      | _ =>
          match class_char s with
          | None => None
          | Some (cc, lo, s1) =>
              let continue (cc : cclass) (s : pystr) :=
                match p_class n false s with
                | Some (cc', s') => Some (CCor cc cc', s')
                | None => None
                end in
              match lo, s1 with
              | _, 45 :: 93 :: _ => continue cc s1                     (* "-]": a literal dash *)
              | None, 45 :: _ => None                                  (* "\w-z": bad character range *)
              | Some a, 45 :: s2 =>
                  match class_char s2 with
                  | Some (_, Some b, s3) => if a <=? b then continue (CCrange a b) s3 else None
                  | _ => None
                  end
              | _, _ => continue cc s1
              end
          end
      end
  end.

(** the repetition characters * + ? *)
Definition is_quant (c : N) : bool := (c =? 42) || (c =? 43) || (c =? 63).

(** optional quantifier after an atom; doubled quantifiers are unsupported *)
Definition p_post (a : re) (s : pystr) : option (re * pystr) :=
  match s with
  | c :: s' =>
      if is_quant c then
        match s' with
        | d :: _ => if is_quant d then None
                    else Some (if c =? 42 then Star a else if c =? 43 then Seq a (Star a) else Alt a Eps, s')
        | [] => Some (if c =? 42 then Star a else if c =? 43 then Seq a (Star a) else Alt a Eps, s')
        end
      else Some (a, s)
  | [] => Some (a, s)
  end.

(** alternatives *)
Fixpoint alts (l : list re) : re :=
  match l with
  | [] => Void
  | [r] => r
  | r :: l' => Alt r (alts l')
  end.

(** alternatives, as re reads them *)
Fixpoint p_alt (fuel : nat) (s : pystr) : option (list re * pystr) :=
  match fuel with
  | O => None
  | S n =>
      match p_seq n s with
      | None => None
      | Some (r, rest) =>
          match rest with
          | 124 :: rest' =>                                            (* | *)
              match p_alt n rest' with
              | Some (rs, rest2) => Some (r :: rs, rest2)
              | None => None
              end
          | _ => Some ([r], rest)
          end
      end
  end
with p_seq (fuel : nat) (s : pystr) : option (re * pystr) :=
  match fuel with
  | O => None
  | S n =>
      match s with
      | [] => Some (Eps, [])
      | c :: _ =>
          if (c =? 124) || (c =? 41) then Some (Eps, s)
          else
            match p_atom n s with
            | None => None
            | Some (a, rest) =>
                match p_post a rest with
                | None => None
                | Some (a', rest') =>
                    match p_seq n rest' with
                    | Some (r, rest2) => Some (Seq a' r, rest2)
                    | None => None
                    end
                end
            end
      end
  end
with p_atom (fuel : nat) (s : pystr) : option (re * pystr) :=
  match fuel with
  | O => None
  | S n =>
      match s with
      | 40 :: 63 :: _ => None                                          (* (?... *)
      | 40 :: s' =>                                                    (* ( *)
          match p_alt n s' with
          | Some (rs, 41 :: rest) => Some (alts rs, rest)
          | _ => None
          end
      | 91 :: 94 :: s' =>                                              (* [^ *)
          match p_class n true s' with
          | Some (cc, rest) => Some (Cls (CCnot cc), rest)
          | None => None
          end
      | 91 :: s' =>                                                    (* [ *)
          match p_class n true s' with
          | Some (cc, rest) => Some (Cls cc, rest)
          | None => None
          end
      | 46 :: s' => Some (Cls CCany, s')                               (* . *)
      | 92 :: 119 :: s' => Some (Cls CCword, s')                       (* \w *)
      | 92 :: c :: s' => if is_alnum_ascii c then None else Some (Cls (CClit c), s')
      | c :: s' => if is_special c then None else Some (Cls (CClit c), s')
      | [] => None
      end
  end.

(** a compiled pattern: the top level branches of the text between [^] and [$] *)
Definition compiled := list re.

(** [re.compile("^" + p + "$")]  (punx/validations/item_name.py:115, 158) *)
Definition re_compile (p : pystr) : res compiled :=
  match p_alt (3 * S (List.length p)) p with
  | Some (bs, []) => Ok bs
  | _ => Exn Unsupported
  end.

(** [regexp.match(s) is not None and m.string == s]
    (punx/validations/item_name.py:117-118, 160-162): [m.string] is the
    text passed to match, so the second conjunct is always true *)
Definition re_matches (uw : N -> bool) (c : compiled) (s : pystr) : bool :=
  branches_match uw c s.
