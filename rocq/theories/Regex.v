(** * The fragment of Go's regexp package that patternFromGlob can reach.

    [compile] accepts a fragment of the RE2 syntax (literals, escaped
    punctuation, '.', '*' after a single-character atom, '^' and '$') and answers
    [None] for every other pattern, valid or not: the results about the
    repository show that it never leaves the fragment.  Flags are those of
    regexp.Compile (syntax.Perl): '.' does not match a newline, '^' and '$' are
    the begin and the end of the text. *)
From Verif Require Export Unicode.

Inductive cls := CAny | CLit (r : rune).
Inductive item := RBegin | REnd | ROne (c : cls) | RMany (c : cls).
Definition regex := list item.

Definition newline : rune := 10.
Definition accepts (c : cls) (x : rune) : bool :=
  match c with CAny => negb (x =? newline) | CLit r => x =? r end.

(** Punctuation that may be escaped by a backslash: every ASCII character that is
    not a letter, digit or underscore (syntax.parser.escape, "c < utf8.RuneSelf &&
    !isalnum(c)"; '_' would be accepted too, it does not occur). *)
Definition is_alnum (r : rune) : bool :=
  in_range 48 r 57 || in_range 65 r 90 || in_range 97 r 122 || (r =? 95).
Definition is_punct (r : rune) : bool := in_range 0 r 127 && negb (is_alnum r).
(** Unescaped characters with a meaning outside the fragment: + ? ( ) [ { | *)
Definition is_operator (r : rune) : bool :=
  (r =? 43) || (r =? 63) || (r =? 40) || (r =? 41) || (r =? 91) || (r =? 123) || (r =? 124).

Definition flush (p : option cls) : regex := match p with Some c => [ROne c] | None => [] end.

(** [pend] is the last single-character atom, still open for a following '*'. *)
Fixpoint parse (pend : option cls) (p : list rune) : option regex :=
  match p with
  | [] => Some (flush pend)
  | c :: p1 =>
      if c =? 42 (* * *) then
        match pend with
        | Some a => match parse None p1 with Some r => Some (RMany a :: r) | None => None end
        | None => None
        end
      else
        let k := fun o : option regex =>
                   match o with Some r => Some (flush pend ++ r) | None => None end in
        if c =? 92 (* \ *) then
          match p1 with
          | d :: p2 => if is_punct d then k (parse (Some (CLit d)) p2) else None
          | [] => None
          end
        else if c =? 94 (* ^ *) then
          k (match parse None p1 with Some r => Some (RBegin :: r) | None => None end)
        else if c =? 36 (* $ *) then
          k (match parse None p1 with Some r => Some (REnd :: r) | None => None end)
        else if c =? 46 (* . *) then k (parse (Some CAny) p1)
        else if is_operator c then None
        else k (parse (Some (CLit c)) p1)
  end.

(** regexp.Compile on the fragment; patterns must be valid UTF-8. *)
Definition compile (p : str) : option regex :=
  if str_eqb (of_runes (runes p)) p then parse None (runes p) else None.

(** Match of a pattern at one position; [at_start] says whether the position is
    the beginning of the text, [w] is the rest of the text. *)
Fixpoint match_at (r : regex) (at_start : bool) (w : list rune) : bool :=
  match r with
  | [] => true
  | RBegin :: r' => at_start && match_at r' at_start w
  | REnd :: r' => match w with [] => match_at r' at_start w | _ => false end
  | ROne c :: r' => match w with x :: w' => accepts c x && match_at r' false w' | [] => false end
  | RMany c :: r' =>
      (fix many (st : bool) (w : list rune) : bool :=
         match_at r' st w
         || match w with x :: w' => accepts c x && many false w' | [] => false end) at_start w
  end.

Fixpoint search (r : regex) (at_start : bool) (w : list rune) : bool :=
  match_at r at_start w
  || match w with _ :: w' => search r false w' | [] => false end.

(** Regexp.MatchString: some substring matches. *)
Definition match_string (r : regex) (s : str) : bool := search r true (runes s).
