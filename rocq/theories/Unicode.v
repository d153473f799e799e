(** * Runes: UTF-8, [strings.ToLower], [strings.EqualFold].

    Models of the Go standard library (package unicode/utf8 and strings).  The
    Unicode tables for code points above ASCII are not modelled: they are the
    universally quantified record [unicode]; ASCII is concrete. *)
From Verif Require Export GoStrings.

Definition rune := Z.
Definition bval (c : ascii) : Z := Z.of_N (N_of_ascii c).
Definition byte_of (z : Z) : ascii := ascii_of_N (Z.to_N z).
(** utf8.RuneError *)
Definition rune_error : rune := 65533.

Definition in_range (lo x hi : Z) : bool := (lo <=? x) && (x <=? hi).
Definition cont (c : ascii) : bool := in_range 128 (bval c) 191.

(** Ranging over a Go string ([for _, c := range s]): UTF-8 decoding, every byte
    that does not start a valid sequence yields U+FFFD and advances by one. *)
Fixpoint runes (s : str) : list rune :=
  match s with
  | [] => []
  | c0 :: s1 =>
      let b0 := bval c0 in
      if b0 <? 128 then b0 :: runes s1
      else
        if in_range 194 b0 223 then
          match s1 with
          | c1 :: s2 =>
              if cont c1 then ((b0 - 192) * 64 + (bval c1 - 128)) :: runes s2
              else rune_error :: runes s1
          | [] => rune_error :: runes s1
          end
        else if in_range 224 b0 239 then
          match s1 with
          | c1 :: (c2 :: s3) =>
              if in_range (if b0 =? 224 then 160 else 128) (bval c1) (if b0 =? 237 then 159 else 191)
                 && cont c2
              then ((b0 - 224) * 4096 + (bval c1 - 128) * 64 + (bval c2 - 128)) :: runes s3
              else rune_error :: runes s1
          | _ => rune_error :: runes s1
          end
        else if in_range 240 b0 244 then
          match s1 with
          | c1 :: (c2 :: (c3 :: s4)) =>
              if in_range (if b0 =? 240 then 144 else 128) (bval c1) (if b0 =? 244 then 143 else 191)
                 && cont c2 && cont c3
              then ((b0 - 240) * 262144 + (bval c1 - 128) * 4096 + (bval c2 - 128) * 64
                    + (bval c3 - 128)) :: runes s4
              else rune_error :: runes s1
          | _ => rune_error :: runes s1
          end
        else rune_error :: runes s1
  end.

(** utf8.ValidRune *)
Definition valid_rune (r : rune) : bool :=
  in_range 0 r 55295 || in_range 57344 r 1114111.
(** What WriteRune really writes: invalid runes become U+FFFD. *)
Definition fix_rune (r : rune) : rune := if valid_rune r then r else rune_error.

(** [strings.Builder.WriteRune] / utf8.EncodeRune *)
Definition encode_rune (r0 : rune) : str :=
  let r := fix_rune r0 in
  if r <? 128 then [byte_of r]
  else if r <? 2048 then [byte_of (192 + r / 64); byte_of (128 + r mod 64)]
  else if r <? 65536 then
    [byte_of (224 + r / 4096); byte_of (128 + (r / 64) mod 64); byte_of (128 + r mod 64)]
  else
    [byte_of (240 + r / 262144); byte_of (128 + (r / 4096) mod 64);
     byte_of (128 + (r / 64) mod 64); byte_of (128 + r mod 64)].
Definition of_runes (l : list rune) : str := concat (map encode_rune l).

(** Unicode tables for non-ASCII code points, left abstract: [u_lower] is
    unicode.ToLower, [u_fold a b] (for [a < b], [b] non-ASCII) tells whether the
    SimpleFold orbit of [a] reaches [b]. *)
Record unicode := { u_lower : rune -> rune; u_fold : rune -> rune -> bool }.

(** unicode.ToLower *)
Definition lower_ascii (r : rune) : rune := if in_range 65 r 90 then r + 32 else r.
Definition rune_lower (U : unicode) (r : rune) : rune :=
  if r <? 128 then lower_ascii r else fix_rune (u_lower U r).

(** [strings.ToLower(s)] = strings.Map(unicode.ToLower, s); the ASCII fast path of
    the library computes the same bytes. *)
Definition to_lower (U : unicode) (s : str) : str :=
  of_runes (map (rune_lower U) (runes s)).

(** Rune comparison inside [strings.EqualFold]. *)
Definition fold_eq (U : unicode) (a b : rune) : bool :=
  if a =? b then true
  else let lo := Z.min a b in
       let hi := Z.max a b in
       if hi <? 128 then in_range 65 lo 90 && (hi =? lo + 32) else u_fold U lo hi.

Fixpoint forall2b {A} (f : A -> A -> bool) (l k : list A) : bool :=
  match l, k with
  | [], [] => true
  | a :: l', b :: k' => f a b && forall2b f l' k'
  | _, _ => false
  end.

(** [strings.EqualFold(s, t)] *)
Definition equal_fold (U : unicode) (s t : str) : bool :=
  forall2b (fold_eq U) (runes s) (runes t).

(** A concrete table used only in examples: no non-ASCII case mapping. *)
Definition U0 : unicode := {| u_lower := fun r => r; u_fold := fun _ _ => false |}.
