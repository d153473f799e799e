(** * time.ParseDuration (Go 1.18, time/format.go), as used by the options: policy/option.go:81-131,
    pubkey/option.go:71-124, jwk/option.go:61-81, access/option.go:71-91 *)
From Verif Require Export Config.
From Verif Require Import GoStrings.

Definition lim63 : Z := 9223372036854775808.
(** leadingInt: the leading digits, [None] when they exceed 1<<63. *)
Fixpoint leading_int (x : Z) (s : str) : option (Z * str) :=
  match s with
  | [] => Some (x, [])
  | c :: s' =>
      match digit_val c with
      | None => Some (x, s)
      | Some d =>
          if lim63 / 10 <? x then None
          else let x' := x * 10 + d in
               if lim63 <? x' then None else leading_int x' s'
      end
  end.
(** leadingFraction: the digits after the point; [n]: how many of them count (scale = 10^n); those
    beyond what fits are skipped. *)
Fixpoint leading_fraction (over : bool) (x : Z) (n : nat) (s : str) : Z * nat * str :=
  match s with
  | [] => (x, n, [])
  | c :: s' =>
      match digit_val c with
      | None => (x, n, s)
      | Some d =>
          if over then leading_fraction true x n s'
          else if (lim63 - 1) / 10 <? x then leading_fraction true x n s'
          else let y := x * 10 + d in
               if lim63 <? y then leading_fraction true x n s' else leading_fraction false y (S n) s'
      end
  end.
Definition is_dot (c : ascii) : bool := bool_decide (c = "."%char).
Definition is_digit (c : ascii) : bool := match digit_val c with Some _ => true | None => false end.
(** The unit: everything up to the next digit or point. *)
Fixpoint take_unit (s : str) : str * str :=
  match s with
  | [] => ([], [])
  | c :: s' => if is_dot c || is_digit c then ([], s) else let '(u, r) := take_unit s' in (c :: u, r)
  end.
(** unitMap, in nanoseconds; the two spellings of the micro sign are U+00B5 and U+03BC in UTF-8. *)
Definition micro1 : str := [ascii_of_nat 194; ascii_of_nat 181; "s"%char].
Definition micro2 : str := [ascii_of_nat 206; ascii_of_nat 188; "s"%char].
Definition unit_of (u : str) : option Z :=
  if bool_decide (u = B "ns") then Some 1
  else if bool_decide (u = B "us") then Some 1000
  else if bool_decide (u = micro1) then Some 1000
  else if bool_decide (u = micro2) then Some 1000
  else if bool_decide (u = B "ms") then Some 1000000
  else if bool_decide (u = B "s") then Some 1000000000
  else if bool_decide (u = B "m") then Some 60000000000
  else if bool_decide (u = B "h") then Some 3600000000000
  else None.
Section Dur.
  (** uint64(float64(f) * (float64(unit) / scale)) for f, scale = 10^n: floating point, left open. *)
  Variable frac : Z -> nat -> Z -> Z.
  (** One turn of the loop: a number with its unit. *)
  Definition one_term (s : str) : option (Z * str) :=
    match s with
    | [] => None
    | c :: _ =>
        if negb (is_dot c || is_digit c) then None else
        match leading_int 0 s with
        | None => None
        | Some (v, s1) =>
            let pre := negb (Nat.eqb (length s) (length s1)) in
            let '(f, n, s2, post) :=
              match s1 with
              | c1 :: s1' =>
                  if is_dot c1 then let '(f, n, s2) := leading_fraction false 0 0 s1' in (f, n, s2, negb (Nat.eqb (length s1') (length s2)))
                  else (0, 0%nat, s1, false)
              | [] => (0, 0%nat, s1, false)
              end in
            if negb pre && negb post then None else
            let '(u, s3) := take_unit s2 in
            match u with
            | [] => None
            | _ :: _ =>
                match unit_of u with
                | None => None
                | Some unit =>
                    if lim63 / unit <? v then None else
                    let v := v * unit in
                    let v := if 0 <? f then v + frac f n unit else v in
                    if lim63 <? v then None else Some (v, s3)
                end
            end
        end
    end.
  (** The loop; [k] bounds the turns, each of which consumes something. *)
  Fixpoint terms (k : nat) (d : Z) (s : str) : option Z :=
    match s, k with
    | [], _ => Some d
    | _, O => None
    | _, S k =>
        match one_term s with
        | None => None
        | Some (v, s') => let d' := d + v in if lim63 <? d' then None else terms k d' s'
        end
    end.
  (** ParseDuration *)
  Definition go_duration (t : str) : option duration :=
    let '(neg, s) := match t with
                     | c :: s => if bool_decide (c = "-"%char) then (true, s) else if bool_decide (c = "+"%char) then (false, s) else (false, t)
                     | [] => (false, [])
                     end in
    if bool_decide (s = B "0") then Some 0
    else if bool_decide (s = []) then None
    else match terms (length s) 0 s with
         | None => None
         | Some d => if neg then Some (- d) else if lim63 - 1 <? d then None else Some d
         end.
End Dur.
(** The parsers of Config.v with this one put in. *)
Definition std_parsers (frac : Z -> nat -> Z -> Z) (secs : duration -> Z) (uri : str -> option str) : parsers :=
  Parsers (go_duration frac) secs uri.
