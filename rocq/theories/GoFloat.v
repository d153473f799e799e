(** * float64 where durations need it
    time/format.go (Go 1.18): the fraction of a term in ParseDuration; time/time.go: Duration.Seconds,
    as used by access/option.go:71-91 through int64(d.Seconds()).
    float64 is IEEE 754 binary64 with rounding to nearest, ties to even (Coq's SpecFloat). *)
From Coq Require Import ZArith.
From Coq.Floats Require Import SpecFloat.
From Verif Require Import GoStrings.

(** float64(v) *)
Definition of_int (v : Z) : spec_float := binary_normalize 53 1024 v 0 false.
(** int64(x), uint64(x): towards zero (what the code converts is in range). *)
Definition to_int (x : spec_float) : Z :=
  match x with
  | S754_finite s m e => let v := if 0 <=? e then Z.pos m * 2 ^ e else Z.pos m / 2 ^ (- e) in if s then - v else v
  | _ => 0
  end.
Definition fmul : spec_float -> spec_float -> spec_float := SFmul 53 1024.
Definition fdiv : spec_float -> spec_float -> spec_float := SFdiv 53 1024.
Definition fadd : spec_float -> spec_float -> spec_float := SFadd 53 1024.
(** leadingFraction: scale starts at 1 and is multiplied by 10 for every digit. *)
Fixpoint scale (k : nat) : spec_float := match k with O => of_int 1 | S k => fmul (scale k) (of_int 10) end.
(** uint64(float64(f) * (float64(unit) / scale)) *)
Definition go_frac (f : Z) (k : nat) (unit : Z) : Z := to_int (fmul (of_int f) (fdiv (of_int unit) (scale k))).
(** int64(d.Seconds()): float64(d / Second) + float64(d % Second)/1e9 *)
Definition go_secs (d : Z) : Z :=
  to_int (fadd (of_int (Z.quot d 1000000000)) (fdiv (of_int (Z.rem d 1000000000)) (of_int 1000000000))).
(** client/exp_rt.go:48 and :93-96: float64(2*count+1) * (float64(time.Second) / math.Pow(factor, 2)), to a Duration.
    math.Pow(x, 2) is the rounded product x * x (no overflow or underflow). *)
Definition go_wait (factor : spec_float) (count : Z) : Z :=
  to_int (fmul (of_int (2 * count + 1)) (fdiv (of_int 1000000000) (fmul factor factor))).
