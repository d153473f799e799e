(** * Base vocabulary: Go strings, results, machine integers, time.

    Nothing here is specific to one file of the repository; it fixes how Go
    values are represented in every other file of the model. *)
From stdpp Require Export prelude list gmap.
From Coq Require Export Ascii String ZArith Lia.
From Coq Require Export ZifyBool ZifyNat ZifyN.
Notation length := List.length.
Notation concat := List.concat.
Global Open Scope list_scope.
Global Open Scope Z_scope.

(** A Go [string] is an immutable byte sequence; [ascii] is the 8-bit byte type. *)
Definition str := list ascii.
Global Instance ascii_countable : Countable ascii :=
  inj_countable' N_of_ascii ascii_of_N ascii_N_embedding.
Global Instance str_eq_dec : EqDecision str := _.
Global Instance str_countable : Countable str := _.

(** [B "abc"] is the Go string literal "abc". *)
Definition B (s : string) : str := list_ascii_of_string s.
Arguments B s%string_scope.

(** Boolean equality of Go strings ([==] on strings). *)
Definition str_eqb (a b : str) : bool := bool_decide (a = b).

(** Errors, identified by their [errors.Cause]: [errors.Wrap]/[Wrapf] keep the
    cause, so wrapping is not represented.  Sentinels: errors.go:26-52,
    policy/error.go:21-42, role/error.go:21-27, pubkey/error.go:21-27,
    internal/url/error.go.  Errors without a sentinel are [ErrMsg]. *)
Inductive error :=
| ErrRoleTokenInvalid
| ErrRoleTokenExpired
| ErrNoMatch
| ErrInvalidPolicyResource
| ErrDenyByPolicy
| ErrFetchPolicy
| ErrFetchAthenzPubkey
| ErrInvalidParameters
| ErrInvalidCredentials
| ErrUnsupportedScheme
| ErrEmptyAthenzJwksURL
| ErrCanceled            (* ctx.Err() *)
| ErrMsg (m : string).   (* any other error value *)
Global Instance error_eq_dec : EqDecision error.
Proof. solve_decision. Defined.

(** Result of a Go call: a value with a nil error, a non-nil error, or a
    run-time panic (nil dereference, call of a nil func, failed type assertion,
    index out of range). *)
Inductive outcome (A : Type) :=
| Ok (a : A)
| Err (e : error)
| Panic.
Arguments Ok {A} a.
Arguments Err {A} e.
Arguments Panic {A}.

Definition obind {A C} (x : outcome A) (f : A -> outcome C) : outcome C :=
  match x with Ok a => f a | Err e => Err e | Panic => Panic end.
Notation "'let!' x ':=' e 'in' k" := (obind e (fun x => k))
  (at level 200, x pattern, e at level 100, k at level 200).

Definition is_ok {A} (x : outcome A) : bool :=
  match x with Ok _ => true | _ => false end.

(** ** int64 *)
Definition two63 : Z := 9223372036854775808.
Definition two64 : Z := 18446744073709551616.
Definition max_int64 : Z := two63 - 1.
Definition min_int64 : Z := - two63.
(** Two's complement wrap of a mathematical integer (Go int64 arithmetic). *)
Definition wrap64 (z : Z) : Z := (z + two63) mod two64 - two63.
Definition in_int64 (z : Z) : bool := (min_int64 <=? z) && (z <=? max_int64).
(** Saturation, used by [time.Time.Sub]. *)
Definition sat64 (z : Z) : Z := Z.max min_int64 (Z.min max_int64 z).

(** ** Time
    A [time.Time] is the number of nanoseconds since the Unix epoch as an
    unbounded integer (Go keeps int64 seconds since year 1 and nanoseconds, which
    is the same information for every value built below). A [time.Duration] is an
    int64 number of nanoseconds. *)
Definition time := Z.
Definition duration := Z.
Definition second : Z := 1000000000.
(** Seconds between 0001-01-01 and 1970-01-01, Go's unixToInternal. *)
Definition unix_to_internal : Z := 62135596800.
(** Go's zero [time.Time{}]. *)
Definition zero_time : time := - unix_to_internal * second.
(** [time.Unix(i, 0)]: the int64 addition [i + unixToInternal] wraps. *)
Definition time_unix (i : Z) : time :=
  (wrap64 (i + unix_to_internal) - unix_to_internal) * second.
(** [t.Unix()]: int64 seconds, wraps back. *)
Definition unix_of (t : time) : Z :=
  wrap64 (Z.div t second).
(** [t.After(u)], [t.Before(u)]. *)
Definition after (t u : time) : bool := u <? t.
Definition before (t u : time) : bool := t <? u.
(** [t.Sub(u)] saturates. *)
Definition time_sub (t u : time) : duration := sat64 (t - u).
(** [t.Add(d)]. Go adds int64 seconds with wrap only beyond +-292e9 years, so the
    addition is exact for every [time] the model builds from int64 seconds. *)
Definition time_add (t : time) (d : duration) : time := t + d.

Lemma wrap64_id z : min_int64 <= z <= max_int64 -> wrap64 z = z.
Proof.
  unfold wrap64, min_int64, max_int64, two63, two64. intros H.
  rewrite Z.mod_small; lia.
Qed.

Lemma wrap64_range z : min_int64 <= wrap64 z <= max_int64.
Proof.
  unfold wrap64, min_int64, max_int64, two63, two64.
  pose proof (Z.mod_pos_bound (z + 9223372036854775808) 18446744073709551616). lia.
Qed.

Lemma unix_of_time_unix i : min_int64 <= i <= max_int64 -> unix_of (time_unix i) = i.
Proof.
  intros H. unfold unix_of, time_unix.
  rewrite Z.div_mul by (unfold second; lia).
  unfold wrap64, unix_to_internal, min_int64, max_int64, two63, two64 in *.
  rewrite Zminus_mod_idemp_l || idtac.
  destruct (decide (i + 62135596800 <= 9223372036854775807)) as [Hs|Hs].
  - rewrite (Z.mod_small (i + 62135596800 + _)) by lia.
    replace (i + 62135596800 + 9223372036854775808 - 9223372036854775808 - 62135596800
       + 9223372036854775808) with (i + 9223372036854775808) by lia.
    rewrite Z.mod_small by lia. lia.
  - replace ((i + 62135596800 + 9223372036854775808) mod 18446744073709551616)
      with (i + 62135596800 + 9223372036854775808 - 18446744073709551616).
    2:{ apply (Z.mod_unique_pos _ _ 1); lia. }
    replace (i + 62135596800 + 9223372036854775808 - 18446744073709551616 - 9223372036854775808
      - 62135596800 + 9223372036854775808)
      with ((i + 9223372036854775808) + (-1) * 18446744073709551616) by lia.
    rewrite Z.mod_add by lia. rewrite Z.mod_small by lia. lia.
Qed.
