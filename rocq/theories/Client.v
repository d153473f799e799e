(** * The retrying HTTP transport: client/exp_rt.go *)
From Verif Require Import Base.
From Verif Require Export GoStrings.

(** What the underlying transport answers: a response, or an error that may say it is temporary
    (client/exp_rt.go:109-116).  By the http.RoundTripper contract an error comes without a response. *)
Inductive reply := Resp (status : Z) | Fail (temporary : bool) (e : str).
(** What RoundTrip does that can be seen from outside: the [n]-th call of the transport, a sleep,
    and reading to the end and closing the body of the [n]-th response. *)
Inductive event := Call (n : nat) | Sleep (d : duration) | Consume (n : nat).
(** What it returns: the response of the [n]-th call, an error, or neither. *)
Inductive result := GotResponse (n : nat) | GotError (e : str) | GotNothing.

(** retryableStatuses and responseRetriable, client/exp_rt.go:37-42, :104-107 *)
Definition retryable (st : Z) : bool := bool_decide (st ∈ [429; 500; 503; 504]).

Section round_trip.
  (** [transport n]: the answer to the [n]-th call; [wait n]: calNextWaitDur(n), client/exp_rt.go:93-96, a float64 product
      converted to a Duration (see Prop_Client.v for its formula); [clock n]: the time at which
      canRetry reads the clock after the [n]-th call. *)
  Context (transport : nat -> reply) (wait : nat -> duration) (clock : nat -> time).
  (** canRetry, client/exp_rt.go:100-102; UnixNano is an int64 *)
  Definition can_retry (limit : Z) (n : nat) : bool := wrap64 (clock n + wait n) <? limit.
  (** The loop of RoundTrip, client/exp_rt.go:63-90: [fuel] iterations remain, [last] is what resp and err
      hold. *)
  Fixpoint attempts (limit : Z) (fuel n : nat) (last : result) : result * list event :=
    match fuel with
    | O => (last, [])
    | S fuel =>
        match transport n with
        | Fail tmp e =>
            if negb tmp then (GotError e, [Call n])
            else if negb (can_retry limit n) then (GotError e, [Call n])
            else let (r, ev) := attempts limit fuel (S n) (GotError e) in (r, Call n :: Sleep (wait n) :: ev)
        | Resp st =>
            if retryable st then let (r, ev) := attempts limit fuel (S n) (GotResponse n) in (r, Call n :: ev)
            else (GotResponse n, [Call n; Consume n])
        end
    end.
  (** RoundTrip, client/exp_rt.go:58-91 (the fields: :44-56); [start]: the clock at its first line *)
  Definition round_trip (max_count : Z) (max_time : duration) (start : time) : result * list event :=
    attempts (wrap64 (start + max_time)) (Z.to_nat max_count) 0 GotNothing.
End round_trip.
