(** * The daemons' loops with time
    (policy/daemon.go:109-153, pubkey/daemon.go:104-150, jwk/daemon.go:67-118.)  The machine of
    Daemon.v with a clock: the ticker fires every refreshPeriod, time.Sleep(retryDelay) takes at least
    that long, and the goroutine takes every step it can take within a given time. *)
From Verif Require Export Daemon.

(** [c_refresh], [c_retry]: the configured periods.  The rest describes the surroundings: a runnable
    goroutine goes on within [c_lag], Update returns within [c_update], a sleep is over within
    [c_sleep]. *)
Record timing := Timing { c_refresh : duration; c_retry : duration; c_lag : duration; c_update : duration; c_sleep : duration }.
(** [t_since]: when the goroutine became able to take its next step; [t_next]: the next tick. *)
Record tst := TSt { t_s : rst; t_since : time; t_next : time; t_now : time }.
(** The time the goroutine has for its next step; [None]: it waits for others. *)
Definition due (c : timing) (s : rst) : option duration :=
  match r_loc s with
  | LSelect => if r_tick s || (0 <? r_retry s)%nat || match r_ctx s with Some _ => true | None => false end then Some (c_lag c) else None
  | LUpdate _ => Some (c_update c)
  | LSend _ _ | LBye _ => if (length (r_ech s) <? ecap)%nat then Some (c_lag c) else None
  | LSleep _ => Some (c_sleep c)
  | LPut _ | LQueue => Some (c_lag c)
  | LEnd => None
  end.
(** A step of the goroutine, not of its surroundings. *)
Definition own (l : rlabel) : bool := match l with RTick | RCancel _ | RRecv => false | _ => true end.
(** The ticker has not been stopped (policy/daemon.go:123 and the same line of the others). *)
Definition ticking (s : rst) : Prop := match r_loc s with LBye _ | LEnd => False | _ => True end.
(** Nothing happens after a deadline that has not been met. *)
Definition in_time (c : timing) (s : tst) (t : time) : Prop :=
  t_now s <= t /\ (ticking (t_s s) -> t <= t_next s) /\ forall d, due c (t_s s) = Some d -> t <= t_since s + d.
(** [tstep c k pre t (Some l)]: [l] happens at [t]; [None]: time passes. *)
Inductive tstep (c : timing) (k : kind) (pre : str) (t : time) : option rlabel -> tst -> tst -> Prop :=
| T_pass s : in_time c s t -> tstep c k pre t None s (TSt (t_s s) (t_since s) (t_next s) t)
| T_step s l s' : in_time c s t -> rstep k pre l (t_s s) = Some s' ->
    (l = RTick -> t = t_next s) ->
    (l = RStep -> forall m, r_loc (t_s s) = LSleep m -> t_since s + c_retry c <= t) ->
    tstep c k pre t (Some l) s
      (TSt s' (if own l then t else match due c (t_s s) with Some _ => t_since s | None => t end)
         (match l with RTick => t_next s + c_refresh c | _ => t_next s end) t).
Inductive trun (c : timing) (k : kind) (pre : str) : list (time * option rlabel) -> tst -> tst -> Prop :=
| T_nil s : trun c k pre [] s s
| T_cons t l tr s s1 s2 : tstep c k pre t l s s1 -> trun c k pre tr s1 s2 -> trun c k pre ((t, l) :: tr) s s2.
(** Start at [t0]. *)
Definition tinit (c : timing) (t0 : time) : tst := TSt rinit t0 (t0 + c_refresh c) t0.
