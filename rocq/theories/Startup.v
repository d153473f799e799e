(** * Starting the daemons: the timers (authorizerd.go:299-313, pubkey/daemon.go:104-117,
    policy/daemon.go:109-117, 187, jwk/daemon.go:67-76) *)
From Verif Require Export Config GoStrings.

(** time.NewTicker panics for a non-positive period.  gache's StartExpired makes such a ticker, too;
    each runs in a goroutine of its own, where nobody recovers. *)
Definition new_ticker (d : duration) : outcome unit := if d <=? 0 then Panic else Ok tt.
Fixpoint tickers (l : list duration) : outcome unit :=
  match l with
  | [] => Ok tt
  | d :: l => let! _ := new_ticker d in tickers l
  end.
(** pubkeyd.Start: StartExpired of the ETag cache, the ticker (pubkey/daemon.go:115-116) *)
Definition pubkey_start (c : pk_conf) : outcome unit := tickers [pk_purge c; pk_refresh c].
(** policyd.Start: the ticker (policy/daemon.go:118) *)
Definition policy_start (c : pol_conf) : outcome unit := tickers [po_refresh c].
(** jwkd.Start: the ticker (jwk/daemon.go:75) *)
Definition jwk_start (c : jwk_conf) : outcome unit := tickers [jk_refresh c].
Definition if_enabled {A} (f : A -> outcome unit) (x : option A) : outcome unit := match x with Some a => f a | None => Ok tt end.
(** authority.Start, authorizerd.go:299-313: StartExpired of the result cache with cacheExp/2 (Go's
    division truncates), then the enabled daemons.  The goroutines may reach their tickers in any
    order; a panic in one of them ends the process whatever the others do. *)
Definition start_all (a : authorizer) : outcome unit :=
  let! _ := tickers [Z.quot (a_exp (au_conf a)) 2] in
  let! _ := if_enabled pubkey_start (au_pub a) in
  let! _ := if_enabled policy_start (au_pol a) in
  if_enabled jwk_start (au_jwk a).
(** The end of a policy Update whose downloads succeeded: StartExpired of the new cache
    (policy/daemon.go:187). *)
Definition policy_published (a : authorizer) : outcome unit := if_enabled (fun c => tickers [po_purge c]) (au_pol a).
