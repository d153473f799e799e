(** * The running authorizer: the whole system with the loops of all three daemons
    authorizerd.go:299-343 (Start), policy/daemon.go:109-153, pubkey/daemon.go:104-150,
    jwk/daemon.go:67-118.  Joint.v has the policy daemon's loop only; here the Updates of the key daemon
    and of the JWK daemon are called by their loops too, all on one clock. *)
From Verif Require Export Joint.

Inductive daemon := DPol | DKeys | DJwks.
(** policyd and pubkeyd send every error, jwkd keeps those it cannot send. *)
Definition kind_of (d : daemon) : kind := match d with DJwks => Buffering | _ => Sending end.
(** policy/daemon.go:128, pubkey/daemon.go:125, jwk/daemon.go:80 *)
Definition text_of (d : daemon) : str :=
  match d with DPol => B "error update policy" | DKeys => B "error update pubkey" | DJwks => B "error update athenz json web key" end.
(** One thing for each daemon. *)
Record per (A : Type) := Per { at_pol : A; at_keys : A; at_jwks : A }.
Arguments Per {A}. Arguments at_pol {A}. Arguments at_keys {A}. Arguments at_jwks {A}.
Definition pick {A} (p : per A) (d : daemon) : A := match d with DPol => at_pol p | DKeys => at_keys p | DJwks => at_jwks p end.
Definition place {A} (d : daemon) (x : A) (p : per A) : per A :=
  match d with
  | DPol => Per x (at_keys p) (at_jwks p)
  | DKeys => Per (at_pol p) x (at_jwks p)
  | DJwks => Per (at_pol p) (at_keys p) x
  end.

Section running.
  Context (K : crypto) (X : jwt_ext) {O : Type} (U : unicode) (parse : str -> option (verifier K)) (cf : @sconf O).
  (** [on]: which daemons are started (disablePolicyd, disablePubkeyd, disableJwkd, authorizerd.go:306-314). *)
  Context (on : daemon -> bool) (c : daemon -> timing).
  (** For each daemon its loop, the Update the loop is in, and the number of the next one. *)
  Record world := World { w_sys : sys K; w_loop : per tst; w_cur : per (option nat); w_nx : per nat }.
  Inductive world_label := WSys (l : @ylabel K O) | WTick (t : time) | WLoop (d : daemon) (t : time) (l : rlabel).
  (** After Start, Updates are run by the loops alone. *)
  Definition may (w : world) (l : @ylabel K O) : Prop :=
    match l with
    | YUpd _ m USpawn | YUpd _ m UFinish => pick (w_cur w) DPol = Some m
    | YUpd _ m _ | YTake _ m _ _ _ => (m < pick (w_nx w) DPol)%nat
    | YKey _ (PBegin i _) => pick (w_cur w) DKeys = Some (Nat.div2 i)
    | YJwk _ (JBegin i) => pick (w_cur w) DJwks = Some i
    | YAuth _ (ZTick _ _) => False
    | _ => True
    end.
  (** Update number [m] of the daemon can be called; what it has returned. *)
  Definition callable (d : daemon) (s : sys K) (m : nat) : Prop :=
    match d with
    | DPol => is_Some (y_upd K s !! m)
    | DKeys => p_tasks (y_keys K s) !! (2 * m)%nat = Some PIdle /\ p_tasks (y_keys K s) !! (2 * m + 1)%nat = Some PIdle
    | DJwks => j_tasks (y_jwk K s) !! m = Some JIdle
    end.
  Definition outcome_of (d : daemon) (s : sys K) (m : nat) : option (outcome unit) :=
    match d with
    | DPol => match y_upd K s !! m with Some u => u_ret u | None => None end
    | DKeys => update_result (y_keys K s) m
    | DJwks => match j_tasks (y_jwk K s) !! m with Some t => jresult t | None => None end
    end.
  (** A panic in a goroutine ends the program. *)
  Definition shown (r : outcome unit) (e : option str) : Prop :=
    match r with Ok _ => e = None | Err _ => e <> None | Panic => False end.
  Definition goes_on (l : rlabel) : Prop := match l with RRetry | RFire | RUpdated _ => False | _ => True end.
  Inductive world_step : world_label -> world -> world -> Prop :=
  | WS_sys w l s' : ystep K X U parse cf l (w_sys w) s' -> may w l ->
      world_step (WSys l) w (World s' (w_loop w) (w_cur w) (w_nx w))
  | WS_tick w t s' L : ystep K X U parse cf (YAuth K (ZTick K t)) (w_sys w) s' ->
      (forall d, if on d then tstep (c d) (kind_of d) (text_of d) t None (pick (w_loop w) d) (pick L d) else pick L d = pick (w_loop w) d) ->
      world_step (WTick t) w (World s' L (w_cur w) (w_nx w))
  | WS_call w d l a : on d = true -> l = RRetry \/ l = RFire ->
      tstep (c d) (kind_of d) (text_of d) (now K (w_sys w)) (Some l) (pick (w_loop w) d) a ->
      callable d (w_sys w) (pick (w_nx w) d) -> pick (w_cur w) d = None ->
      world_step (WLoop d (now K (w_sys w)) l) w
        (World (w_sys w) (place d a (w_loop w)) (place d (Some (pick (w_nx w) d)) (w_cur w)) (place d (S (pick (w_nx w) d)) (w_nx w)))
  | WS_return w d m r e a : on d = true ->
      tstep (c d) (kind_of d) (text_of d) (now K (w_sys w)) (Some (RUpdated e)) (pick (w_loop w) d) a ->
      pick (w_cur w) d = Some m -> outcome_of d (w_sys w) m = Some r -> shown r e ->
      world_step (WLoop d (now K (w_sys w)) (RUpdated e)) w
        (World (w_sys w) (place d a (w_loop w)) (place d None (w_cur w)) (w_nx w))
  | WS_loop w d l a : on d = true -> goes_on l ->
      tstep (c d) (kind_of d) (text_of d) (now K (w_sys w)) (Some l) (pick (w_loop w) d) a ->
      world_step (WLoop d (now K (w_sys w)) l) w (World (w_sys w) (place d a (w_loop w)) (w_cur w) (w_nx w)).
  (** Labels so far, oldest first. *)
  Inductive world_run (w0 : world) : list world_label -> world -> Prop :=
  | W_nil : world_run w0 [] w0
  | W_snoc ws l w w' : world_run w0 ws w -> world_step l w w' -> world_run w0 (ws ++ [l]) w'.
  (** Start in state [s], when the Updates below [nx] (those of Init) are over. *)
  Definition wstart (s : sys K) (nx : per nat) : world :=
    World s (Per (tinit (c DPol) (now K s)) (tinit (c DKeys) (now K s)) (tinit (c DJwks) (now K s))) (Per None None None) nx.
  (** What the parts did. *)
  Definition wsysl (ws : list world_label) : list (@ylabel K O) :=
    omap (fun l => match l with WSys l => Some l | WTick t => Some (YAuth K (ZTick K t)) | WLoop _ _ _ => None end) ws.
  Definition same (d d' : daemon) : bool := match d, d' with DPol, DPol | DKeys, DKeys | DJwks, DJwks => true | _, _ => false end.
  Definition wloopl (d : daemon) (ws : list world_label) : list (time * option rlabel) :=
    omap (fun l => match l with WSys _ => None | WTick t => Some (t, None) | WLoop d' t l => if same d d' then Some (t, Some l) else None end) ws.
End running.
