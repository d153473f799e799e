(** * The whole system with the policy daemon's loop
    authorizerd.go:299-343 (Start), policy/daemon.go:109-153: the Updates of System.v are called by
    the loop of Timed.v, on the same clock. *)
From Verif Require Export Timed System.

Section joint.
  Context (K : crypto) (X : jwt_ext) {O : Type} (U : unicode) (parse : str -> option (verifier K)) (cf : @sconf O).
  Context (c : timing) (pre : str).
  (** [j_cur]: the Update the loop is in; [j_nx]: the next one (Updates are numbered as they are called). *)
  Record joint := Joint { j_sys : sys K; j_loop : tst; j_cur : option nat; j_nx : nat }.
  Inductive joint_label := JSys (l : @ylabel K O) | JTick (t : time) | JLoop (t : time) (l : rlabel).
  (** Update is run by the loop alone; goroutines of earlier Updates may still be at work. *)
  Definition upd_ok (j : joint) (l : @ylabel K O) : Prop :=
    match l with
    | YUpd _ m USpawn | YUpd _ m UFinish => j_cur j = Some m
    | YUpd _ m _ | YTake _ m _ _ _ => (m < j_nx j)%nat
    | YAuth _ (ZTick _ _) => False
    | _ => True
    end.
  (** What the loop sees of an Update that returned. *)
  Definition reported (r : outcome unit) (e : option str) : Prop := r = Ok tt <-> e = None.
  Inductive joint_step : joint_label -> joint -> joint -> Prop :=
  | JS_sys j l s' : ystep K X U parse cf l (j_sys j) s' -> upd_ok j l -> joint_step (JSys l) j (Joint s' (j_loop j) (j_cur j) (j_nx j))
  | JS_tick j t s' d' : ystep K X U parse cf (YAuth K (ZTick K t)) (j_sys j) s' -> tstep c Sending pre t None (j_loop j) d' ->
      joint_step (JTick t) j (Joint s' d' (j_cur j) (j_nx j))
  | JS_call j l d' : l = RRetry \/ l = RFire -> tstep c Sending pre (now K (j_sys j)) (Some l) (j_loop j) d' ->
      is_Some (y_upd K (j_sys j) !! j_nx j) -> j_cur j = None ->
      joint_step (JLoop (now K (j_sys j)) l) j (Joint (j_sys j) d' (Some (j_nx j)) (S (j_nx j)))
  | JS_return j m u r e d' : tstep c Sending pre (now K (j_sys j)) (Some (RUpdated e)) (j_loop j) d' ->
      j_cur j = Some m -> y_upd K (j_sys j) !! m = Some u -> u_ret u = Some r -> reported r e ->
      joint_step (JLoop (now K (j_sys j)) (RUpdated e)) j (Joint (j_sys j) d' None (j_nx j))
  | JS_loop j l d' : match l with RRetry | RFire | RUpdated _ => False | _ => True end ->
      tstep c Sending pre (now K (j_sys j)) (Some l) (j_loop j) d' ->
      joint_step (JLoop (now K (j_sys j)) l) j (Joint (j_sys j) d' (j_cur j) (j_nx j)).
  (** Labels so far, oldest first. *)
  Inductive joint_run (j0 : joint) : list joint_label -> joint -> Prop :=
  | J_nil : joint_run j0 [] j0
  | J_snoc js l j j' : joint_run j0 js j -> joint_step l j j' -> joint_run j0 (js ++ [l]) j'.
  (** Start in state [s], when Updates [0..nx-1] (that of Init) are over. *)
  Definition jstart (s : sys K) (nx : nat) : joint := Joint s (tinit c (now K s)) None nx.
  (** What the parts did. *)
  Definition sysl (js : list joint_label) : list (@ylabel K O) :=
    omap (fun l => match l with JSys l => Some l | JTick t => Some (YAuth K (ZTick K t)) | JLoop _ _ => None end) js.
  Definition loopl (js : list joint_label) : list (time * option rlabel) :=
    omap (fun l => match l with JSys _ => None | JTick t => Some (t, None) | JLoop t l => Some (t, Some l) end) js.
End joint.
