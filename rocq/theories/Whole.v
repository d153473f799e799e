(** * The whole program: the running authorizer with the goroutine of Start
    authorizerd.go:299-343.  Running.v has the system and the loops of the three daemons, whose
    channels are read by nobody in particular; Daemon.v has the goroutine of the authority's Start over
    loops whose Updates do anything.  Here that goroutine reads the channels of the loops of Running.v,
    and empties the result cache of the system when the context ends. *)
From Verif Require Export Running.

(** The order of the channels in [s_kids]: cech, pech, jech, authorizerd.go:304. *)
Definition chan (d : daemon) : nat := match d with DKeys => 0 | DPol => 1 | DJwks => 2 end.

Section whole.
  Context (K : crypto) (X : jwt_ext) {O : Type} (U : unicode) (parse : str -> option (verifier K)) (cf : @sconf O).
  Context (on : daemon -> bool) (c : daemon -> timing).
  Notation world := (world K). Notation world_label := (@world_label K O).
  Notation world_step := (world_step K X U parse cf on c).
  (** [GWorld]: everything but the goroutine of Start; [GCancel]: the context given to Start ends, for all
      who have it at once; [GDone]: the select takes ctx.Done, the cache is emptied (:321-323; gache's
      Stop ends the sweeping goroutine, which only removes what has expired); [GTake]: it takes an error
      from a daemon; [GClosed]: it takes nil from a closed channel, :326, :330, :334; [GStep]: its
      pending send is done; [GRecv]: the user receives. *)
  Inductive prog_label :=
  | GWorld (l : world_label) | GCancel (t : time) (e : str) | GDone | GTake (d : daemon) (t : time) | GClosed (d : daemon) | GStep | GRecv.
  Inductive prog_step : prog_label -> world * ast -> world * ast -> Prop :=
  | G_world l w w' s s' : world_step l w w' ->
      match l with
      | WLoop _ d _ r => astep (AKid (chan d) r) s = Some s'
      | WSys _ (YAuth _ (ZClear _)) => False
      | _ => s' = s
      end -> prog_step (GWorld l) (w, s) (w', s')
  | G_cancel e w s s' L : astep (ACancel e) s = Some s' ->
      (forall d, if on d then tstep (c d) (kind_of d) (text_of d) (now K (w_sys K w)) (Some (RCancel e)) (pick (w_loop K w) d) (pick L d)
                 else pick L d = pick (w_loop K w) d) ->
      prog_step (GCancel (now K (w_sys K w)) e) (w, s) (World K (w_sys K w) L (w_cur K w) (w_nx K w), s')
  | G_done w y s s' : astep ADone s = Some s' -> ystep K X U parse cf (YAuth K (ZClear K)) (w_sys K w) y ->
      prog_step GDone (w, s) (World K y (w_loop K w) (w_cur K w) (w_nx K w), s')
  | G_take d w w' s s' : world_step (WLoop K d (now K (w_sys K w)) RRecv) w w' -> astep (ATake (chan d)) s = Some s' ->
      prog_step (GTake d (now K (w_sys K w))) (w, s) (w', s')
  | G_closed d w s s' : on d = true -> r_ech (t_s (pick (w_loop K w) d)) = [] -> astep (ATake (chan d)) s = Some s' ->
      prog_step (GClosed d) (w, s) (w, s')
  | G_step w s s' : astep AStep s = Some s' -> prog_step GStep (w, s) (w, s')
  | G_recv w s s' : astep ARecv s = Some s' -> prog_step GRecv (w, s) (w, s').
  (** Start is called in state [sb]. *)
  Definition prog_start (sb : sys K) (nx0 : per nat) : world * ast := (wstart K c sb nx0, ainit (on DKeys) (on DPol) (on DJwks)).
  Inductive prog_run (p0 : world * ast) : list prog_label -> world * ast -> Prop :=
  | G_nil : prog_run p0 [] p0
  | G_snoc gs g p p' : prog_run p0 gs p -> prog_step g p p' -> prog_run p0 (gs ++ [g]) p'.

  (** What the running authorizer did, and what the goroutine of Start saw. *)
  Definition to_world (g : prog_label) : list world_label :=
    match g with
    | GWorld l => [l]
    | GCancel t e => flat_map (fun d => if on d then [WLoop K d t (RCancel e)] else []) [DPol; DKeys; DJwks]
    | GDone => [WSys K (YAuth K (ZClear K))]
    | GTake d t => [WLoop K d t RRecv]
    | _ => []
    end.
  Definition to_start (g : prog_label) : list alabel :=
    match g with
    | GWorld (WLoop _ d _ r) => [AKid (chan d) r]
    | GWorld _ => []
    | GCancel _ e => [ACancel e]
    | GDone => [ADone]
    | GTake d _ | GClosed d => [ATake (chan d)]
    | GStep => [AStep]
    | GRecv => [ARecv]
    end.
End whole.
