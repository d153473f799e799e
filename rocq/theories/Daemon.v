(** * The refresh loops, Init and Start
    policy/daemon.go:109-153, pubkey/daemon.go:104-150, jwk/daemon.go:67-118, authorizerd.go:265-343.

    Errors are their texts here, since it is texts that the channels carry to the user.  Durations
    are not represented: a timer or a sleep may end at any time. *)
From Verif Require Import Base.
From Verif Require Export GoStrings.

(** errors.Wrap(e, m).Error() (github.com/pkg/errors) *)
Definition wrap (m e : str) : str := m ++ B ": " ++ e.

(** ** One daemon *)
(** policyd and pubkeyd send every error; jwkd keeps those it cannot send in ebuf. *)
Inductive kind := Sending | Buffering.
(** Where the goroutine is.  [LSelect]: at the select.  [LUpdate r]: inside Update, entered from the
    failure queue if [r].  [LSend r m]: at [ech <- m].  [LSleep m]: in time.Sleep (jwkd still has
    [m] to report).  [LPut m]: jwkd's non-blocking send.  [LQueue]: before the non-blocking send to fch.
    [LBye m]: at the last [ech <- m].  [LEnd]: returned, both channels closed. *)
Inductive loc :=
| LSelect | LUpdate (r : bool) | LSend (r : bool) (m : str) | LSleep (m : str) | LPut (m : str) | LQueue | LBye (m : str) | LEnd.
(** [r_retry]: elements in fch; [r_tick]: ticker.C holds a tick; [r_ech]: elements in ech;
    [r_buf]: ebuf; [r_got]: what the user has received so far; [r_ctx]: ctx.Err() once cancelled. *)
Record rst := RSt {
  r_loc : loc; r_retry : nat; r_tick : bool; r_ech : list str; r_buf : str; r_got : list str; r_ctx : option str }.
Inductive rlabel :=
| RTick                        (* the ticker fires *)
| RCancel (e : str)            (* the context ends *)
| RDone | RRetry | RFire       (* the select takes ctx.Done, fch, ticker.C *)
| RUpdated (r : option str)    (* Update returns *)
| RStep                        (* the goroutine goes on *)
| RRecv.                       (* the user receives from ech *)
(** cap(fch), cap(ech): policy/daemon.go:111-112 and the same lines of the others *)
Definition fcap : nat := 1.
Definition ecap : nat := 100.

Definition r_goto (l : loc) (s : rst) : rst := RSt l (r_retry s) (r_tick s) (r_ech s) (r_buf s) (r_got s) (r_ctx s).
(** [k], [pre]: the kind and the message its errors are wrapped with. *)
Definition rstep (k : kind) (pre : str) (l : rlabel) (s : rst) : option rst :=
  match l with
  | RTick =>
      match r_loc s with
      | LBye _ | LEnd => None
      | _ => Some (RSt (r_loc s) (r_retry s) true (r_ech s) (r_buf s) (r_got s) (r_ctx s))
      end
  | RCancel e =>
      match r_ctx s with
      | None => Some (RSt (r_loc s) (r_retry s) (r_tick s) (r_ech s) (r_buf s) (r_got s) (Some e))
      | Some _ => None
      end
  | RDone =>
      match r_loc s, r_ctx s with
      | LSelect, Some e =>
          Some (r_goto (LBye match k, r_buf s with Buffering, _ :: _ => wrap (r_buf s) e | _, _ => e end) s)
      | _, _ => None
      end
  | RRetry =>
      match r_loc s, r_retry s with
      | LSelect, S n => Some (RSt (LUpdate true) n (r_tick s) (r_ech s) (r_buf s) (r_got s) (r_ctx s))
      | _, _ => None
      end
  | RFire =>
      match r_loc s, r_tick s with
      | LSelect, true => Some (RSt (LUpdate false) (r_retry s) false (r_ech s) (r_buf s) (r_got s) (r_ctx s))
      | _, _ => None
      end
  | RUpdated r =>
      match r_loc s, r with
      | LUpdate _, None => Some (r_goto LSelect s)
      | LUpdate b, Some e => Some (r_goto (match k with Sending => LSend b (wrap pre e) | Buffering => LSleep (wrap pre e) end) s)
      | _, _ => None
      end
  | RStep =>
      match r_loc s with
      | LSend b m =>
          if (length (r_ech s) <? ecap)%nat
          then Some (RSt (if b then LSleep m else LQueue) (r_retry s) (r_tick s) (r_ech s ++ [m]) (r_buf s) (r_got s) (r_ctx s))
          else None
      | LSleep m => Some (r_goto (match k with Sending => LQueue | Buffering => LPut m end) s)
      | LPut m =>
          Some (if (length (r_ech s) <? ecap)%nat
                then RSt LQueue (r_retry s) (r_tick s) (r_ech s ++ [wrap m (r_buf s)]) [] (r_got s) (r_ctx s)
                else RSt LQueue (r_retry s) (r_tick s) (r_ech s) (wrap m (r_buf s)) (r_got s) (r_ctx s))
      | LQueue =>
          Some (RSt LSelect (if (r_retry s <? fcap)%nat then S (r_retry s) else r_retry s) (r_tick s) (r_ech s) (r_buf s) (r_got s) (r_ctx s))
      | LBye m =>
          if (length (r_ech s) <? ecap)%nat
          then Some (RSt LEnd (r_retry s) (r_tick s) (r_ech s ++ [m]) (r_buf s) (r_got s) (r_ctx s))
          else None
      | _ => None
      end
  | RRecv =>
      match r_ech s with
      | m :: q => Some (RSt (r_loc s) (r_retry s) (r_tick s) q (r_buf s) (r_got s ++ [m]) (r_ctx s))
      | [] => None
      end
  end.
Fixpoint rrun (k : kind) (pre : str) (ls : list rlabel) (s : rst) : option rst :=
  match ls with
  | [] => Some s
  | l :: ls => match rstep k pre l s with Some s' => rrun k pre ls s' | None => None end
  end.
(** The state after Start: no tick yet, nothing queued. *)
Definition rinit : rst := RSt LSelect 0 false [] [] [] None.

(** ** Init, authorizerd.go:265-297 *)
(** golang.org/x/sync/errgroup.WithContext: the first error is kept and cancels the derived context;
    Wait returns it after both functions returned.  A function's return and the recording of its
    error are one step: nothing between them can be observed.
    [GPub], [GPol], [GJwk]: inside that daemon's Update. *)
Inductive gloc := GStart | GPub | GPol | GJwk | GEnd.
(** [i_err]: the group's error; [i_parent]: Err() of the context given to Init once it ended;
    [i_done]: what Wait returned. *)
Record ist := ISt { i_one : gloc; i_two : gloc; i_err : option str; i_parent : option str; i_done : option (option str) }.
Record iconf := IConf { ic_pub : bool; ic_pol : bool; ic_jwk : bool }.
Inductive ilabel :=
| ICancel (e : str)            (* the parent context ends *)
| IStart1 | IStart2            (* a goroutine starts and evaluates its select *)
| IPub (r : option str)        (* pubkeyd.Update returns *)
| IPol (r : option str)
| IJwk (r : option str)
| IWait.                       (* Wait returns *)
(** egCtx.Err(): the parent's error, or Canceled once the group failed. *)
Definition eg_err (s : ist) : option str :=
  match i_parent s, i_err s with Some e, _ => Some e | None, Some _ => Some (B "context canceled") | None, None => None end.
Definition record (e : option str) (s : ist) : option str := match i_err s with Some x => Some x | None => e end.
Definition istep (cf : iconf) (l : ilabel) (s : ist) : option ist :=
  let one g := ISt g (i_two s) (i_err s) (i_parent s) (i_done s) in
  let end1 e := ISt GEnd (i_two s) (record e s) (i_parent s) (i_done s) in
  let two g := ISt (i_one s) g (i_err s) (i_parent s) (i_done s) in
  let end2 e := ISt (i_one s) GEnd (record e s) (i_parent s) (i_done s) in
  let after_pub := if ic_pol cf then one GPol else end1 None in
  match l with
  | ICancel e => match i_parent s with None => Some (ISt (i_one s) (i_two s) (i_err s) (Some e) (i_done s)) | Some _ => None end
  | IStart1 =>
      match i_one s with
      | GStart => Some match eg_err s with Some e => end1 (Some e) | None => if ic_pub cf then one GPub else after_pub end
      | _ => None
      end
  | IStart2 =>
      match i_two s with
      | GStart => Some match eg_err s with Some e => end2 (Some e) | None => two GJwk end
      | _ => None
      end
  | IPub r => match i_one s, r with GPub, Some e => Some (end1 (Some e)) | GPub, None => Some after_pub | _, _ => None end
  | IPol r => match i_one s with GPol => Some (end1 r) | _ => None end
  | IJwk r => match i_two s with GJwk => Some (end2 r) | _ => None end
  | IWait => match i_one s, i_two s, i_done s with GEnd, GEnd, None => Some (ISt GEnd GEnd (i_err s) (i_parent s) (Some (i_err s))) | _, _, _ => None end
  end.
Fixpoint irun (cf : iconf) (ls : list ilabel) (s : ist) : option ist :=
  match ls with
  | [] => Some s
  | l :: ls => match istep cf l s with Some s' => irun cf ls s' | None => None end
  end.
Definition iinit (cf : iconf) (parent : option str) : ist := ISt GStart (if ic_jwk cf then GStart else GEnd) None parent None.

(** ** The authority's own Start, authorizerd.go:299-343 *)
Inductive aloc := ASelect | ASend (m : str) | ABye (m : str) | AEnd.
(** The three children with the messages their errors are tagged with; [None]: disabled. *)
Record ast := ASt { s_kids : list (option rst); s_loc : aloc; s_ech : list str; s_got : list str; s_ctx : option str; s_cleared : bool }.
Inductive alabel :=
| AKid (i : nat) (l : rlabel)  (* a child moves (not RRecv, RCancel) *)
| ACancel (e : str)            (* the shared context ends *)
| ADone                        (* select takes ctx.Done *)
| ATake (i : nat)              (* select takes child [i]'s channel *)
| AStep                        (* the pending send completes *)
| ARecv.                       (* the user receives *)
Definition acap : nat := 200.
Definition kid_kind (i : nat) : kind := match i with 2%nat => Buffering | _ => Sending end.
Definition kid_prefix (i : nat) : str :=
  match i with
  | 0%nat => B "error update pubkey"
  | 1%nat => B "error update policy"
  | _ => B "error update athenz json web key"
  end.
Definition kid_tag (i : nat) : str :=
  match i with 0%nat => B "update pubkey error" | 1%nat => B "update policy error" | _ => B "update jwk error" end.
Definition set_kids (f : list (option rst)) (s : ast) : ast := ASt f (s_loc s) (s_ech s) (s_got s) (s_ctx s) (s_cleared s).
Definition set_aloc (l : aloc) (s : ast) : ast := ASt (s_kids s) l (s_ech s) (s_got s) (s_ctx s) (s_cleared s).
Definition astep (l : alabel) (s : ast) : option ast :=
  match l with
  | AKid i l =>
      match s_kids s !! i, l with
      | Some (Some _), RRecv | Some (Some _), RCancel _ => None
      | Some (Some k), _ => option_map (fun k' => set_kids (<[i := Some k']> (s_kids s)) s) (rstep (kid_kind i) (kid_prefix i) l k)
      | _, _ => None
      end
  | ACancel e =>
      match s_ctx s with
      | None =>
          Some (ASt (map (option_map (fun k => RSt (r_loc k) (r_retry k) (r_tick k) (r_ech k) (r_buf k) (r_got k) (Some e))) (s_kids s))
                  (s_loc s) (s_ech s) (s_got s) (Some e) (s_cleared s))
      | Some _ => None
      end
  | ADone =>
      match s_loc s, s_ctx s with
      | ASelect, Some e => Some (ASt (s_kids s) (ABye e) (s_ech s) (s_got s) (s_ctx s) true)
      | _, _ => None
      end
  | ATake i =>
      match s_loc s, s_kids s !! i with
      | ASelect, Some (Some k) =>
          match r_ech k, r_loc k with
          | m :: _, _ =>
              option_map (fun k' => set_aloc (ASend (wrap (kid_tag i) m)) (set_kids (<[i := Some k']> (s_kids s)) s))
                (rstep (kid_kind i) (kid_prefix i) RRecv k)
          | [], LEnd => Some s     (* closed: nil, nothing is sent *)
          | [], _ => None
          end
      | _, _ => None
      end
  | AStep =>
      match s_loc s with
      | ASend m | ABye m =>
          if (length (s_ech s) <? acap)%nat
          then Some (ASt (s_kids s) (match s_loc s with ABye _ => AEnd | _ => ASelect end) (s_ech s ++ [m]) (s_got s) (s_ctx s) (s_cleared s))
          else None
      | _ => None
      end
  | ARecv =>
      match s_ech s with
      | m :: q => Some (ASt (s_kids s) (s_loc s) q (s_got s ++ [m]) (s_ctx s) (s_cleared s))
      | [] => None
      end
  end.
Fixpoint arun (ls : list alabel) (s : ast) : option ast :=
  match ls with
  | [] => Some s
  | l :: ls => match astep l s with Some s' => arun ls s' | None => None end
  end.
Definition ainit (pub pol jw : bool) : ast :=
  let kid (b : bool) : option rst := if b then Some rinit else None in ASt [kid pub; kid pol; kid jw] ASelect [] [] None false.
