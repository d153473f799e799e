(** * policyd.CheckPolicyRoles as a concurrent machine (policy/daemon.go:221-290)

    Goroutines: the caller (draining the result channel), the dispatcher, and one
    worker per requested role.  The environment may at any time cancel the
    caller's context, swap in a new policy cache (Update, policy/daemon.go:199-200)
    or change the contents of an existing cache (the expired hook and expiry).

    A cache is seen through [Get]: a finite map from keys to assertion slices;
    an expired entry is absent.  Simplification: slices are values.  A deny is
    prepended into a fresh array (policy/daemon.go:374); an allow is appended past
    the length (:372), so a published slice changes only if two concurrent
    refreshes append to the same array, and then one allow replaces another. *)
From Verif Require Export Assertion.

Definition ptr := nat.

(** Worker program counter (goroutine of policy/daemon.go:241-270). *)
Inductive wst :=
| WIdle                               (* not spawned yet *)
| WInit                               (* before the first select, :243 *)
| WGet                                (* before rp.Get, :248 *)
| WScan (l : list assertion)          (* loop head with the remaining slice, :253-256 *)
| WEval (a : assertion) (l : list assertion)  (* before the match test, :261-263 *)
| WSend (e : option error)            (* before ch <- roleEffect, :245 :257 :264 *)
| WRet                                (* before the deferred wg.Done, :242 *)
| WFin.

(** Dispatcher (goroutine of policy/daemon.go:230-273). *)
Inductive dst :=
| DInit                               (* before wg.Add and atomic.LoadPointer, :234-237 *)
| DSpawn (k : nat)                    (* k workers spawned, :239 *)
| DWait                               (* wg.Wait, :272 *)
| DClosed.                            (* deferred close(ech) done, :231 *)

(** Caller (policy/daemon.go:275-289). *)
Inductive mst :=
| MLoop (acc : list str)              (* for re := range ech, :276 *)
| MRtn (r : outcome (list str))       (* return, before the deferred cancel(), :228 *)
| MDone (r : outcome (list str)).

(** Shared state of the goroutines. *)
Record st := St {
  s_heap : gmap ptr cache;            (* every policy cache object *)
  s_cur : ptr;                        (* p.rolePolicies *)
  s_cancel : bool;                    (* cctx is done *)
  s_rp : option ptr;                  (* the dispatcher's local rp, captured by the workers *)
  s_disp : dst;
  s_wg : nat;                         (* WaitGroup counter *)
  s_work : list wst;
  s_chan : list (str * option error); (* ech, capacity len(roles) *)
  s_closed : bool;
  s_main : mst;
  s_panic : bool;                     (* send on / close of a closed channel *)
  s_reads : list (option (option (list assertion))) (* ghost: what each worker's Get returned *)
}.

Inductive label :=
| EnvCancel
| EnvSwap (p : ptr) (c : cache)
| EnvMutate (p : ptr) (c : cache)
| LLoad | LSpawn | LClose
| LWork (i : nat)
| LMain.

Definition is_env (l : label) : bool :=
  match l with EnvCancel | EnvSwap _ _ | EnvMutate _ _ => true | _ => false end.
Definition is_cancel (l : label) : bool := match l with EnvCancel => true | _ => false end.

Definition deref (h : gmap ptr cache) (p : ptr) : cache := default ∅ (h !! p).

Section request.
  Context (U : unicode) (domain : str) (roles : list str) (action resource : str).

  (** fmt.Sprintf("%s:role.%s", domain, role), policy/daemon.go:240 *)
  Definition role_key (role : str) : str := domain ++ B ":role." ++ role.

  (** policy/daemon.go:261-263 *)
  Definition mt (a : assertion) : bool := a_matches U a domain action resource.

  (** Entry of CheckPolicyRoles, policy/daemon.go:226-228 *)
  Definition init (h : gmap ptr cache) (cur : ptr) (cancelled : bool) : st :=
    {| s_heap := h; s_cur := cur; s_cancel := cancelled; s_rp := None; s_disp := DInit; s_wg := 0;
       s_work := replicate (length roles) WIdle; s_chan := []; s_closed := false;
       s_main := MLoop []; s_panic := false; s_reads := replicate (length roles) None |}.

  Definition set_work (s : st) (i : nat) (w : wst) : st :=
    let 'St h cu ca rp d wg wk ch cl m p rd := s in St h cu ca rp d wg (<[i := w]> wk) ch cl m p rd.
  Definition set_disp (s : st) (d : dst) : st :=
    let 'St h cu ca rp _ wg wk ch cl m p rd := s in St h cu ca rp d wg wk ch cl m p rd.
  Definition set_wg (s : st) (wg : nat) : st :=
    let 'St h cu ca rp d _ wk ch cl m p rd := s in St h cu ca rp d wg wk ch cl m p rd.
  Definition set_rp (s : st) (rp : option ptr) : st :=
    let 'St h cu ca _ d wg wk ch cl m p rd := s in St h cu ca rp d wg wk ch cl m p rd.
  Definition set_chan (s : st) (ch : list (str * option error)) : st :=
    let 'St h cu ca rp d wg wk _ cl m p rd := s in St h cu ca rp d wg wk ch cl m p rd.
  Definition set_closed (s : st) : st :=
    let 'St h cu ca rp d wg wk ch _ m p rd := s in St h cu ca rp d wg wk ch true m p rd.
  Definition set_main (s : st) (m : mst) : st :=
    let 'St h cu ca rp d wg wk ch cl _ p rd := s in St h cu ca rp d wg wk ch cl m p rd.
  Definition set_cancel (s : st) : st :=
    let 'St h cu _ rp d wg wk ch cl m p rd := s in St h cu true rp d wg wk ch cl m p rd.
  Definition set_panic (s : st) : st :=
    let 'St h cu ca rp d wg wk ch cl m _ rd := s in St h cu ca rp d wg wk ch cl m true rd.
  Definition set_read (s : st) (i : nat) (v : option (list assertion)) : st :=
    let 'St h cu ca rp d wg wk ch cl m p rd := s in St h cu ca rp d wg wk ch cl m p (<[i := Some v]> rd).
  Definition set_heap (s : st) (h : gmap ptr cache) (cu : ptr) : st :=
    let 'St _ _ ca rp d wg wk ch cl m p rd := s in St h cu ca rp d wg wk ch cl m p rd.

  (** One atomic step of worker [i]; its role is the i-th element of [roles]. *)
  Definition work_step (i : nat) (s : st) : option st :=
    match s_work s !! i, roles !! i with
    | Some w, Some role =>
        match w with
        | WIdle => None
        | WInit => Some (set_work s i (if s_cancel s then WSend (Some ErrCanceled) else WGet))
        | WGet =>
            match s_rp s with
            | Some p =>
                let v := deref (s_heap s) p !! role_key role in
                Some (set_work (set_read s i v) i
                        (match v with Some l => WScan l | None => WRet end))
            | None => None
            end
        | WScan [] => Some (set_work s i WRet)
        | WScan (a :: l) =>
            Some (set_work s i (if s_cancel s then WSend (Some ErrCanceled) else WEval a l))
        | WEval a l => Some (set_work s i (if mt a then WSend (a_effect a) else WScan l))
        | WSend e =>
            if s_closed s then Some (set_panic s)
            else if (length (s_chan s) <? length roles)%nat
                 then Some (set_work (set_chan s (s_chan s ++ [(role, e)])) i WRet)
                 else None
        | WRet => Some (set_wg (set_work s i WFin) (pred (s_wg s)))
        | WFin => None
        end
    | _, _ => None
    end.

  (** The caller: policy/daemon.go:276-289 and the deferred cancel :228. *)
  Definition main_step (s : st) : option st :=
    match s_main s with
    | MLoop acc =>
        match s_chan s with
        | (_, Some e) :: ch => Some (set_main (set_chan s ch) (MRtn (Err e)))
        | (role, None) :: ch => Some (set_main (set_chan s ch) (MLoop (acc ++ [role])))
        | [] => if s_closed s
                then Some (set_main s (MRtn (match acc with [] => Err ErrNoMatch | _ => Ok acc end)))
                else None
        end
    | MRtn r => Some (set_cancel (set_main s (MDone r)))
    | MDone _ => None
    end.

  (** The whole machine; [None] means the label is not enabled.  A panicking
      process takes no further step. *)
  Definition step (l : label) (s : st) : option st :=
    if s_panic s then None else
    match l with
    | EnvCancel => Some (set_cancel s)
    | EnvSwap p c =>
        match s_heap s !! p with
        | Some _ => None
        | None => Some (set_heap s (<[p := c]> (s_heap s)) p)
        end
    | EnvMutate p c =>
        match s_heap s !! p with
        | Some _ => Some (set_heap s (<[p := c]> (s_heap s)) (s_cur s))
        | None => None
        end
    | LLoad =>
        match s_disp s with
        | DInit => Some (set_disp (set_wg (set_rp s (Some (s_cur s))) (length roles)) (DSpawn 0))
        | _ => None
        end
    | LSpawn =>
        match s_disp s with
        | DSpawn k => if (k <? length roles)%nat
                      then Some (set_disp (set_work s k WInit) (DSpawn (S k)))
                      else Some (set_disp s DWait)
        | _ => None
        end
    | LClose =>
        match s_disp s with
        | DWait => if (s_wg s =? 0)%nat
                   then if s_closed s then Some (set_panic s) else Some (set_disp (set_closed s) DClosed)
                   else None
        | _ => None
        end
    | LWork i => work_step i s
    | LMain => main_step s
    end.

  Fixpoint run (ls : list label) (s : st) : option st :=
    match ls with
    | [] => Some s
    | l :: ls' => match step l s with Some s' => run ls' s' | None => None end
    end.

  (** CheckPolicyRoles returned [r] in state [s]. *)
  Definition returned (s : st) (r : outcome (list str)) : Prop := s_main s = MDone r.
  (** Every goroutine has finished and the caller has its answer. *)
  Definition quiescent (s : st) : Prop :=
    (exists r, s_main s = MDone r) /\ s_disp s = DClosed /\ Forall (fun w => w = WFin) (s_work s).
End request.

(** CheckPolicy, policy/daemon.go:216-219: the error part of the result. *)
Definition check_policy_result (r : outcome (list str)) : outcome unit :=
  match r with Ok _ => Ok tt | Err e => Err e | Panic => Panic end.
