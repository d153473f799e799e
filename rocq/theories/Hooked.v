(** * The expired hook
    policy/daemon.go:187-192 with gache v1.2.8 (third party; semantics trusted), beside the whole system of
    System.v, where a hook may start at any time and use the answer of any fetcher.

    Whoever comes upon an expired entry (Get, DeleteExpired on each tick, ToRawMap) deletes it and sends its key to
    the channel of the cache; the goroutine StartExpired has started receives the keys and starts the hook for each
    in a new goroutine; the hook looks up the fetcher of the domain in the key and refreshes the cache
    p.rolePolicies points to by then.

    Simplifications: the check and the deletion of an expired entry are one step; the channel has no bound, so whoever
    sends a key does not wait; the goroutine of StartExpired may end at any time (its context has ended, or the next
    Update has called Stop, after which its select may still receive keys for a while). *)
From Verif Require Export System.

(** strings.Split(key, ":role.")[0] in the hook, policy/daemon.go:191 *)
Definition hook_domain (key : str) : str := match split_n2 (B ":role.") key with d :: _ => d | [] => [] end.
(** p.fetchers[domain], policy/daemon.go:191 (the map New makes, :88-103): the index of the fetcher.  [None]: the nil
    interface, on which fetchAndCachePolicy calls FetchWithRetry (:300) and panics. *)
Fixpoint fetcher_of (doms : list str) (d : str) : option nat :=
  match doms with
  | [] => None
  | x :: doms => if bool_decide (x = d) then Some 0%nat else S <$> fetcher_of doms d
  end.

(** The goroutine of a cache: [EOff] not started (the cache New makes, policy/daemon.go:77-80). *)
Inductive ephase := EOff | EOn | EEnd.
(** [e_queue]: the keys sent and not received. *)
Record expirer := Expirer { e_phase : ephase; e_queue : list str }.

Section hooked.
  Context (K : crypto) (X : jwt_ext) {O : Type} (U : unicode) (parse : str -> option (verifier K)) (cf : @sconf O) (doms : list str).
  (** [h_exp]: one for each published cache; [h_pend]: keys whose hook has been started and has done nothing yet;
      [h_jobs]: [(o, w, d)] if goroutine [w] on cache [o] is a hook for fetcher [d]; [h_down]: the process has crashed. *)
  Record hst := HSt { h_sys : sys K; h_exp : list expirer; h_pend : list str; h_jobs : list (nat * nat * nat); h_down : bool }.
  Inductive hlabel :=
  | HSys (l : @ylabel K O)       (* anything else *)
  | HPublish (n : nat)           (* Update [n] starts the goroutine of its cache and publishes it *)
  | HFind (o : nat) (k : str)    (* somebody comes upon the expired entry [k] of cache [o] *)
  | HTake (o : nat) (k : str)    (* the goroutine of cache [o] receives [k] and starts the hook *)
  | HEnd (o : nat)               (* it ends *)
  | HRun (k : str)               (* the hook for [k] looks up the fetcher and the cache in use *)
  | HCrash (k : str).            (* there is no such fetcher *)
  (** Steps of the system that are not about the hook; a hook uses the answers of its own fetcher. *)
  Definition ordinary (s : hst) (l : @ylabel K O) : Prop :=
    match l with
    | YHook _ => False
    | YObj _ _ (CDrop _) => False
    | YObjTake _ o w d _ _ => (o, w, d) ∈ h_jobs s
    | _ => True
    end.
  Inductive hstep : hlabel -> hst -> hst -> Prop :=
  | H_sys s l y : h_down s = false -> ordinary s l -> ystep K X U parse cf l (h_sys s) y ->
      length (y_objs K y) = length (y_objs K (h_sys s)) ->
      hstep (HSys l) s (HSt y (h_exp s) (h_pend s) (h_jobs s) false)
  | H_publish s n y : h_down s = false -> ystep K X U parse cf (YUpd K n UFinish) (h_sys s) y ->
      length (y_objs K y) <> length (y_objs K (h_sys s)) ->
      hstep (HPublish n) s (HSt y (h_exp s ++ [Expirer EOn []]) (h_pend s) (h_jobs s) false)
  | H_find s o k c e x y : h_down s = false -> y_objs K (h_sys s) !! o = Some c -> c_g c !! k = Some e ->
      g_valid (now K (h_sys s)) e = false -> h_exp s !! o = Some x ->
      ystep K X U parse cf (YObj K o (CDrop k)) (h_sys s) y ->
      hstep (HFind o k) s (HSt y (<[o := Expirer (e_phase x) (e_queue x ++ [k])]> (h_exp s)) (h_pend s) (h_jobs s) false)
  | H_take s o k q1 q2 : h_down s = false -> h_exp s !! o = Some (Expirer EOn (q1 ++ k :: q2)) ->
      hstep (HTake o k) s (HSt (h_sys s) (<[o := Expirer EOn (q1 ++ q2)]> (h_exp s)) (h_pend s ++ [k]) (h_jobs s) false)
  | H_end s o q : h_down s = false -> h_exp s !! o = Some (Expirer EOn q) ->
      hstep (HEnd o) s (HSt (h_sys s) (<[o := Expirer EEnd q]> (h_exp s)) (h_pend s) (h_jobs s) false)
  | H_run s k p1 p2 d c y : h_down s = false -> h_pend s = p1 ++ k :: p2 -> fetcher_of doms (hook_domain k) = Some d ->
      y_objs K (h_sys s) !! y_cur K (h_sys s) = Some c -> ystep K X U parse cf (YHook K) (h_sys s) y ->
      hstep (HRun k) s (HSt y (h_exp s) (p1 ++ p2) ((y_cur K (h_sys s), length (c_work c), d) :: h_jobs s) false)
  | H_crash s k p1 p2 : h_down s = false -> h_pend s = p1 ++ k :: p2 -> fetcher_of doms (hook_domain k) = None ->
      hstep (HCrash k) s (HSt (h_sys s) (h_exp s) (p1 ++ p2) (h_jobs s) true).
  (** Labels so far, oldest first. *)
  Inductive hrun (s0 : hst) : list hlabel -> hst -> Prop :=
  | HR_nil : hrun s0 [] s0
  | HR_snoc ls l s s' : hrun s0 ls s -> hstep l s s' -> hrun s0 (ls ++ [l]) s'.
  (** After New. *)
  Definition hinit (y : sys K) : hst := HSt y [Expirer EOff []] [] [] false.
  (** What the system did. *)
  Definition hsys1 (l : hlabel) : option (@ylabel K O) :=
    match l with
    | HSys l => Some l
    | HPublish n => Some (YUpd K n UFinish)
    | HFind o k => Some (YObj K o (CDrop k))
    | HRun _ => Some (YHook K)
    | HTake _ _ | HEnd _ | HCrash _ => None
    end.
  Definition hsys (ls : list hlabel) : list (@ylabel K O) := omap hsys1 ls.
End hooked.
