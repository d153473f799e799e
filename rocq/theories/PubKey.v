(** * The public key daemon (pubkey/daemon.go) *)
From Verif Require Export Base Gache Fetcher.

(** A list of PublicKey pointers as decoded from JSON (pubkey/sys_auth_config.go:20-31);
    a JSON null element is a nil pointer. *)
Notation key_entry := (option (str * str)).
Notation key_list := (list (option (str * str))).

(** confCache, pubkey/daemon.go:65-68: ETag and the decoded configuration (nil for a
    null body). *)
Notation conf_cache := (str * option (list (option (str * str))))%type.

(** AthenzEnv as the key of the ETag cache, pubkey/daemon.go:76-82 *)
Definition zts_name : str := B "zts".
Definition zms_name : str := B "zms".

Section pubkey.
  (** The verifier made from the text of a key: YBase64 decoding followed by
      authcore.NewVerifier (pubkey/daemon.go:173-182); [None] if either fails. *)
  Context {V : Type} (parse : str -> option V).

  (** The loop over the downloaded list, pubkey/daemon.go:171-185: fills a fresh map,
      a later entry replaces an earlier one with the same id, the first bad entry ends it. *)
  Fixpoint decode_keys (l : key_list) (cm : gmap str V) : outcome (gmap str V) :=
    match l with
    | [] => Ok cm
    | None :: _ => Panic
    | Some (id, key) :: l =>
        match parse key with
        | None => Err (ErrMsg "error decoding key")
        | Some v => decode_keys l (<[id := v]> cm)
        end
    end.

  (** One run of updConf (pubkey/daemon.go:158-199).
      [PSent t]: request sent, [t] is the answer of eTagCache.Get (:244);
      [PStore cm todo]: inside cm.Range (:186-189);
      [PSweep cm todo]: inside cache.Range (:190-196). *)
  Inductive ptask :=
  | PIdle
  | PSent (t : option conf_cache)
  | PStore (cm todo : gmap str V)
  | PSweep (cm : gmap str V) (todo : gset str)
  | PDone (e : option error)
  | PPanic.

  (** The daemon: the two key maps, the ETag cache, and the updConf runs.  Update
      (pubkey/daemon.go:153-224) number [n] consists of the runs [2n] (ZTS) and [2n+1]
      (ZMS), started together and joined by the errgroup. *)
  Record pst := PSt {
    p_zts : gmap str V; p_zms : gmap str V; p_etags : gache conf_cache; p_tasks : list ptask }.
  Definition is_zts (i : nat) : bool := Nat.even i.
  Definition env_name (z : bool) : str := if z then zts_name else zms_name.
  Definition keys_at (z : bool) (s : pst) : gmap str V := if z then p_zts s else p_zms s.
  Definition with_keys (z : bool) (m : gmap str V) (s : pst) : pst :=
    if z then PSt m (p_zms s) (p_etags s) (p_tasks s) else PSt (p_zts s) m (p_etags s) (p_tasks s).
  Definition with_task (i : nat) (t : ptask) (s : pst) : pst :=
    PSt (p_zts s) (p_zms s) (p_etags s) (<[i := t]> (p_tasks s)).
  Definition with_etags (g : gache conf_cache) (s : pst) : pst := PSt (p_zts s) (p_zms s) g (p_tasks s).

  Record pconf := PConf { pc_etag_expiry : duration; pc_url_ok : bool }.

  (** fetchPubKeyEntries from the response on and the decoding loop
      (pubkey/daemon.go:250-292, 161-185): the next phase, and whether the answer
      replaces the remembered entity. *)
  Definition respond (t : option conf_cache) (r : response key_list) : ptask * option conf_cache :=
    match r with
    | Failed e => (PDone (Some e), None)
    | Response status etag b =>
        if status =? 304 then (match t with Some _ => PDone None | None => PPanic end, None)
        else if negb (status =? 200) then (PDone (Some ErrFetchAthenzPubkey), None)
        else match b with
        | BadBody => (PDone (Some (ErrMsg "json format not correct")), None)
        | NullBody => (PPanic, if bool_decide (etag = []) then None else Some (etag, None))
        | Doc l =>
            (match decode_keys l ∅ with
             | Ok cm => PStore cm cm
             | Err e => PDone (Some e)
             | Panic => PPanic
             end, if bool_decide (etag = []) then None else Some (etag, Some l))
        end
    end.

  (** Steps.  [PBegin i now]: read the ETag cache and send the request; [PResp i r now]:
      the answer arrives and is decoded; [PPut i k] / [PVisit i k]: one callback of the two
      Range loops, in any order of the keys; [PNext i]: the loop ends. *)
  Inductive plabel :=
  | PBegin (i : nat) (now : time)
  | PResp (i : nat) (r : response key_list) (now : time)
  | PPut (i : nat) (k : str)
  | PVisit (i : nat) (k : str)
  | PNext (i : nat).
  Definition task_of (l : plabel) : nat :=
    match l with PBegin i _ | PResp i _ _ | PPut i _ | PVisit i _ | PNext i => i end.

  Definition pstep (cf : pconf) (l : plabel) (s : pst) : option pst :=
    match l with
    | PBegin i now =>
        match p_tasks s !! i with
        | Some PIdle => Some (with_task i
            (if pc_url_ok cf then PSent (g_get now (env_name (is_zts i)) (p_etags s))
             else PDone (Some (ErrMsg "error creating get pubkey request"))) s)
        | _ => None
        end
    | PResp i r now =>
        match p_tasks s !! i with
        | Some (PSent t) =>
            let '(t', c) := respond t r in
            let g := match c with
                     | Some c => g_set now (env_name (is_zts i)) c (pc_etag_expiry cf) (p_etags s)
                     | None => p_etags s
                     end in
            Some (with_task i t' (with_etags g s))
        | _ => None
        end
    | PPut i k =>
        match p_tasks s !! i with
        | Some (PStore cm todo) =>
            match todo !! k with
            | Some v => Some (with_task i (PStore cm (delete k todo))
                          (with_keys (is_zts i) (<[k := v]> (keys_at (is_zts i) s)) s))
            | None => None
            end
        | _ => None
        end
    | PVisit i k =>
        match p_tasks s !! i with
        | Some (PSweep cm todo) =>
            if decide (k ∈ todo) then
              Some (with_task i (PSweep cm (todo ∖ {[k]}))
                 (with_keys (is_zts i)
                    (match cm !! k with Some _ => keys_at (is_zts i) s | None => delete k (keys_at (is_zts i) s) end) s))
            else None
        | _ => None
        end
    | PNext i =>
        match p_tasks s !! i with
        | Some (PStore cm todo) =>
            if decide (todo = ∅) then Some (with_task i (PSweep cm (dom (keys_at (is_zts i) s))) s) else None
        | Some (PSweep cm todo) =>
            if decide (todo = ∅) then Some (with_task i (PDone None) s) else None
        | _ => None
        end
    end.

  Fixpoint prun (cf : pconf) (ls : list plabel) (s : pst) : option pst :=
    match ls with
    | [] => Some s
    | l :: ls => match pstep cf l s with Some s' => prun cf ls s' | None => None end
    end.

  (** New, pubkey/daemon.go:85-101, and [n] calls of Update. *)
  Definition pinit (n : nat) : pst := PSt ∅ ∅ ∅ (replicate (2 * n) PIdle).

  (** The result of Update number [n] (pubkey/daemon.go:201-223); [None] while it runs. *)
  Definition update_result (s : pst) (n : nat) : option (outcome unit) :=
    match p_tasks s !! (2 * n)%nat, p_tasks s !! (2 * n + 1)%nat with
    | Some PPanic, _ | _, Some PPanic => Some Panic
    | Some (PDone None), Some (PDone None) => Some (Ok tt)
    | Some (PDone (Some e)), Some (PDone _) | Some (PDone None), Some (PDone (Some e)) => Some (Err e)
    | _, _ => None
    end.

  (** getPubKey, pubkey/daemon.go:294-310 *)
  Definition get_pub_key (s : pst) (e : env) (id : str) : option V :=
    match e with EnvZTS => p_zts s !! id | EnvZMS | EnvOther _ => p_zms s !! id end.
End pubkey.
