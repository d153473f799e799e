(** * The whole system
    The authorizer, the key daemons, the policy fetchers, Update, the expired hook and
    CheckPolicyRoles running together: each part is the machine of its own file, and what a part
    took from its surroundings as an arbitrary input is here taken from the other parts.

    Simplifications: Verify of a downloaded policy looks up both keys at one moment (the machine of
    the fetcher does the same); a goroutine of Update may use the answer of any finished call on its
    fetcher, and a hook goroutine that of any fetcher, not only of the call it made. *)
From Verif Require Export Fetcher PubKey Jwk PolicyCheckFacts PolicyUpdateFacts Authorizer.

(** A CheckPolicyRoles call in progress: the cache it loaded (policy/daemon.go:236), its arguments
    (authorizerd.go:454) and the goroutines, whose heap holds that cache only. *)
Record chk := Chk { k_obj : nat; k_dom : str; k_roles : list str; k_act : str; k_res : str; k_st : PolicyCheck.st }.

Section system.
  Context (K : crypto) (X : jwt_ext) {O : Type} (U : unicode) (parse : str -> option (verifier K)).

  (** The configurations of the parts; [s_f]: one fetcher per configured domain. *)
  Record sconf := SConf { s_z : @zconf O; s_p : pconf; s_j : jconf; s_f : list fconf }.

  (** [y_upd]: calls of Update; their [u_cur] is not used, the published caches are [y_objs] with
      the hook goroutines working on each (policy/daemon.go:187-192); [y_cur]: index of the one
      p.rolePolicies points to; [y_chk]: the check of each authorize call. *)
  Record sys := Sys {
    y_auth : zst; y_keys : @pst (verifier K); y_jwk : @jst key; y_fetch : list fst_;
    y_upd : list ust; y_objs : list cst; y_cur : nat; y_chk : list (option chk) }.
  Definition now (s : sys) : time := z_clock (y_auth s).
  (** The providers handed to the processors, authorizerd.go:159-207 *)
  Definition keys_now (cf : sconf) (s : sys) : keys K :=
    Keys K (Some (get_pub_key (y_keys s))) (Some (get_key (s_j cf) (y_jwk s))).

  Definition set_auth (z : zst) (s : sys) := Sys z (y_keys s) (y_jwk s) (y_fetch s) (y_upd s) (y_objs s) (y_cur s) (y_chk s).
  Definition set_keys (k : @pst (verifier K)) (s : sys) := Sys (y_auth s) k (y_jwk s) (y_fetch s) (y_upd s) (y_objs s) (y_cur s) (y_chk s).
  Definition set_jwk (j : @jst key) (s : sys) := Sys (y_auth s) (y_keys s) j (y_fetch s) (y_upd s) (y_objs s) (y_cur s) (y_chk s).
  Definition set_fetch (d : nat) (f : fst_) (s : sys) :=
    Sys (y_auth s) (y_keys s) (y_jwk s) (<[d := f]> (y_fetch s)) (y_upd s) (y_objs s) (y_cur s) (y_chk s).
  Definition set_upd (n : nat) (u : ust) (s : sys) :=
    Sys (y_auth s) (y_keys s) (y_jwk s) (y_fetch s) (<[n := u]> (y_upd s)) (y_objs s) (y_cur s) (y_chk s).
  Definition set_obj (o : nat) (c : cst) (s : sys) :=
    Sys (y_auth s) (y_keys s) (y_jwk s) (y_fetch s) (y_upd s) (<[o := c]> (y_objs s)) (y_cur s) (y_chk s).
  Definition publish (c : cst) (s : sys) :=
    Sys (y_auth s) (y_keys s) (y_jwk s) (y_fetch s) (y_upd s) (y_objs s ++ [c]) (length (y_objs s)) (y_chk s).
  Definition set_chk (i : nat) (k : chk) (s : sys) :=
    Sys (y_auth s) (y_keys s) (y_jwk s) (y_fetch s) (y_upd s) (y_objs s) (y_cur s) (<[i := Some k]> (y_chk s)).

  Inductive ylabel :=
  | YAuth (l : @zlabel K O)                            (* authorize, the clock *)
  | YKey (l : plabel)                                  (* the key daemon *)
  | YJwk (l : @jlabel key)                             (* the JWK daemon *)
  | YSend (d i : nat)                                  (* call [i] on fetcher [d] goes on *)
  | YReply (d i : nat) (r : response signed_policy)    (* the server answers it *)
  | YUpd (n : nat) (l : ulabel)                        (* Update [n] goes on; UFinish publishes *)
  | YTake (n w c : nat) (script : list raw)            (* its goroutine [w] gets the answer of call [c] *)
  | YHook                                              (* the expired hook starts, policy/daemon.go:189-192 *)
  | YObj (o : nat) (l : clabel)                        (* a hook goroutine goes on; expired entries go *)
  | YObjTake (o w d c : nat) (script : list raw)       (* it gets the answer of call [c] on fetcher [d] *)
  | YLoad (i : nat)                                    (* the check of call [i] loads the pointer *)
  | YChk (i : nat) (l : PolicyCheck.label).            (* it goes on *)

  (** The clock in the labels of the key daemon is the clock. *)
  Definition key_time (l : plabel) : option time :=
    match l with PBegin _ t | PResp _ _ t => Some t | _ => None end.
  (** The provider answers of ZParse are those of the daemons; ZPolicy takes the result of the check. *)
  Definition auth_ok (cf : sconf) (s : sys) (l : @zlabel K O) : Prop :=
    match l with
    | ZParse _ _ ks => ks = keys_now cf s
    | ZPolicy _ i r => exists k, y_chk s !! i = Some (Some k) /\ returned (k_st k) r
    | _ => True
    end.
  (** What call [c] on fetcher [d] has returned, as fetchAndCachePolicy uses it (policy/daemon.go:299-314). *)
  Definition answer_of (s : sys) (d c : nat) : option (time * document) :=
    match y_fetch s !! d with
    | Some f =>
        match fs_calls f !! c with
        | Some (FRet sp e) => match fetched_policy sp e with Ok r => Some r | _ => None end
        | _ => None
        end
    | None => None
    end.
  (** Inputs other than a policy: an error, or the clock. *)
  Definition input_ok (s : sys) (inp : cinput) : Prop :=
    match inp with IFetch (Ok _) => False | IFetch _ => True | ITime t => t = now s end.
  Definition check_label (l : PolicyCheck.label) : bool :=
    match l with EnvSwap _ _ | EnvMutate _ _ => false | _ => true end.

  Inductive ystep (cf : sconf) : ylabel -> sys -> sys -> Prop :=
  | S_auth s l z : zstep K X (s_z cf) l (y_auth s) = Some z -> auth_ok cf s l -> ystep cf (YAuth l) s (set_auth z s)
  | S_key s l k : pstep parse (s_p cf) l (y_keys s) = Some k -> (forall t, key_time l = Some t -> t = now s) ->
      ystep cf (YKey l) s (set_keys k s)
  | S_jwk s l j : jstep (s_j cf) l (y_jwk s) = Some j -> ystep cf (YJwk l) s (set_jwk j s)
  | S_send s d i fc f f' : s_f cf !! d = Some fc -> y_fetch s !! d = Some f ->
      fstep K fc (FBegin i (now s)) f = Some f' -> ystep cf (YSend d i) s (set_fetch d f' s)
  | S_reply s d i r fc f f' : s_f cf !! d = Some fc -> y_fetch s !! d = Some f ->
      fstep K fc (FResp i r (now s) (get_pub_key (y_keys s))) f = Some f' -> ystep cf (YReply d i r) s (set_fetch d f' s)
  | S_upd s n l u u' : y_upd s !! n = Some u -> ustep U l u = Some u' ->
      (forall w inp, l = UWork w inp -> input_ok s inp) -> (l = UFinish -> u_ret u' <> Some (Ok tt)) ->
      ystep cf (YUpd n l) s (set_upd n u' s)
  | S_take s n w c script exp doc u u' : y_upd s !! n = Some u -> answer_of s w c = Some (exp, doc) ->
      script_of U doc script -> ustep U (UWork w (IFetch (Ok (Job exp (now s) script)))) u = Some u' ->
      ystep cf (YTake n w c script) s (set_upd n u' s)
  | S_publish s n u u' : y_upd s !! n = Some u -> ustep U UFinish u = Some u' -> u_ret u' = Some (Ok tt) ->
      ystep cf (YUpd n UFinish) s (publish (CSt (u_cur u') []) (set_upd n u' s))
  | S_hook s c : y_objs s !! y_cur s = Some c ->
      ystep cf YHook s (set_obj (y_cur s) (CSt (c_g c) (c_work c ++ [PolicySimplify.CIdle])) s)
  | S_obj s o l c c' : y_objs s !! o = Some c -> cstep U l c = Some c' ->
      (forall w inp, l = CWork w inp -> input_ok s inp) ->
      (forall k, l = CDrop k -> g_get (now s) k (c_g c) = None) ->
      ystep cf (YObj o l) s (set_obj o c' s)
  | S_objtake s o w d cl script exp doc c c' : y_objs s !! o = Some c -> answer_of s d cl = Some (exp, doc) ->
      script_of U doc script -> cstep U (CWork w (IFetch (Ok (Job exp (now s) script)))) c = Some c' ->
      ystep cf (YObjTake o w d cl script) s (set_obj o c' s)
  | S_load s i q p a r c : z_tasks (y_auth s) !! i = Some (CCheck q p a r) -> y_chk s !! i = Some None ->
      y_objs s !! y_cur s = Some c ->
      ystep cf (YLoad i) s
        (set_chk i (Chk (y_cur s) (pr_domain p) (pr_roles p) a r (start (pr_roles p) (g_view (now s) (c_g c)) false)) s)
  | S_chk s i l k c c' : y_chk s !! i = Some (Some k) -> check_label l = true -> y_objs s !! k_obj k = Some c ->
      run U (k_dom k) (k_roles k) (k_act k) (k_res k) [EnvMutate 0%nat (g_view (now s) (c_g c)); l] (k_st k) = Some c' ->
      ystep cf (YChk i l) s (set_chk i (Chk (k_obj k) (k_dom k) (k_roles k) (k_act k) (k_res k) c') s).

  (** An execution: the labels so far, oldest first. *)
  Inductive yrun (cf : sconf) (s0 : sys) : list ylabel -> sys -> Prop :=
  | Y_nil : yrun cf s0 [] s0
  | Y_snoc ls l s s' : yrun cf s0 ls s -> ystep cf l s s' -> yrun cf s0 (ls ++ [l]) s'.

  (** New, with any numbers of calls to come: [n] of authorize, [nk] and [nj] key updates, [nu]
      Updates, [calls d] on fetcher [d] ([true]: FetchWithRetry). *)
  Definition yinit (cf : sconf) (t0 : time) (n nk nj nu : nat) (calls : nat -> list bool) : sys :=
    Sys (zinit n t0) (pinit nk) (jinit nj) (map (fun d => finit (calls d)) (seq 0 (length (s_f cf))))
      (replicate nu (uinit ∅ (length (s_f cf)) false)) [CSt ∅ []] 0 (replicate n None).
End system.
