(** * The public methods over the whole system
    Any number of calls of the methods of Authorizerd that judge credentials (authorizerd.go:38-60),
    running together with everything of [System]: the authorize calls they make are those of the
    system, and VerifyRoleCert checks the published policy caches. *)
From Verif Require Export System RoleCert.

(** The methods.  [v = true]: the Verify variant, which returns no principal. *)
Inductive apicall :=
| VRole (v : bool) (tok act res : str)                          (* authorizerd.go:346-354 *)
| VAccess (v : bool) (tok act res : str) (crt : option cert)    (* authorizerd.go:357-365 *)
| VHttp (v : bool) (r : http_request) (act res : str)           (* authorizerd.go:476-499 *)
| VCert (certs : list cert) (act res : str)                     (* VerifyRoleCert, authorizerd.go:502-548 *)
| VCertP (certs : list cert) (act res : str).                   (* AuthorizeRoleCert, authorizerd.go:551-554 *)

(** What an authorizer of the loop comes to: an error at once, or a call of authorize. *)
Inductive try := TFail (e : error) | TReq (q : request).

(** [ALoop c ts]: before the first of the tries [ts]; [AWait c i ts]: inside call [i] of authorize,
    [ts] still to come; [ADom c ds e]: in the loop of VerifyRoleCert before the first of the domains
    [ds], [e] the last error; [ACheck c ds k]: inside CheckPolicy [k]; [ARet c r]: returned. *)
Inductive atask :=
| AIdle
| ALoop (c : apicall) (ts : list try)
| AWait (c : apicall) (i : nat) (ts : list try)
| ADom (c : apicall) (ds : list str) (e : error)
| ACheck (c : apicall) (ds : list str) (k : chk)
| ARet (c : apicall) (r : outcome (option principal)).

Section api.
  Context (K : crypto) (X : jwt_ext) {O : Type} (U : unicode) (parse : str -> option (verifier K)).

  (** [v_rc]: enableRoleCert; [v_pfx]: roleCertURIPrefix. *)
  Record vconf := VConf { v_sys : @sconf O; v_rc : bool; v_pfx : str }.

  (** The authorizers in the order of initAuthorizers, authorizerd.go:217-263 (the first is never
      right and getting the token never panics, so those branches do not occur). *)
  Definition http_tries (cf : vconf) (r : http_request) (act res : str) : list try :=
    (if v_rc cf then [match authorize_role_cert with Err e => TFail e | _ => TFail (ErrMsg "") end] else []) ++
    (if z_access (s_z (v_sys cf)) then
       [match extract_token (h_authz r) with
        | Ok tok => TReq (Req MAccess tok act res (h_query r) (match h_tls r with Some (ct :: _) => Some ct | _ => None end))
        | Err e => TFail e
        | Panic => TFail (ErrMsg "")
        end]
     else []) ++
    (if z_role (s_z (v_sys cf)) then [TReq (Req MRole (h_role r) act res (h_query r) None)] else []).

  (** What a successful method returns: a principal or only the absence of an error. *)
  Definition reply_of (c : apicall) (p : principal) : option principal :=
    match c with VRole false _ _ _ | VAccess false _ _ _ _ | VHttp false _ _ _ => Some p | _ => None end.

  Definition authorize_role_cert_ret : outcome (option principal) := let! p := authorize_role_cert in Ok (Some p).
  (** Entry of a method.  [order]: the order in which the map of VerifyRoleCert will be visited. *)
  Definition enter (cf : vconf) (c : apicall) (order : list str) : atask :=
    match c with
    | VRole _ tok act res => ALoop c [TReq (Req MRole tok act res [] None)]
    | VAccess _ tok act res crt => ALoop c [TReq (Req MAccess tok act res [] crt)]
    | VHttp _ r act res => ALoop c (http_tries cf r act res)
    | VCert certs act res =>
        if z_policy (s_z (v_sys cf)) then
          if bool_decide (cert_roles (v_pfx cf) certs = ∅) then ARet c (Err (ErrMsg "invalid role certificate"))
          else ADom c order (ErrMsg "")
        else ARet c (Ok None)
    | VCertP _ _ _ => ARet c authorize_role_cert_ret
    end.
  Definition order_ok (cf : vconf) (c : apicall) (order : list str) : Prop :=
    match c with VCert certs _ _ => valid_order (v_pfx cf) certs order | _ => True end.

  Record api := Api { a_sys : sys K; a_tasks : list atask }.
  Definition set_at (a : nat) (t : atask) (s : api) : api := Api (a_sys s) (<[a := t]> (a_tasks s)).

  Inductive alabel :=
  | ASys (l : @ylabel K O)                      (* the rest of the system goes on *)
  | AEnter (a : nat) (c : apicall) (order : list str)
  | ACall (a i : nat) (q : request)             (* the next authorizer calls authorize, call number [i] *)
  | ANext (a : nat)                             (* it fails without that, or there is none *)
  | ABack (a : nat)                             (* authorize returns *)
  | ALoad (a : nat)                             (* CheckPolicy starts *)
  | AStep (a : nat) (l : PolicyCheck.label)     (* it goes on *)
  | AEnd (a : nat).                             (* it returns *)

  (** Calls of authorize come from the methods only. *)
  Definition no_call (l : @ylabel K O) : bool := match l with YAuth _ (ZCall _ _ _) => false | _ => true end.

  Inductive astep (cf : vconf) : alabel -> api -> api -> Prop :=
  | P_sys s l y : ystep K X U parse (v_sys cf) l (a_sys s) y -> no_call l = true -> astep cf (ASys l) s (Api y (a_tasks s))
  | P_enter s a c order : a_tasks s !! a = Some AIdle -> order_ok cf c order -> astep cf (AEnter a c order) s (set_at a (enter cf c order) s)
  | P_call s a i c q ts y : a_tasks s !! a = Some (ALoop c (TReq q :: ts)) ->
      ystep K X U parse (v_sys cf) (YAuth K (ZCall K i q)) (a_sys s) y ->
      astep cf (ACall a i q) s (Api y (<[a := AWait c i ts]> (a_tasks s)))
  | P_fail s a c e ts : a_tasks s !! a = Some (ALoop c (TFail e :: ts)) -> astep cf (ANext a) s (set_at a (ALoop c ts) s)
  | P_none s a c : a_tasks s !! a = Some (ALoop c []) -> astep cf (ANext a) s (set_at a (ARet c (Err ErrInvalidCredentials)) s)
  | P_back s a i c q r ts : a_tasks s !! a = Some (AWait c i ts) -> z_tasks (y_auth K (a_sys s)) !! i = Some (CDone q r) ->
      astep cf (ABack a) s
        (set_at a match r with
                  | Ok p => ARet c (Ok (reply_of c p))
                  | Err e => match c with VHttp _ _ _ _ => ALoop c ts | _ => ARet c (Err e) end
                  | Panic => ARet c Panic
                  end s)
  | P_load s a certs act res d ds e ob roles : a_tasks s !! a = Some (ADom (VCert certs act res) (d :: ds) e) ->
      y_objs K (a_sys s) !! y_cur K (a_sys s) = Some ob -> roles = default [] (cert_roles (v_pfx cf) certs !! d) ->
      astep cf (ALoad a) s
        (set_at a (ACheck (VCert certs act res) ds
                     (Chk (y_cur K (a_sys s)) d roles act res (start roles (g_view (now K (a_sys s)) (c_g ob)) false))) s)
  | P_step s a c ds l k ob k' : a_tasks s !! a = Some (ACheck c ds k) -> check_label l = true -> y_objs K (a_sys s) !! k_obj k = Some ob ->
      run U (k_dom k) (k_roles k) (k_act k) (k_res k) [EnvMutate 0%nat (g_view (now K (a_sys s)) (c_g ob)); l] (k_st k) = Some k' ->
      astep cf (AStep a l) s (set_at a (ACheck c ds (Chk (k_obj k) (k_dom k) (k_roles k) (k_act k) (k_res k) k')) s)
  | P_end s a c ds k r : a_tasks s !! a = Some (ACheck c ds k) -> returned (k_st k) r ->
      astep cf (AEnd a) s
        (set_at a match r with Ok _ => ARet c (Ok None) | Err e => ADom c ds e | Panic => ARet c Panic end s)
  | P_done s a c e : a_tasks s !! a = Some (ADom c [] e) -> astep cf (AEnd a) s (set_at a (ARet c (Err e)) s).

  Inductive arun (cf : vconf) (s0 : api) : list alabel -> api -> Prop :=
  | A_nil : arun cf s0 [] s0
  | A_snoc ls l s s' : arun cf s0 ls s -> astep cf l s s' -> arun cf s0 (ls ++ [l]) s'.
  (** [m] method calls to come. *)
  Definition ainit (y : sys K) (m : nat) : api := Api y (replicate m AIdle).
End api.
