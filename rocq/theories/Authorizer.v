(** * The authorizer (authorizerd.go): token authorization and its success cache *)
From Verif Require Export Gache Role Access.

Inductive mode := MRole | MAccess.

(** The arguments of authorize, authorizerd.go:367 *)
Record request := Req {
  q_mode : mode; q_tok : str; q_act : str; q_res : str; q_query : str; q_cert : option cert }.

(** principal and oAuthAccessToken, principal.go:34-46; [pr_client = None] for a role token. *)
Record principal := Principal {
  pr_name : str; pr_roles : list str; pr_domain : str; pr_issue : Z; pr_expiry : Z;
  pr_auth : list str; pr_client : option str }.
Definition with_auth (p : principal) (acc : list str) : principal :=
  Principal (pr_name p) (pr_roles p) (pr_domain p) (pr_issue p) (pr_expiry p) acc (pr_client p).

Section authorizer.
  Context (K : crypto) (X : jwt_ext) {O : Type}.

  (** The configuration New builds (authorizerd.go:128-215).  [z_role]/[z_access] = false: the
      processor is nil.  [z_trans = None]: no translator; the translator's result may depend on map
      iteration order, represented by [O]. *)
  Record zconf := ZConf {
    z_policy : bool; z_trans : option (O -> str -> str -> str -> str -> outcome (str * str));
    z_prefix : str; z_exp : duration; z_role : bool; z_access : bool; z_aconf : aconf }.
  (** What the key providers answer at some moment ([None]: nil provider). *)
  Record keys := Keys { ks_pub : option (provider K); ks_jwk : option (str -> str -> option key) }.

  (** The cache key, authorizerd.go:368-390 *)
  Definition cache_key (cf : zconf) (q : request) : str :=
    q_tok q ++
    (match q_cert q with Some c => B ":" ++ c_issuer c ++ B ":" ++ c_cn c | None => [] end) ++
    (if z_policy cf then
       B ":" ++ q_act q ++ B ":" ++ q_res q ++
       (match z_trans cf with
        | Some _ => match q_query q with [] => [] | _ => B ":" ++ q_query q end
        | None => []
        end)
     else []).
  (** authorizerd.go:379-381 *)
  Definition empty_params (cf : zconf) (q : request) : bool :=
    z_policy cf && (bool_decide (q_act q = []) || bool_decide (q_res q = [])).

  (** The switch over the mode, authorizerd.go:407-441: the principal of the validated token (its
      domain and roles are those the policy check gets). *)
  Definition process (cf : zconf) (ks : keys) (now : time) (q : request) : outcome principal :=
    match q_mode q with
    | MRole =>
        if z_role cf then
          let! t := parse_and_validate K (ks_pub ks) now (q_tok q) in
          Ok (Principal (rt_principal t) (rt_roles t) (rt_domain t) (unix_of (rt_time t)) (unix_of (rt_expiry t)) [] None)
        else Panic
    | MAccess =>
        if z_access cf then
          let! c := parse_access X (z_aconf cf) (ks_jwk ks) now (q_tok q) (q_cert q) in
          Ok (Principal (cl_sub c) (cl_scope c) (cl_aud c) (cl_iat c) (cl_exp c) [] (Some (cl_client c)))
        else Panic
    end.
  (** Translation and prefix, authorizerd.go:443-453 *)
  Definition target (cf : zconf) (o : O) (p : principal) (q : request) : outcome (str * str) :=
    let! ar := match z_trans cf with
               | Some tr => tr o (pr_domain p) (q_act q) (q_res q) (q_query q)
               | None => Ok (q_act q, q_res q)
               end in
    Ok (fst ar, z_prefix cf ++ snd ar).

  (** Any number of concurrent authorize calls (authorizerd.go:367-473) over the shared cache.
      [CLook]: before cache.Get; [CParse]: missed; [CTrans]: token validated; [CCheck]: inside
      CheckPolicyRoles; [CStore]: before SetWithExpire. *)
  Inductive ctask :=
  | CIdle
  | CLook (q : request)
  | CParse (q : request)
  | CTrans (q : request) (p : principal)
  | CCheck (q : request) (p : principal) (act res : str)
  | CStore (q : request) (p : principal)
  | CDone (q : request) (r : outcome principal).
  Record zst := ZSt { z_cache : gache principal; z_clock : time; z_tasks : list ctask }.
  (** [ZTick t]: the clock reaches [t].  [ZParse i ks]: the processor runs, the key providers
      answering as [ks].  [ZPolicy i r]: CheckPolicyRoles returns [r].  [ZPurge k]: an expired entry
      is removed (by Get or by StartExpired, authorizerd.go:303).  [ZClear]: Clear at shutdown
      (authorizerd.go:323). *)
  Inductive zlabel :=
  | ZTick (t : time)
  | ZCall (i : nat) (q : request)
  | ZLook (i : nat)
  | ZParse (i : nat) (ks : keys)
  | ZTrans (i : nat) (o : O)
  | ZPolicy (i : nat) (r : outcome (list str))
  | ZStore (i : nat)
  | ZPurge (k : str)
  | ZClear.
  Definition set_task (s : zst) (i : nat) (t : ctask) : zst := ZSt (z_cache s) (z_clock s) (<[i := t]> (z_tasks s)).
  Definition zstep (cf : zconf) (l : zlabel) (s : zst) : option zst :=
    match l with
    | ZTick t => if z_clock s <=? t then Some (ZSt (z_cache s) t (z_tasks s)) else None
    | ZCall i q =>
        match z_tasks s !! i with
        | Some CIdle => Some (set_task s i (if empty_params cf q then CDone q (Err ErrInvalidParameters) else CLook q))
        | _ => None
        end
    | ZLook i =>
        match z_tasks s !! i with
        | Some (CLook q) =>
            Some (set_task s i
              match g_get (z_clock s) (cache_key cf q) (z_cache s) with Some p => CDone q (Ok p) | None => CParse q end)
        | _ => None
        end
    | ZParse i ks =>
        match z_tasks s !! i with
        | Some (CParse q) =>
            Some (set_task s i
              match process cf ks (z_clock s) q with
              | Ok p => if z_policy cf then CTrans q p else CStore q p
              | Err e => CDone q (Err e)
              | Panic => CDone q Panic
              end)
        | _ => None
        end
    | ZTrans i o =>
        match z_tasks s !! i with
        | Some (CTrans q p) =>
            Some (set_task s i
              match target cf o p q with
              | Ok (a, r) => CCheck q p a r
              | Err e => CDone q (Err e)
              | Panic => CDone q Panic
              end)
        | _ => None
        end
    | ZPolicy i r =>
        match z_tasks s !! i with
        | Some (CCheck q p a rs) =>
            Some (set_task s i
              match r with
              | Ok acc => CStore q (with_auth p acc)
              | Err e => CDone q (Err e)
              | Panic => CDone q Panic
              end)
        | _ => None
        end
    | ZStore i =>
        match z_tasks s !! i with
        | Some (CStore q p) =>
            Some (ZSt (g_set (z_clock s) (cache_key cf q) p (z_exp cf) (z_cache s)) (z_clock s) (<[i := CDone q (Ok p)]> (z_tasks s)))
        | _ => None
        end
    | ZPurge k =>
        match z_cache s !! k with
        | Some e => if g_valid (z_clock s) e then None else Some (ZSt (delete k (z_cache s)) (z_clock s) (z_tasks s))
        | None => None
        end
    | ZClear => Some (ZSt ∅ (z_clock s) (z_tasks s))
    end.
  Fixpoint zrun (cf : zconf) (ls : list zlabel) (s : zst) : option zst :=
    match ls with
    | [] => Some s
    | l :: ls => match zstep cf l s with Some s' => zrun cf ls s' | None => None end
    end.
  Definition zinit (n : nat) (t0 : time) : zst := ZSt ∅ t0 (replicate n CIdle).

  (** One call on its own, for HTTP requests: everything it meets is given by [env]. *)
  Record env := Env { e_now : time; e_keys : keys; e_order : O; e_check : str -> list str -> str -> str -> outcome (list str) }.
  Definition authorize (cf : zconf) (e : env) (q : request) (c : gache principal) : outcome principal * gache principal :=
    if empty_params cf q then (Err ErrInvalidParameters, c) else
    match g_get (e_now e) (cache_key cf q) c with
    | Some p => (Ok p, c)
    | None =>
        match (let! p := process cf (e_keys e) (e_now e) q in
               if z_policy cf then
                 let! ar := target cf (e_order e) p q in
                 let! acc := e_check e (pr_domain p) (pr_roles p) (fst ar) (snd ar) in
                 Ok (with_auth p acc)
               else Ok p) with
        | Ok p => (Ok p, g_set (e_now e) (cache_key cf q) p (z_exp cf) c)
        | Err er => (Err er, c)
        | Panic => (Panic, c)
        end
    end.

  (** ** HTTP requests *)
  (** What the code reads of *http.Request: r.TLS with its PeerCertificates, the Authorization
      header, the role token header (empty if absent) and the raw query. *)
  Record http_request := HReq { h_tls : option (list cert); h_authz : str; h_role : str; h_query : str }.

  (** ASCII strings.ToUpper of a byte, enough to recognise the prefix. *)
  Definition up (c : ascii) : ascii :=
    let n := nat_of_ascii c in if ((97 <=? n) && (n <=? 122))%nat then ascii_of_nat (n - 32) else c.
  (** request.AuthorizationHeaderExtractor.ExtractToken (golang-jwt v4.4.1): the header, less a
      leading "bearer " in any case. *)
  Definition extract_token (hdr : str) : outcome str :=
    match hdr with
    | [] => Err (ErrMsg "no token present in request")
    | _ =>
        if (6 <? length hdr)%nat && bool_decide (map up (take 7 hdr) = B "BEARER ") then Ok (drop 7 hdr) else Ok hdr
    end.

  (** AuthorizeRoleCert, authorizerd.go:551-554 *)
  Definition authorize_role_cert : outcome principal := Err (ErrMsg "AuthorizeRoleCert has not yet been implemented").
  (** The three authorizers, authorizerd.go:217-255 *)
  Definition rc_authorizer (r : http_request) (act res : str) (cf : zconf) (e : env) (c : gache principal) :=
    (authorize_role_cert, c).
  Definition at_authorizer (r : http_request) (act res : str) (cf : zconf) (e : env) (c : gache principal) :=
    match extract_token (h_authz r) with
    | Ok tok =>
        authorize cf e (Req MAccess tok act res (h_query r) (match h_tls r with Some (ct :: _) => Some ct | _ => None end)) c
    | Err er => (Err er, c)
    | Panic => (Panic, c)
    end.
  Definition rt_authorizer (r : http_request) (act res : str) (cf : zconf) (e : env) (c : gache principal) :=
    authorize cf e (Req MRole (h_role r) act res (h_query r) None) c.
  (** initAuthorizers, authorizerd.go:217-263 ([rc]: enableRoleCert).  [None]: error no authorizers. *)
  Definition authorizers (rc : bool) (cf : zconf) (r : http_request) (act res : str) :
      option (list (zconf -> env -> gache principal -> outcome principal * gache principal)) :=
    match (if rc then [rc_authorizer r act res] else []) ++
          (if z_access cf then [at_authorizer r act res] else []) ++
          (if z_role cf then [rt_authorizer r act res] else []) with
    | [] => None
    | l => Some l
    end.
  (** Verify, authorizerd.go:476-486, and Authorize, :489-499.  Each authorizer meets its own
      environment: time passes and daemons update in between. *)
  Fixpoint verify_loop (cf : zconf) (l : list (zconf -> env -> gache principal -> outcome principal * gache principal))
      (es : nat -> env) (c : gache principal) : outcome unit * gache principal :=
    match l with
    | [] => (Err ErrInvalidCredentials, c)
    | f :: l =>
        match f cf (es (length l)) c with
        | (Ok _, c') => (Ok tt, c')
        | (Err _, c') => verify_loop cf l es c'
        | (Panic, c') => (Panic, c')
        end
    end.
  Fixpoint authorize_loop (cf : zconf) (l : list (zconf -> env -> gache principal -> outcome principal * gache principal))
      (es : nat -> env) (c : gache principal) : outcome principal * gache principal :=
    match l with
    | [] => (Err ErrInvalidCredentials, c)
    | f :: l =>
        match f cf (es (length l)) c with
        | (Ok p, c') => (Ok p, c')
        | (Err _, c') => authorize_loop cf l es c'
        | (Panic, c') => (Panic, c')
        end
    end.
End authorizer.
