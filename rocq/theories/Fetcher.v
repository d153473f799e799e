(** * Signed policies and the policy fetcher (policy/signed_policy.go, policy/fetcher.go) *)
From Verif Require Export Base PolicySimplify.

(** AthenzEnv, pubkey/daemon.go:73-82.  [EnvOther]: any other string. *)
Inductive env := EnvZMS | EnvZTS | EnvOther (s : str).

(** util.PolicyData: domain and policies; only these fields are read.  Policies and their
    assertions are pointers ([None]: nil, from a null in the JSON). *)
Record policy_data := PolicyData { pd_domain : str; pd_policies : list (option (list (option raw))) }.
(** A document as decoded: no nil. *)
Definition written (doc : document) : list (option (list (option raw))) := map (fun pol => Some (map Some pol)) doc.
(** Following the pointers, policy/daemon.go:328-336; [None] if one is nil.  Simplification: all are
    followed, also when the context ends before the loop comes to it. *)
Definition policies_of (l : list (option (list (option raw)))) : option document :=
  mapM (fun pol => match pol with Some l => mapM (fun r => r) l | None => None end) l.
(** util.SignedPolicyData.  [Expires] is nil when the field is missing; a nil
    PolicyData pointer is [None]. *)
Record signed_data := SignedData {
  sd_expires : option time; sd_zms_key : str; sd_zms_sig : str; sd_policy : option policy_data }.
(** SignedPolicy, policy/signed_policy.go:31-33 (util.DomainSignedPolicyData). *)
Record signed_policy := SignedPolicy { sp_data : option signed_data; sp_key : str; sp_sig : str }.

(** The cryptography and the JSON encoder are parameters: [verifier] is an
    authcore.Verifier, [vfy v msg sig] says v.Verify(msg, sig) returned nil,
    [marshal_spd] / [marshal_pd] are json.Marshal of the two structures. *)
Record crypto := Crypto {
  verifier : Type;
  vfy : verifier -> str -> str -> bool;
  marshal_spd : signed_data -> option str;
  marshal_pd : option policy_data -> option str }.

(** pubkey.Provider, pubkey/daemon.go:71 *)
Definition provider (K : crypto) := env -> str -> option (verifier K).

(** Verify, policy/signed_policy.go:36-78.  The receiver is a pointer ([None] is nil). *)
Definition sp_verify (K : crypto) (pkp : provider K) (now : time) (s : option signed_policy) : outcome unit :=
  match s with
  | None => Panic
  | Some s =>
      match sp_data s with
      | None => Err (ErrMsg "no policy data")
      | Some d =>
          match sd_expires d with
          | None => Err (ErrMsg "policy without expiry")
          | Some e =>
              if time_sub e now <=? 0 then Err (ErrMsg "policy already expired") else
              match pkp EnvZTS (sp_key s) with
              | None => Err (ErrMsg "zts key not found")
              | Some v =>
                  match marshal_spd K d with
                  | None => Err (ErrMsg "error marshal signed policy data")
                  | Some m =>
                      if negb (vfy K v m (sp_sig s)) then Err (ErrMsg "error verify signature") else
                      match pkp EnvZMS (sd_zms_key d) with
                      | None => Err (ErrMsg "zms key not found")
                      | Some v' =>
                          match marshal_pd K (sd_policy d) with
                          | None => Err (ErrMsg "error marshal policy data")
                          | Some m' =>
                              if negb (vfy K v' m' (sd_zms_sig d)) then Err (ErrMsg "error verify zms signature")
                              else Ok tt
                          end
                      end
                  end
              end
          end
      end
  end.

(** taggedPolicy, policy/fetcher.go:63-68 (ctime is only logged). *)
Record tagged := Tagged { t_etag : str; t_etag_expiry : time; t_sp : signed_policy }.

(** What json.Decode makes of the body: an error, a JSON null (the pointer becomes
    nil without an error), or a document. *)
Inductive body A := BadBody | NullBody | Doc (a : A).
Arguments BadBody {A}. Arguments NullBody {A}. Arguments Doc {A} a.
(** Outcome of client.Do: an error, or a status, the ETag header and the body. *)
Inductive response A := Failed (e : error) | Response (status : Z) (etag : str) (b : body A).
Arguments Failed {A} e. Arguments Response {A} status etag b.

(** Configuration of a fetcher; [f_url_ok] says http.NewRequest accepts the URL
    built from the Athenz URL and the domain (policy/fetcher.go:79-87). *)
Record fconf := FConf { f_margin : duration; f_attempts : Z; f_url_ok : bool }.

(** If-None-Match is sent, policy/fetcher.go:93-96 *)
Definition conditional (tp : option tagged) (now : time) : bool :=
  match tp with
  | Some tp => negb (bool_decide (t_etag tp = [])) && after (t_etag_expiry tp) now
  | None => false
  end.

(** Fetch from the response on, policy/fetcher.go:99-150: result and new cache content. *)
Definition fetch_response (K : crypto) (cf : fconf) (tp : option tagged) (pkp : provider K) (now : time)
    (r : response signed_policy) : outcome signed_policy * option tagged :=
  match r with
  | Failed e => (Err e, None)
  | Response status etag b =>
      if status =? 304 then
        match tp with Some tp => (Ok (t_sp tp), None) | None => (Panic, None) end
      else if negb (status =? 200) then (Err ErrFetchPolicy, None)
      else
        match b with
        | BadBody => (Err (ErrMsg "policy decode fail"), None)
        | NullBody => (match sp_verify K pkp now None with Err e => Err e | _ => Panic end, None)
        | Doc sp =>
            match sp_verify K pkp now (Some sp) with
            | Err e => (Err e, None)
            | Panic => (Panic, None)
            | Ok tt =>
                match sp_data sp with
                | Some d =>
                    match sd_expires d with
                    | Some e => (Ok sp, Some (Tagged etag (time_add e (- f_margin cf)) sp))
                    | None => (Panic, None)
                    end
                | None => (Panic, None)
                end
            end
        end
  end.

(** ** Any number of concurrent Fetch / FetchWithRetry calls on one fetcher *)
(** A call: plain Fetch, or FetchWithRetry (policy/fetcher.go:154-175). *)
Inductive fcall :=
| FIdle (retry : bool)
| FLoop (i : Z) (last : option error)                       (* loop head of FetchWithRetry, :156 *)
| FSent (retry : option Z) (tp : option tagged) (inm : bool) (at_ : time) (* request sent, waiting, :99 *)
| FRet (sp : option signed_policy) (e : option error)
| FPanic.

Record fst_ := FSt { fs_cache : option tagged; fs_calls : list fcall }.

Inductive flabel (K : crypto) :=
| FBegin (i : nat) (now : time)
| FResp (i : nat) (r : response signed_policy) (now : time) (pkp : provider K).
Arguments FBegin {K} i now.
Arguments FResp {K} i r now pkp.

(** Start of Fetch, policy/fetcher.go:79-99 *)
Definition fetch_begin (cf : fconf) (cache : option tagged) (retry : option Z) (now : time) : fcall :=
  if f_url_ok cf then FSent retry cache (conditional cache now) now
  else match retry with
       | Some i => FLoop (i + 1) (Some (ErrMsg "create fetch policy request fail"))
       | None => FRet None (Some (ErrMsg "create fetch policy request fail"))
       end.

Definition fstep (K : crypto) (cf : fconf) (l : flabel K) (s : fst_) : option fst_ :=
  match l with
  | FBegin i now =>
      match fs_calls s !! i with
      | Some (FIdle false) => Some (FSt (fs_cache s) (<[i := fetch_begin cf (fs_cache s) None now]> (fs_calls s)))
      | Some (FIdle true) => Some (FSt (fs_cache s) (<[i := FLoop (-1) None]> (fs_calls s)))
      | Some (FLoop k last) =>
          if k <? f_attempts cf
          then Some (FSt (fs_cache s) (<[i := fetch_begin cf (fs_cache s) (Some k) now]> (fs_calls s)))
          else
            let e := match last with Some e => e | None => ErrMsg "retryAttempts" end in
            Some (FSt (fs_cache s) (<[i := FRet (option_map t_sp (fs_cache s)) (Some e)]> (fs_calls s)))
      | _ => None
      end
  | FResp i r now pkp =>
      match fs_calls s !! i with
      | Some (FSent retry tp _ _) =>
          let '(res, upd) := fetch_response K cf tp pkp now r in
          let c := match upd with Some t => Some t | None => fs_cache s end in
          let call := match res with
            | Ok sp => FRet (Some sp) None
            | Err e => match retry with Some k => FLoop (k + 1) (Some e) | None => FRet None (Some e) end
            | Panic => FPanic
            end in
          Some (FSt c (<[i := call]> (fs_calls s)))
      | _ => None
      end
  end.

Fixpoint frun (K : crypto) (cf : fconf) (ls : list (flabel K)) (s : fst_) : option fst_ :=
  match ls with
  | [] => Some s
  | l :: ls => match fstep K cf l s with Some s' => frun K cf ls s' | None => None end
  end.

(** A new fetcher (policy/daemon.go:91-101) and [kinds] calls (true: FetchWithRetry). *)
Definition finit (kinds : list bool) : fst_ := FSt None (map FIdle kinds).

(** What fetchAndCachePolicy hands to the simplification (policy/daemon.go:299-314,
    328, 379): the error is ignored when a cached policy came with it. *)
Definition fetched_policy (sp : option signed_policy) (e : option error) : outcome (time * document) :=
  match sp, e with
  | None, Some e => Err e
  | None, None => Panic
  | Some sp, _ =>
      match sp_data sp with
      | Some d =>
          match sd_policy d, sd_expires d with
          | Some p, Some ex => match policies_of (pd_policies p) with Some doc => Ok (ex, doc) | None => Panic end
          | _, _ => Panic
          end
      | None => Panic
      end
  end.
