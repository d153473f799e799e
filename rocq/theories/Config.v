(** * Configuration: options and constructors (option.go, authorizerd.go:New, policy/option.go,
    pubkey/option.go, jwk/option.go, access/option.go, role/option.go, internal/url/util.go) *)
From Verif Require Export Authorizer Jwk Query Translator GoStrings GoStringsFacts.

(** ** internal/url/util.go *)
(** TrimHTTPScheme, internal/url/util.go:32-38: the match of ^(http|https):// is removed (it is
    anchored, so there is one at most). *)
Definition trim_http_scheme (u : str) : str :=
  if has_prefix (B "http://") u then drop 7 u
  else if has_prefix (B "https://") u then drop 8 u
  else u.
(** The classes of ^[a-zA-Z][a-zA-Z0-9+-.]*://, where +-. is the range from + to . *)
Definition in_range (a b : nat) (c : ascii) : bool := ((a <=? nat_of_ascii c) && (nat_of_ascii c <=? b))%nat.
Definition is_alpha (c : ascii) : bool := in_range 97 122 c || in_range 65 90 c.
Definition is_scheme_char (c : ascii) : bool := is_alpha c || in_range 48 57 c || in_range 43 46 c.
Fixpoint after_scheme (s : str) : bool :=
  match s with
  | [] => false
  | c :: s' => if is_scheme_char c then after_scheme s' else has_prefix (B "://") s
  end.
(** HasScheme, internal/url/util.go:41-47.  No character of "://" is in the class, so the greedy
    scan is the only candidate. *)
Definition has_scheme (u : str) : bool :=
  match u with [] => false | c :: u' => is_alpha c && after_scheme u' end.
(** The body shared by the three WithAthenzURL (option.go:59-68, policy/option.go:53-62,
    pubkey/option.go:42-51). *)
Definition athenz_url (u : str) : outcome str :=
  let u' := trim_http_scheme u in
  if has_scheme u' then Err ErrUnsupportedScheme else Ok u'.

(** ** Externals *)
(** An *http.Client: the one WithHTTPClient(nil) makes (option.go:81-85), the package defaults,
    or one of the user's. *)
Inductive client := ClientDefault30 | ClientPackage | ClientUser (n : nat).
(** time.ParseDuration ([None]: error), int64(d.Seconds()), and the scheme url.ParseRequestURI finds
    ([None]: error). *)
Record parsers := Parsers {
  parse_duration : str -> option duration;
  whole_seconds : duration -> Z;
  uri_scheme : str -> option str }.
(** An option taking a duration text: empty keeps the current value. *)
Definition opt_duration {A} (E : parsers) (msg : string) (t : str) (set : duration -> A -> A) (a : A) : outcome A :=
  match t with
  | [] => Ok a
  | _ => match parse_duration E t with None => Err (ErrMsg msg) | Some d => Ok (set d a) end
  end.
(** The loop over append(defaultOptions, opts...), the same in every New.  A nil Option would
    panic; options here are never nil. *)
Fixpoint apply_all {A C} (f : A -> C -> outcome C) (l : list A) (c : C) : outcome C :=
  match l with
  | [] => Ok c
  | a :: l => let! c' := f a c in apply_all f l c'
  end.

(** ** pubkey *)
(** The configuration in pubkeyd, pubkey/daemon.go:43-57 *)
Record pk_conf := PkConf {
  pk_url : str;
  pk_sys : str;
  pk_refresh : duration;
  pk_retry : duration;
  pk_client : option client;
  pk_etag : duration;
  pk_purge : duration }.
Definition set_pk_url (x : str) (c : pk_conf) : pk_conf :=
  PkConf x (pk_sys c) (pk_refresh c) (pk_retry c) (pk_client c) (pk_etag c) (pk_purge c).
Definition set_pk_sys (x : str) (c : pk_conf) : pk_conf :=
  PkConf (pk_url c) x (pk_refresh c) (pk_retry c) (pk_client c) (pk_etag c) (pk_purge c).
Definition set_pk_refresh (x : duration) (c : pk_conf) : pk_conf :=
  PkConf (pk_url c) (pk_sys c) x (pk_retry c) (pk_client c) (pk_etag c) (pk_purge c).
Definition set_pk_retry (x : duration) (c : pk_conf) : pk_conf :=
  PkConf (pk_url c) (pk_sys c) (pk_refresh c) x (pk_client c) (pk_etag c) (pk_purge c).
Definition set_pk_client (x : option client) (c : pk_conf) : pk_conf :=
  PkConf (pk_url c) (pk_sys c) (pk_refresh c) (pk_retry c) x (pk_etag c) (pk_purge c).
Definition set_pk_etag (x : duration) (c : pk_conf) : pk_conf :=
  PkConf (pk_url c) (pk_sys c) (pk_refresh c) (pk_retry c) (pk_client c) x (pk_purge c).
Definition set_pk_purge (x : duration) (c : pk_conf) : pk_conf :=
  PkConf (pk_url c) (pk_sys c) (pk_refresh c) (pk_retry c) (pk_client c) (pk_etag c) x.
(** Options, pubkey/option.go:42-136 *)
Inductive pk_opt :=
| PkURL (u : str) | PkSys (d : str) | PkRefresh (t : str) | PkRetry (t : str) | PkEtag (t : str) | PkPurge (t : str)
| PkClient (c : option client).
Definition pk_apply (E : parsers) (o : pk_opt) (c : pk_conf) : outcome pk_conf :=
  match o with
  | PkURL u => let! u' := athenz_url u in Ok (set_pk_url u' c)
  | PkSys d => Ok match d with [] => c | _ => set_pk_sys d c end
  | PkRefresh t => opt_duration E "invalid refresh period" t set_pk_refresh c
  | PkRetry t => opt_duration E "invalid retry delay" t set_pk_retry c
  | PkEtag t => opt_duration E "invalid ETag expiry time" t set_pk_etag c
  | PkPurge t => opt_duration E "invalid ETag purge period" t set_pk_purge c
  | PkClient cl => Ok (set_pk_client cl c)  (* tests p, not cl, against nil: pubkey/option.go:129-136 *)
  end.
(** pubkey/option.go:27-36 *)
Definition pk_defaults : list pk_opt :=
  [PkSys (B "sys.auth"); PkRefresh (B "24h"); PkEtag (B "168h"); PkPurge (B "84h"); PkRetry (B "1m"); PkClient (Some ClientPackage)].
(** New, pubkey/daemon.go:85-101 *)
Definition pubkey_new (E : parsers) (opts : list pk_opt) : outcome pk_conf :=
  apply_all (pk_apply E) (pk_defaults ++ opts) (PkConf [] [] 0 0 None 0 0).
(** The URL fetched for an environment, pubkey/daemon.go:234 *)
Definition pubkey_url (c : pk_conf) (env : str) : str :=
  B "https://" ++ pk_url c ++ B "/domain/" ++ pk_sys c ++ B "/service/" ++ env.

(** ** policy *)
(** The configuration in policyd, policy/daemon.go:53-72; [po_pkp]: the provider is not nil *)
Record pol_conf := PolConf {
  po_url : str;
  po_domains : list str;
  po_margin : duration;
  po_refresh : duration;
  po_purge : duration;
  po_retry : duration;
  po_attempts : Z;
  po_client : option client;
  po_pkp : bool }.
Definition set_po_url (x : str) (c : pol_conf) : pol_conf :=
  PolConf x (po_domains c) (po_margin c) (po_refresh c) (po_purge c) (po_retry c) (po_attempts c) (po_client c) (po_pkp c).
Definition set_po_domains (x : list str) (c : pol_conf) : pol_conf :=
  PolConf (po_url c) x (po_margin c) (po_refresh c) (po_purge c) (po_retry c) (po_attempts c) (po_client c) (po_pkp c).
Definition set_po_margin (x : duration) (c : pol_conf) : pol_conf :=
  PolConf (po_url c) (po_domains c) x (po_refresh c) (po_purge c) (po_retry c) (po_attempts c) (po_client c) (po_pkp c).
Definition set_po_refresh (x : duration) (c : pol_conf) : pol_conf :=
  PolConf (po_url c) (po_domains c) (po_margin c) x (po_purge c) (po_retry c) (po_attempts c) (po_client c) (po_pkp c).
Definition set_po_purge (x : duration) (c : pol_conf) : pol_conf :=
  PolConf (po_url c) (po_domains c) (po_margin c) (po_refresh c) x (po_retry c) (po_attempts c) (po_client c) (po_pkp c).
Definition set_po_retry (x : duration) (c : pol_conf) : pol_conf :=
  PolConf (po_url c) (po_domains c) (po_margin c) (po_refresh c) (po_purge c) x (po_attempts c) (po_client c) (po_pkp c).
Definition set_po_attempts (x : Z) (c : pol_conf) : pol_conf :=
  PolConf (po_url c) (po_domains c) (po_margin c) (po_refresh c) (po_purge c) (po_retry c) x (po_client c) (po_pkp c).
Definition set_po_client (x : option client) (c : pol_conf) : pol_conf :=
  PolConf (po_url c) (po_domains c) (po_margin c) (po_refresh c) (po_purge c) (po_retry c) (po_attempts c) x (po_pkp c).
Definition set_po_pkp (x : bool) (c : pol_conf) : pol_conf :=
  PolConf (po_url c) (po_domains c) (po_margin c) (po_refresh c) (po_purge c) (po_retry c) (po_attempts c) (po_client c) x.
(** Options, policy/option.go:43-154; [PoDomains None]: a nil slice; [PoKeys]: a non-nil provider? *)
Inductive pol_opt :=
| PoURL (u : str) | PoDomains (ds : option (list str)) | PoMargin (t : str) | PoRefresh (t : str) | PoPurge (t : str)
| PoRetry (t : str) | PoAttempts (n : Z) | PoClient (c : option client) | PoKeys (b : bool).
Definition pol_apply (E : parsers) (o : pol_opt) (c : pol_conf) : outcome pol_conf :=
  match o with
  | PoURL u => let! u' := athenz_url u in Ok (set_po_url u' c)
  | PoDomains ds => Ok match ds with None => c | Some ds => set_po_domains ds c end
  | PoMargin t => opt_duration E "invalid expiry margin" t set_po_margin c
  | PoRefresh t => opt_duration E "invalid refresh period" t set_po_refresh c
  | PoPurge t => opt_duration E "invalid purge period" t set_po_purge c
  | PoRetry t => opt_duration E "invalid retry delay" t set_po_retry c
  | PoAttempts n => Ok (if n =? 0 then c else set_po_attempts n c)
  | PoClient cl => Ok match cl with None => c | _ => set_po_client cl c end
  | PoKeys b => Ok (if b then set_po_pkp true c else c)
  end.
(** policy/option.go:28-37 *)
Definition pol_defaults : list pol_opt :=
  [PoMargin (B "3h"); PoRefresh (B "30m"); PoPurge (B "1h"); PoRetry (B "1m"); PoAttempts 2; PoClient (Some ClientPackage)].
(** New, policy/daemon.go:76-106; the fetchers are determined by the configuration. *)
Definition policy_new (E : parsers) (opts : list pol_opt) : outcome pol_conf :=
  apply_all (pol_apply E) (pol_defaults ++ opts) (PolConf [] [] 0 0 0 0 0 None false).
(** The URL fetched for a domain, policy/fetcher.go:79 *)
Definition policy_url (c : pol_conf) (domain : str) : str :=
  B "https://" ++ po_url c ++ B "/domain/" ++ domain ++ B "/signed_policy_data".
(** The verifier of the fetchers, policy/daemon.go:97-99: Verify with a possibly nil provider,
    which is first called after the expiry checks (policy/signed_policy.go:36-49). *)
Definition sp_verify_with (K : crypto) (pkp : option (provider K)) (now : time) (s : option signed_policy) : outcome unit :=
  match pkp with
  | Some pkp => sp_verify K pkp now s
  | None =>
      match s with
      | None => Panic
      | Some s =>
          match sp_data s with
          | None => Err (ErrMsg "no policy data")
          | Some d =>
              match sd_expires d with
              | None => Err (ErrMsg "policy without expiry")
              | Some e => if time_sub e now <=? 0 then Err (ErrMsg "policy already expired") else Panic
              end
          end
      end
  end.

(** ** jwk *)
(** The configuration in jwkd, jwk/daemon.go:37-47 *)
Record jwk_conf := JwkConf {
  jk_athenz : str;
  jk_urls : list str;
  jk_refresh : duration;
  jk_retry : duration;
  jk_client : option client }.
Definition set_jk_athenz (x : str) (c : jwk_conf) : jwk_conf :=
  JwkConf x (jk_urls c) (jk_refresh c) (jk_retry c) (jk_client c).
Definition set_jk_urls (x : list str) (c : jwk_conf) : jwk_conf :=
  JwkConf (jk_athenz c) x (jk_refresh c) (jk_retry c) (jk_client c).
Definition set_jk_refresh (x : duration) (c : jwk_conf) : jwk_conf :=
  JwkConf (jk_athenz c) (jk_urls c) x (jk_retry c) (jk_client c).
Definition set_jk_retry (x : duration) (c : jwk_conf) : jwk_conf :=
  JwkConf (jk_athenz c) (jk_urls c) (jk_refresh c) x (jk_client c).
Definition set_jk_client (x : option client) (c : jwk_conf) : jwk_conf :=
  JwkConf (jk_athenz c) (jk_urls c) (jk_refresh c) (jk_retry c) x.
(** Options, jwk/option.go:41-108 *)
Inductive jwk_opt :=
| JkAthenz (u : str) | JkRefresh (t : str) | JkRetry (t : str) | JkURLs (us : list str) | JkClient (c : option client).
(** The loop of WithURLs, jwk/option.go:88-96 *)
Fixpoint check_urls (E : parsers) (us : list str) : outcome unit :=
  match us with
  | [] => Ok tt
  | u :: us =>
      match uri_scheme E u with
      | None => Err (ErrMsg "parse request uri")
      | Some s =>
          if negb (bool_decide (s = B "http")) && negb (bool_decide (s = B "https")) then Err ErrUnsupportedScheme
          else check_urls E us
      end
  end.
Definition jwk_apply (E : parsers) (o : jwk_opt) (c : jwk_conf) : outcome jwk_conf :=
  match o with
  | JkAthenz u =>
      if bool_decide (u = []) then Err ErrEmptyAthenzJwksURL
      else let! u' := athenz_url u in Ok (set_jk_athenz (B "https://" ++ u' ++ B "/oauth2/keys?rfc=true") c)
  | JkRefresh t => opt_duration E "invalid refresh period" t set_jk_refresh c
  | JkRetry t => opt_duration E "invalid retry delay" t set_jk_retry c
  | JkURLs us => let! _ := check_urls E us in Ok (set_jk_urls us c)
  | JkClient cl => Ok (set_jk_client cl c)
  end.
(** jwk/option.go:29-35 *)
Definition jwk_defaults : list jwk_opt := [JkRefresh (B "24h"); JkRetry (B "1m"); JkClient (Some ClientPackage)].
(** New, jwk/daemon.go:53-65 *)
Definition jwk_new (E : parsers) (opts : list jwk_opt) : outcome jwk_conf :=
  apply_all (jwk_apply E) (jwk_defaults ++ opts) (JwkConf [] [] 0 0 None).

(** ** access *)
(** atp, access/processor.go:49-58: the configuration of Access.v and whether the provider is not nil. *)
Record acc_conf := AccConf { ac_conf : aconf; ac_jwk : bool }.
(** Options, access/option.go:26-93 *)
Inductive acc_opt :=
| AcJwk (b : bool) | AcBound (b : bool) | AcVerifyClient (b : bool) | AcClients (m : gmap str (list str)) | AcBack (t : str) | AcOffset (t : str).
Definition acc_apply (E : parsers) (o : acc_opt) (c : acc_conf) : outcome acc_conf :=
  let a := ac_conf c in
  match o with
  | AcJwk b => Ok (AccConf a b)
  | AcBound b => Ok (AccConf (AConf b (a_back a) (a_offset a) (a_verify_client a) (a_clients a)) (ac_jwk c))
  | AcVerifyClient b => Ok (AccConf (AConf (a_bound a) (a_back a) (a_offset a) b (a_clients a)) (ac_jwk c))
  | AcClients m => Ok (AccConf (AConf (a_bound a) (a_back a) (a_offset a) (a_verify_client a) m) (ac_jwk c))
  | AcBack t =>
      opt_duration E "invalid refresh period" t
        (fun d c => AccConf (AConf (a_bound a) (whole_seconds E d) (a_offset a) (a_verify_client a) (a_clients a)) (ac_jwk c)) c
  | AcOffset t =>
      opt_duration E "invalid offset duration" t
        (fun d c => AccConf (AConf (a_bound a) (a_back a) (whole_seconds E d) (a_verify_client a) (a_clients a)) (ac_jwk c)) c
  end.
(** New, access/processor.go:61-69 *)
Definition access_new (E : parsers) (opts : list acc_opt) : outcome acc_conf :=
  apply_all (acc_apply E) opts (AccConf (AConf false 0 0 false ∅) false).

(** ** The authorizer *)
(** AccessTokenParam, option.go:46-53 *)
Record access_param := AccessParam {
  ap_enable : bool; ap_bound : bool; ap_back : str; ap_offset : str; ap_verify_client : bool; ap_clients : gmap str (list str) }.
(** The parameters in authority, authorizerd.go:60-116; translators are numbered, the zero value of a
    slice of domains is nil *)
Record authority := Authority {
  a_url : str;
  a_client : option client;
  a_exp : duration;
  a_uri_prefix : str;
  a_no_pubkeyd : bool;
  a_pk_refresh : str;
  a_pk_retry : str;
  a_pk_sys : str;
  a_pk_etag : str;
  a_pk_purge : str;
  a_no_policyd : bool;
  a_domains : option (list str);
  a_po_margin : str;
  a_po_refresh : str;
  a_po_purge : str;
  a_po_retry : str;
  a_po_attempts : Z;
  a_no_jwkd : bool;
  a_jk_refresh : str;
  a_jk_retry : str;
  a_jk_urls : list str;
  a_access : access_param;
  a_role_token : bool;
  a_role_header : str;
  a_role_cert : bool;
  a_translator : option nat;
  a_prefix : str }.
Definition set_a_url (x : str) (c : authority) : authority :=
  Authority x (a_client c) (a_exp c) (a_uri_prefix c) (a_no_pubkeyd c) (a_pk_refresh c) (a_pk_retry c) (a_pk_sys c) (a_pk_etag c) (a_pk_purge c) (a_no_policyd c) (a_domains c) (a_po_margin c) (a_po_refresh c) (a_po_purge c) (a_po_retry c) (a_po_attempts c) (a_no_jwkd c) (a_jk_refresh c) (a_jk_retry c) (a_jk_urls c) (a_access c) (a_role_token c) (a_role_header c) (a_role_cert c) (a_translator c) (a_prefix c).
Definition set_a_client (x : option client) (c : authority) : authority :=
  Authority (a_url c) x (a_exp c) (a_uri_prefix c) (a_no_pubkeyd c) (a_pk_refresh c) (a_pk_retry c) (a_pk_sys c) (a_pk_etag c) (a_pk_purge c) (a_no_policyd c) (a_domains c) (a_po_margin c) (a_po_refresh c) (a_po_purge c) (a_po_retry c) (a_po_attempts c) (a_no_jwkd c) (a_jk_refresh c) (a_jk_retry c) (a_jk_urls c) (a_access c) (a_role_token c) (a_role_header c) (a_role_cert c) (a_translator c) (a_prefix c).
Definition set_a_exp (x : duration) (c : authority) : authority :=
  Authority (a_url c) (a_client c) x (a_uri_prefix c) (a_no_pubkeyd c) (a_pk_refresh c) (a_pk_retry c) (a_pk_sys c) (a_pk_etag c) (a_pk_purge c) (a_no_policyd c) (a_domains c) (a_po_margin c) (a_po_refresh c) (a_po_purge c) (a_po_retry c) (a_po_attempts c) (a_no_jwkd c) (a_jk_refresh c) (a_jk_retry c) (a_jk_urls c) (a_access c) (a_role_token c) (a_role_header c) (a_role_cert c) (a_translator c) (a_prefix c).
Definition set_a_uri_prefix (x : str) (c : authority) : authority :=
  Authority (a_url c) (a_client c) (a_exp c) x (a_no_pubkeyd c) (a_pk_refresh c) (a_pk_retry c) (a_pk_sys c) (a_pk_etag c) (a_pk_purge c) (a_no_policyd c) (a_domains c) (a_po_margin c) (a_po_refresh c) (a_po_purge c) (a_po_retry c) (a_po_attempts c) (a_no_jwkd c) (a_jk_refresh c) (a_jk_retry c) (a_jk_urls c) (a_access c) (a_role_token c) (a_role_header c) (a_role_cert c) (a_translator c) (a_prefix c).
Definition set_a_no_pubkeyd (x : bool) (c : authority) : authority :=
  Authority (a_url c) (a_client c) (a_exp c) (a_uri_prefix c) x (a_pk_refresh c) (a_pk_retry c) (a_pk_sys c) (a_pk_etag c) (a_pk_purge c) (a_no_policyd c) (a_domains c) (a_po_margin c) (a_po_refresh c) (a_po_purge c) (a_po_retry c) (a_po_attempts c) (a_no_jwkd c) (a_jk_refresh c) (a_jk_retry c) (a_jk_urls c) (a_access c) (a_role_token c) (a_role_header c) (a_role_cert c) (a_translator c) (a_prefix c).
Definition set_a_pk_refresh (x : str) (c : authority) : authority :=
  Authority (a_url c) (a_client c) (a_exp c) (a_uri_prefix c) (a_no_pubkeyd c) x (a_pk_retry c) (a_pk_sys c) (a_pk_etag c) (a_pk_purge c) (a_no_policyd c) (a_domains c) (a_po_margin c) (a_po_refresh c) (a_po_purge c) (a_po_retry c) (a_po_attempts c) (a_no_jwkd c) (a_jk_refresh c) (a_jk_retry c) (a_jk_urls c) (a_access c) (a_role_token c) (a_role_header c) (a_role_cert c) (a_translator c) (a_prefix c).
Definition set_a_pk_retry (x : str) (c : authority) : authority :=
  Authority (a_url c) (a_client c) (a_exp c) (a_uri_prefix c) (a_no_pubkeyd c) (a_pk_refresh c) x (a_pk_sys c) (a_pk_etag c) (a_pk_purge c) (a_no_policyd c) (a_domains c) (a_po_margin c) (a_po_refresh c) (a_po_purge c) (a_po_retry c) (a_po_attempts c) (a_no_jwkd c) (a_jk_refresh c) (a_jk_retry c) (a_jk_urls c) (a_access c) (a_role_token c) (a_role_header c) (a_role_cert c) (a_translator c) (a_prefix c).
Definition set_a_pk_sys (x : str) (c : authority) : authority :=
  Authority (a_url c) (a_client c) (a_exp c) (a_uri_prefix c) (a_no_pubkeyd c) (a_pk_refresh c) (a_pk_retry c) x (a_pk_etag c) (a_pk_purge c) (a_no_policyd c) (a_domains c) (a_po_margin c) (a_po_refresh c) (a_po_purge c) (a_po_retry c) (a_po_attempts c) (a_no_jwkd c) (a_jk_refresh c) (a_jk_retry c) (a_jk_urls c) (a_access c) (a_role_token c) (a_role_header c) (a_role_cert c) (a_translator c) (a_prefix c).
Definition set_a_pk_etag (x : str) (c : authority) : authority :=
  Authority (a_url c) (a_client c) (a_exp c) (a_uri_prefix c) (a_no_pubkeyd c) (a_pk_refresh c) (a_pk_retry c) (a_pk_sys c) x (a_pk_purge c) (a_no_policyd c) (a_domains c) (a_po_margin c) (a_po_refresh c) (a_po_purge c) (a_po_retry c) (a_po_attempts c) (a_no_jwkd c) (a_jk_refresh c) (a_jk_retry c) (a_jk_urls c) (a_access c) (a_role_token c) (a_role_header c) (a_role_cert c) (a_translator c) (a_prefix c).
Definition set_a_pk_purge (x : str) (c : authority) : authority :=
  Authority (a_url c) (a_client c) (a_exp c) (a_uri_prefix c) (a_no_pubkeyd c) (a_pk_refresh c) (a_pk_retry c) (a_pk_sys c) (a_pk_etag c) x (a_no_policyd c) (a_domains c) (a_po_margin c) (a_po_refresh c) (a_po_purge c) (a_po_retry c) (a_po_attempts c) (a_no_jwkd c) (a_jk_refresh c) (a_jk_retry c) (a_jk_urls c) (a_access c) (a_role_token c) (a_role_header c) (a_role_cert c) (a_translator c) (a_prefix c).
Definition set_a_no_policyd (x : bool) (c : authority) : authority :=
  Authority (a_url c) (a_client c) (a_exp c) (a_uri_prefix c) (a_no_pubkeyd c) (a_pk_refresh c) (a_pk_retry c) (a_pk_sys c) (a_pk_etag c) (a_pk_purge c) x (a_domains c) (a_po_margin c) (a_po_refresh c) (a_po_purge c) (a_po_retry c) (a_po_attempts c) (a_no_jwkd c) (a_jk_refresh c) (a_jk_retry c) (a_jk_urls c) (a_access c) (a_role_token c) (a_role_header c) (a_role_cert c) (a_translator c) (a_prefix c).
Definition set_a_domains (x : option (list str)) (c : authority) : authority :=
  Authority (a_url c) (a_client c) (a_exp c) (a_uri_prefix c) (a_no_pubkeyd c) (a_pk_refresh c) (a_pk_retry c) (a_pk_sys c) (a_pk_etag c) (a_pk_purge c) (a_no_policyd c) x (a_po_margin c) (a_po_refresh c) (a_po_purge c) (a_po_retry c) (a_po_attempts c) (a_no_jwkd c) (a_jk_refresh c) (a_jk_retry c) (a_jk_urls c) (a_access c) (a_role_token c) (a_role_header c) (a_role_cert c) (a_translator c) (a_prefix c).
Definition set_a_po_margin (x : str) (c : authority) : authority :=
  Authority (a_url c) (a_client c) (a_exp c) (a_uri_prefix c) (a_no_pubkeyd c) (a_pk_refresh c) (a_pk_retry c) (a_pk_sys c) (a_pk_etag c) (a_pk_purge c) (a_no_policyd c) (a_domains c) x (a_po_refresh c) (a_po_purge c) (a_po_retry c) (a_po_attempts c) (a_no_jwkd c) (a_jk_refresh c) (a_jk_retry c) (a_jk_urls c) (a_access c) (a_role_token c) (a_role_header c) (a_role_cert c) (a_translator c) (a_prefix c).
Definition set_a_po_refresh (x : str) (c : authority) : authority :=
  Authority (a_url c) (a_client c) (a_exp c) (a_uri_prefix c) (a_no_pubkeyd c) (a_pk_refresh c) (a_pk_retry c) (a_pk_sys c) (a_pk_etag c) (a_pk_purge c) (a_no_policyd c) (a_domains c) (a_po_margin c) x (a_po_purge c) (a_po_retry c) (a_po_attempts c) (a_no_jwkd c) (a_jk_refresh c) (a_jk_retry c) (a_jk_urls c) (a_access c) (a_role_token c) (a_role_header c) (a_role_cert c) (a_translator c) (a_prefix c).
Definition set_a_po_purge (x : str) (c : authority) : authority :=
  Authority (a_url c) (a_client c) (a_exp c) (a_uri_prefix c) (a_no_pubkeyd c) (a_pk_refresh c) (a_pk_retry c) (a_pk_sys c) (a_pk_etag c) (a_pk_purge c) (a_no_policyd c) (a_domains c) (a_po_margin c) (a_po_refresh c) x (a_po_retry c) (a_po_attempts c) (a_no_jwkd c) (a_jk_refresh c) (a_jk_retry c) (a_jk_urls c) (a_access c) (a_role_token c) (a_role_header c) (a_role_cert c) (a_translator c) (a_prefix c).
Definition set_a_po_retry (x : str) (c : authority) : authority :=
  Authority (a_url c) (a_client c) (a_exp c) (a_uri_prefix c) (a_no_pubkeyd c) (a_pk_refresh c) (a_pk_retry c) (a_pk_sys c) (a_pk_etag c) (a_pk_purge c) (a_no_policyd c) (a_domains c) (a_po_margin c) (a_po_refresh c) (a_po_purge c) x (a_po_attempts c) (a_no_jwkd c) (a_jk_refresh c) (a_jk_retry c) (a_jk_urls c) (a_access c) (a_role_token c) (a_role_header c) (a_role_cert c) (a_translator c) (a_prefix c).
Definition set_a_po_attempts (x : Z) (c : authority) : authority :=
  Authority (a_url c) (a_client c) (a_exp c) (a_uri_prefix c) (a_no_pubkeyd c) (a_pk_refresh c) (a_pk_retry c) (a_pk_sys c) (a_pk_etag c) (a_pk_purge c) (a_no_policyd c) (a_domains c) (a_po_margin c) (a_po_refresh c) (a_po_purge c) (a_po_retry c) x (a_no_jwkd c) (a_jk_refresh c) (a_jk_retry c) (a_jk_urls c) (a_access c) (a_role_token c) (a_role_header c) (a_role_cert c) (a_translator c) (a_prefix c).
Definition set_a_no_jwkd (x : bool) (c : authority) : authority :=
  Authority (a_url c) (a_client c) (a_exp c) (a_uri_prefix c) (a_no_pubkeyd c) (a_pk_refresh c) (a_pk_retry c) (a_pk_sys c) (a_pk_etag c) (a_pk_purge c) (a_no_policyd c) (a_domains c) (a_po_margin c) (a_po_refresh c) (a_po_purge c) (a_po_retry c) (a_po_attempts c) x (a_jk_refresh c) (a_jk_retry c) (a_jk_urls c) (a_access c) (a_role_token c) (a_role_header c) (a_role_cert c) (a_translator c) (a_prefix c).
Definition set_a_jk_refresh (x : str) (c : authority) : authority :=
  Authority (a_url c) (a_client c) (a_exp c) (a_uri_prefix c) (a_no_pubkeyd c) (a_pk_refresh c) (a_pk_retry c) (a_pk_sys c) (a_pk_etag c) (a_pk_purge c) (a_no_policyd c) (a_domains c) (a_po_margin c) (a_po_refresh c) (a_po_purge c) (a_po_retry c) (a_po_attempts c) (a_no_jwkd c) x (a_jk_retry c) (a_jk_urls c) (a_access c) (a_role_token c) (a_role_header c) (a_role_cert c) (a_translator c) (a_prefix c).
Definition set_a_jk_retry (x : str) (c : authority) : authority :=
  Authority (a_url c) (a_client c) (a_exp c) (a_uri_prefix c) (a_no_pubkeyd c) (a_pk_refresh c) (a_pk_retry c) (a_pk_sys c) (a_pk_etag c) (a_pk_purge c) (a_no_policyd c) (a_domains c) (a_po_margin c) (a_po_refresh c) (a_po_purge c) (a_po_retry c) (a_po_attempts c) (a_no_jwkd c) (a_jk_refresh c) x (a_jk_urls c) (a_access c) (a_role_token c) (a_role_header c) (a_role_cert c) (a_translator c) (a_prefix c).
Definition set_a_jk_urls (x : list str) (c : authority) : authority :=
  Authority (a_url c) (a_client c) (a_exp c) (a_uri_prefix c) (a_no_pubkeyd c) (a_pk_refresh c) (a_pk_retry c) (a_pk_sys c) (a_pk_etag c) (a_pk_purge c) (a_no_policyd c) (a_domains c) (a_po_margin c) (a_po_refresh c) (a_po_purge c) (a_po_retry c) (a_po_attempts c) (a_no_jwkd c) (a_jk_refresh c) (a_jk_retry c) x (a_access c) (a_role_token c) (a_role_header c) (a_role_cert c) (a_translator c) (a_prefix c).
Definition set_a_access (x : access_param) (c : authority) : authority :=
  Authority (a_url c) (a_client c) (a_exp c) (a_uri_prefix c) (a_no_pubkeyd c) (a_pk_refresh c) (a_pk_retry c) (a_pk_sys c) (a_pk_etag c) (a_pk_purge c) (a_no_policyd c) (a_domains c) (a_po_margin c) (a_po_refresh c) (a_po_purge c) (a_po_retry c) (a_po_attempts c) (a_no_jwkd c) (a_jk_refresh c) (a_jk_retry c) (a_jk_urls c) x (a_role_token c) (a_role_header c) (a_role_cert c) (a_translator c) (a_prefix c).
Definition set_a_role_token (x : bool) (c : authority) : authority :=
  Authority (a_url c) (a_client c) (a_exp c) (a_uri_prefix c) (a_no_pubkeyd c) (a_pk_refresh c) (a_pk_retry c) (a_pk_sys c) (a_pk_etag c) (a_pk_purge c) (a_no_policyd c) (a_domains c) (a_po_margin c) (a_po_refresh c) (a_po_purge c) (a_po_retry c) (a_po_attempts c) (a_no_jwkd c) (a_jk_refresh c) (a_jk_retry c) (a_jk_urls c) (a_access c) x (a_role_header c) (a_role_cert c) (a_translator c) (a_prefix c).
Definition set_a_role_header (x : str) (c : authority) : authority :=
  Authority (a_url c) (a_client c) (a_exp c) (a_uri_prefix c) (a_no_pubkeyd c) (a_pk_refresh c) (a_pk_retry c) (a_pk_sys c) (a_pk_etag c) (a_pk_purge c) (a_no_policyd c) (a_domains c) (a_po_margin c) (a_po_refresh c) (a_po_purge c) (a_po_retry c) (a_po_attempts c) (a_no_jwkd c) (a_jk_refresh c) (a_jk_retry c) (a_jk_urls c) (a_access c) (a_role_token c) x (a_role_cert c) (a_translator c) (a_prefix c).
Definition set_a_role_cert (x : bool) (c : authority) : authority :=
  Authority (a_url c) (a_client c) (a_exp c) (a_uri_prefix c) (a_no_pubkeyd c) (a_pk_refresh c) (a_pk_retry c) (a_pk_sys c) (a_pk_etag c) (a_pk_purge c) (a_no_policyd c) (a_domains c) (a_po_margin c) (a_po_refresh c) (a_po_purge c) (a_po_retry c) (a_po_attempts c) (a_no_jwkd c) (a_jk_refresh c) (a_jk_retry c) (a_jk_urls c) (a_access c) (a_role_token c) (a_role_header c) x (a_translator c) (a_prefix c).
Definition set_a_translator (x : option nat) (c : authority) : authority :=
  Authority (a_url c) (a_client c) (a_exp c) (a_uri_prefix c) (a_no_pubkeyd c) (a_pk_refresh c) (a_pk_retry c) (a_pk_sys c) (a_pk_etag c) (a_pk_purge c) (a_no_policyd c) (a_domains c) (a_po_margin c) (a_po_refresh c) (a_po_purge c) (a_po_retry c) (a_po_attempts c) (a_no_jwkd c) (a_jk_refresh c) (a_jk_retry c) (a_jk_urls c) (a_access c) (a_role_token c) (a_role_header c) (a_role_cert c) x (a_prefix c).
Definition set_a_prefix (x : str) (c : authority) : authority :=
  Authority (a_url c) (a_client c) (a_exp c) (a_uri_prefix c) (a_no_pubkeyd c) (a_pk_refresh c) (a_pk_retry c) (a_pk_sys c) (a_pk_etag c) (a_pk_purge c) (a_no_policyd c) (a_domains c) (a_po_margin c) (a_po_refresh c) (a_po_purge c) (a_po_retry c) (a_po_attempts c) (a_no_jwkd c) (a_jk_refresh c) (a_jk_retry c) (a_jk_urls c) (a_access c) (a_role_token c) (a_role_header c) (a_role_cert c) (a_translator c) x.
(** Options, option.go:59-365 *)
Inductive option_ :=
| OURL (u : str) | ODomains (ds : option (list str)) | OClient (c : option client) | OCacheExp (d : duration)
| OPubkeyd (enable : bool) | OPkRefresh (t : str) | OPkRetry (t : str) | OPkSys (d : str) | OPkEtag (t : str) | OPkPurge (t : str)
| OPolicyd (enable : bool) | OPoRefresh (t : str) | OPoMargin (t : str) | OPoPurge (t : str) | OPoRetry (t : str) | OPoAttempts (n : Z)
| OJwkd (enable : bool) | OJkRefresh (t : str) | OJkRetry (t : str) | OJkURLs (us : list str)
| OAccess (p : access_param) | ORoleToken (enable : bool) | ORoleHeader (h : str)
| ORoleCert (enable : bool) | ORoleCertPrefix (p : str) | OTranslator (t : option nat) | OPrefix (p : str).
Definition opt_apply (o : option_) (c : authority) : outcome authority :=
  match o with
  | OURL u => let! u' := athenz_url u in Ok (set_a_url u' c)
  | ODomains ds => Ok (set_a_domains ds c)
  | OClient cl => Ok (set_a_client (Some match cl with None => ClientDefault30 | Some x => x end) c)
  | OCacheExp d => Ok (set_a_exp d c)
  | OPubkeyd b => Ok (set_a_no_pubkeyd (negb b) c)
  | OPkRefresh t => Ok (set_a_pk_refresh t c)
  | OPkRetry t => Ok (set_a_pk_retry t c)
  | OPkSys d => Ok (set_a_pk_sys d c)
  | OPkEtag t => Ok (set_a_pk_etag t c)
  | OPkPurge t => Ok (set_a_pk_purge t c)
  | OPolicyd b => Ok (set_a_no_policyd (negb b) c)
  | OPoRefresh t => Ok (set_a_po_refresh t c)
  | OPoMargin t => Ok (set_a_po_margin t c)
  | OPoPurge t => Ok (set_a_po_purge t c)
  | OPoRetry t => Ok (set_a_po_retry t c)
  | OPoAttempts n => Ok (set_a_po_attempts n c)
  | OJwkd b => Ok (set_a_no_jwkd (negb b) c)
  | OJkRefresh t => Ok (set_a_jk_refresh t c)
  | OJkRetry t => Ok (set_a_jk_retry t c)
  | OJkURLs us => Ok (set_a_jk_urls us c)
  | OAccess p => Ok (set_a_access p c)
  | ORoleToken b => Ok (set_a_role_token b c)
  | ORoleHeader h => Ok (set_a_role_header h c)
  | ORoleCert b => Ok (set_a_role_cert b c)
  | ORoleCertPrefix p => Ok (set_a_uri_prefix p c)
  | OTranslator t => Ok (set_a_translator t c)
  | OPrefix p => Ok (set_a_prefix p c)
  end.
(** option.go:30-43 *)
Definition default_options : list option_ :=
  [OURL (B "athenz.io/zts/v1"); OClient None; OCacheExp (60 * second); OPubkeyd true; OPolicyd true; OJwkd true;
   OAccess (AccessParam true true (B "1h") (B "1h") false ∅); ORoleToken true; ORoleHeader (B "Athenz-Role-Auth");
   ORoleCert true; ORoleCertPrefix (B "athenz://role/")].
Definition zero_authority : authority :=
  Authority [] None 0 [] false [] [] [] [] [] false None [] [] [] [] 0 false [] [] [] (AccessParam false false [] [] false ∅) false [] false None [].

(** What New returns: the parameters and the children. [au_role]: the role processor, with a
    non-nil provider or not. *)
Record authorizer := Auth {
  au_conf : authority; au_pub : option pk_conf; au_pol : option pol_conf; au_jwk : option jwk_conf;
  au_role : option bool; au_access : option acc_conf; au_kinds : list nat }.
(** initAuthorizers, authorizerd.go:217-263: role certificate (0), access token (1), role token (2). *)
Definition init_authorizers (c : authority) : outcome (list nat) :=
  match (if a_role_cert c then [0%nat] else []) ++ (if ap_enable (a_access c) then [1%nat] else []) ++ (if a_role_token c then [2%nat] else []) with
  | [] => Err (ErrMsg "error no authorizers")
  | l => Ok l
  end.
Definition when {A} (b : bool) (x : outcome A) : outcome (option A) :=
  if b then let! a := x in Ok (Some a) else Ok None.
Definition is_some {A} (x : option A) : bool := match x with Some _ => true | None => false end.
(** New, authorizerd.go:128-215.  GetProvider is never nil, so a provider is nil exactly if its
    daemon is disabled. *)
Definition new (E : parsers) (opts : list option_) : outcome authorizer :=
  let! c := apply_all opt_apply (default_options ++ opts) zero_authority in
  let! pub := when (negb (a_no_pubkeyd c)) (pubkey_new E
    [PkURL (a_url c); PkSys (a_pk_sys c); PkEtag (a_pk_etag c); PkPurge (a_pk_purge c); PkRefresh (a_pk_refresh c); PkRetry (a_pk_retry c);
     PkClient (a_client c)]) in
  let! pol := when (negb (a_no_policyd c)) (policy_new E
    [PoURL (a_url c); PoDomains (a_domains c); PoMargin (a_po_margin c); PoRefresh (a_po_refresh c); PoPurge (a_po_purge c); PoRetry (a_po_retry c);
     PoAttempts (a_po_attempts c); PoClient (a_client c); PoKeys (is_some pub)]) in
  let! jw := when (negb (a_no_jwkd c)) (jwk_new E
    [JkAthenz (a_url c); JkRefresh (a_jk_refresh c); JkRetry (a_jk_retry c); JkURLs (a_jk_urls c); JkClient (a_client c)]) in
  let! ac := when (ap_enable (a_access c)) (access_new E
    [AcJwk (is_some jw); AcBound (ap_bound (a_access c)); AcVerifyClient (ap_verify_client (a_access c)); AcClients (ap_clients (a_access c));
     AcBack (ap_back (a_access c)); AcOffset (ap_offset (a_access c))]) in
  let! kinds := init_authorizers c in
  Ok (Auth c pub pol jw (if a_role_token c then Some (is_some pub) else None) ac kinds).

(** The authorizer's part that Authorizer.v runs; [tr]: the translator behind a number. *)
Definition run_conf {O} (tr : nat -> O -> str -> str -> str -> str -> outcome (str * str)) (a : authorizer) : @zconf O :=
  ZConf (negb (a_no_policyd (au_conf a))) (option_map tr (a_translator (au_conf a))) (a_prefix (au_conf a)) (a_exp (au_conf a))
    (is_some (au_role a)) (is_some (au_access a)) (match au_access a with Some x => ac_conf x | None => AConf false 0 0 false ∅ end).
