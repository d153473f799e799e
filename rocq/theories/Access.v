(** * OAuth2 access tokens (access/processor.go, access/claim.go) *)
From Verif Require Export Base Jwk GoStrings GoStringsFacts.

(** JSON values as encoding/json decodes them into interface{}; only strings and arrays matter
    to the code, everything else (numbers, booleans, null, objects) is [JOther]. *)
Inductive json := JStr (s : str) | JArr (l : list json) | JOther.

(** The fields of *x509.Certificate the repository reads: Subject.CommonName, Issuer.CommonName,
    Raw, NotBefore and the URIs rendered with String(). *)
Record cert := Cert { c_cn : str; c_issuer : str; c_raw : str; c_not_before : time; c_uris : list str }.

(** OAuth2AccessTokenClaim with the StandardClaims it embeds (access/claim.go:60-69).  auth_time,
    ver, uid, proxy, jti and iss are never read and left out.  An absent number is 0. *)
Record claims := Claims {
  cl_client : str; cl_scope : list str; cl_confirm : gmap str json;
  cl_aud : str; cl_sub : str; cl_exp : Z; cl_iat : Z; cl_nbf : Z }.

(** The signing methods golang-jwt v4.4.1 registers, by family; the parameter is the hash. *)
Inductive method := MNone | MHMAC (h : Z) | MRSA (h : Z) | MPSS (h : Z) | MECDSA (h : Z) | MEd.
(** jwt.GetSigningMethod *)
Definition methods : list (str * method) :=
  [(B "none", MNone); (B "HS256", MHMAC 256); (B "HS384", MHMAC 384); (B "HS512", MHMAC 512);
   (B "RS256", MRSA 256); (B "RS384", MRSA 384); (B "RS512", MRSA 512);
   (B "PS256", MPSS 256); (B "PS384", MPSS 384); (B "PS512", MPSS 512);
   (B "ES256", MECDSA 256); (B "ES384", MECDSA 384); (B "ES512", MECDSA 512); (B "EdDSA", MEd)].
Fixpoint assoc {A} (l : list (str * A)) (k : str) : option A :=
  match l with
  | [] => None
  | (k', a) :: l => if bool_decide (k' = k) then Some a else assoc l k
  end.
Definition get_signing_method (alg : str) : option method := assoc methods alg.

(** The Go types jwk.Key.Raw produces: *rsa.PublicKey, *ecdsa.PublicKey, ed25519.PublicKey,
    []byte (kty oct), anything else (private keys, x25519). *)
Inductive key := KRSA (k : str) | KEC (k : str) | KEd (k : str) | KOct (k : str) | KOther (k : str).

(** The external functions: base64.RawURLEncoding.DecodeString, json.Unmarshal into the header map
    and into the claims ([None]: error), the signature primitives, and the base64 SHA-256 of a
    certificate. *)
Record jwt_ext := JwtExt {
  decode_segment : str -> option str;
  json_header : str -> option (gmap str json);
  json_claims : str -> option claims;
  raw_verify : method -> str -> str -> str -> bool;
  thumbprint : str -> str }.

(** Configuration, access/processor.go:49-58.  [jwkp = None]: nil provider. *)
Record aconf := AConf {
  a_bound : bool; a_back : Z; a_offset : Z; a_verify_client : bool; a_clients : gmap str (list str) }.

(** getAsStringFromHeader, access/processor.go:217-235, and its errors :35-42 (the header pointer is never nil). *)
Inductive hdr_err := NotFound | NotString.
Definition header_string (h : gmap str json) (k : str) : str + hdr_err :=
  match h !! k with
  | None => inr NotFound
  | Some (JStr s) => inl s
  | Some _ => inr NotString
  end.

(** keyFunc, access/processor.go:191-213 *)
Definition key_func (jwkp : option (str -> str -> option key)) (h : gmap str json) : outcome key :=
  match header_string h (B "kid") with
  | inr _ => Err (ErrMsg "kid")
  | inl kid =>
      match header_string h (B "jku") with
      | inr NotString => Err (ErrMsg "jku")
      | j =>
          match jwkp with
          | None => Panic
          | Some jwkp =>
              match jwkp kid (match j with inl s => s | inr _ => [] end) with
              | None => Err (ErrMsg "key cannot be found")
              | Some k => Ok k
              end
          end
      end
  end.

(** SigningMethod.Verify: the key must have the Go type of the family (none accepts only a private
    marker type no key set can contain). *)
Definition sig_verify (X : jwt_ext) (m : method) (k : key) (text sig : str) : bool :=
  match m, k with
  | MHMAC _, KOct b => raw_verify X m b text sig
  | (MRSA _ | MPSS _), KRSA b => raw_verify X m b text sig
  | MECDSA _, KEC b => raw_verify X m b text sig
  | MEd, KEd b => raw_verify X m b text sig
  | _, _ => false
  end.

(** BaseClaim.Valid, access/claim.go:26-56, with StandardClaims.VerifyExpiresAt, VerifyIssuedAt and
    VerifyNotBefore: the claim and the current second both go through time.Unix. *)
Definition verify_exp (c : Z) (now : Z) : bool := if c =? 0 then false else before (time_unix now) (time_unix c).
Definition verify_iat (c : Z) (now : Z) : bool := if c =? 0 then true else negb (before (time_unix now) (time_unix c)).
Definition claims_valid (now : time) (c : claims) : bool :=
  let n := unix_of now in
  verify_exp (cl_exp c) n && verify_iat (cl_iat c) n && verify_iat (cl_nbf c) n.

(** jwt.ParseWithClaims *)
Definition parse_with_claims (X : jwt_ext) (jwkp : option (str -> str -> option key)) (now : time) (tok : str) : outcome claims :=
  match split "."%char tok with
  | [p0; p1; p2] =>
      match decode_segment X p0 with
      | None => Err (ErrMsg "malformed")
      | Some hb =>
      match json_header X hb with
      | None => Err (ErrMsg "malformed")
      | Some h =>
      match decode_segment X p1 with
      | None => Err (ErrMsg "malformed")
      | Some cb =>
      match json_claims X cb with
      | None => Err (ErrMsg "malformed")
      | Some c =>
      match header_string h (B "alg") with
      | inr _ => Err (ErrMsg "alg unspecified")
      | inl alg =>
      match get_signing_method alg with
      | None => Err (ErrMsg "alg unavailable")
      | Some m =>
          let! k := key_func jwkp h in
          let cv := claims_valid now c in
          let sv := sig_verify X m k (p0 ++ "."%char :: p1) p2 in
          if cv && sv then Ok c else Err (ErrMsg "invalid token")
      end end end end end end
  | _ => Err (ErrMsg "malformed")
  end.

(** validateClientID, access/processor.go:101-119 *)
Definition validate_client_id (cf : aconf) (ct : option cert) (c : claims) : outcome unit :=
  match ct with
  | None => Err (ErrMsg "cert is nil")
  | Some ct =>
      if existsb (fun v => bool_decide (v = cl_client c)) (default [] (a_clients cf !! c_cn ct))
      then Ok tt else Err (ErrMsg "not authorized")
  end.

(** validateCertPrincipal, access/processor.go:160-189 *)
Definition validate_cert_principal (cf : aconf) (ct : cert) (c : claims) : outcome unit :=
  if a_offset cf =? 0 then Err (ErrMsg "offset 0") else
  if bool_decide (c_cn ct = []) then Err (ErrMsg "cn empty") else
  if bool_decide (cl_client c = []) then Err (ErrMsg "client_id empty") else
  if negb (bool_decide (c_cn ct = cl_client c)) then Err (ErrMsg "principal mismatch") else
  let issue := wrap64 (unix_of (c_not_before ct) + a_back cf) in
  if issue <? cl_iat c then Err (ErrMsg "issued before access token") else
  if wrap64 (cl_iat c + a_offset cf) <? issue then Err (ErrMsg "access token too old") else
  Ok tt.

(** The strings of an array, access/processor.go:144-149 *)
Fixpoint json_strings (l : list json) : list str :=
  match l with
  | [] => []
  | JStr s :: l => s :: json_strings l
  | _ :: l => json_strings l
  end.

(** validateCertificateBoundAccessToken, access/processor.go:121-158 (the two names: :30-33) *)
Definition validate_bound (X : jwt_ext) (cf : aconf) (ct : option cert) (c : claims) : outcome unit :=
  match ct with
  | None => Err (ErrMsg "cert is nil")
  | Some ct =>
      let by_thumbprint :=
        match cl_confirm c !! B "x5t#S256" with
        | Some (JStr t) =>
            bool_decide (thumbprint X (c_raw ct) = t) ||
            match validate_cert_principal cf ct c with Ok _ => true | _ => false end
        | _ => false
        end in
      let by_proxy :=
        match cl_confirm c !! B "proxy-principals#spiffe" with
        | Some (JArr l) => existsb (fun u => bool_decide (u ∈ json_strings l)) (c_uris ct)
        | _ => false
        end in
      if by_thumbprint || by_proxy then Ok tt else Err (ErrMsg "no valid bound")
  end.

(** ParseAndValidateOAuth2AccessToken, access/processor.go:71-99 *)
Definition parse_access (X : jwt_ext) (cf : aconf) (jwkp : option (str -> str -> option key)) (now : time)
    (tok : str) (ct : option cert) : outcome claims :=
  let! c := parse_with_claims X jwkp now tok in
  let! _ := if a_verify_client cf then validate_client_id cf ct c else Ok tt in
  let! _ := if a_bound cf then validate_bound X cf ct c else Ok tt in
  Ok c.
