(** * Role tokens (role/token.go, role/processor.go) *)
From Verif Require Export Fetcher GoStrings GoStringsFacts.

(** Token, role/token.go:28-44 *)
Record token := Token {
  rt_domain : str; rt_roles : list str; rt_principal : str; rt_time : time; rt_expiry : time;
  rt_key : str; rt_sig : str; rt_unsigned : str }.

(** SetParams, role/token.go:47-84 (the commented-out cases are ignored keys). *)
Definition set_params (t : token) (key value : str) : outcome token :=
  if str_eqb key (B "d") then
    Ok (Token value (rt_roles t) (rt_principal t) (rt_time t) (rt_expiry t) (rt_key t) (rt_sig t) (rt_unsigned t))
  else if str_eqb key (B "e") then
    match parse_int value with
    | None => Err (ErrMsg "invalid expiry time")
    | Some i => Ok (Token (rt_domain t) (rt_roles t) (rt_principal t) (rt_time t) (time_unix i) (rt_key t) (rt_sig t) (rt_unsigned t))
    end
  else if str_eqb key (B "k") then
    Ok (Token (rt_domain t) (rt_roles t) (rt_principal t) (rt_time t) (rt_expiry t) value (rt_sig t) (rt_unsigned t))
  else if str_eqb key (B "p") then
    Ok (Token (rt_domain t) (rt_roles t) value (rt_time t) (rt_expiry t) (rt_key t) (rt_sig t) (rt_unsigned t))
  else if str_eqb key (B "r") then
    Ok (Token (rt_domain t) (split ","%char value) (rt_principal t) (rt_time t) (rt_expiry t) (rt_key t) (rt_sig t) (rt_unsigned t))
  else if str_eqb key (B "s") then
    Ok (Token (rt_domain t) (rt_roles t) (rt_principal t) (rt_time t) (rt_expiry t) (rt_key t) value (rt_unsigned t))
  else if str_eqb key (B "t") then
    match parse_int value with
    | None => Err (ErrMsg "invalid timestamp")
    | Some i => Ok (Token (rt_domain t) (rt_roles t) (rt_principal t) (time_unix i) (rt_expiry t) (rt_key t) (rt_sig t) (rt_unsigned t))
    end
  else Ok t.

(** The loop over the pairs, role/processor.go:70-78 *)
Fixpoint set_pairs (t : token) (pairs : list str) : outcome token :=
  match pairs with
  | [] => Ok t
  | p :: pairs =>
      match split_n2 (B "=") p with
      | [k; v] => let! t' := set_params t k v in set_pairs t' pairs
      | _ => Err ErrRoleTokenInvalid
      end
  end.

(** parseToken, role/processor.go:59-81 *)
Definition parse_token (tok : str) : outcome token :=
  match split_n2 (B ";s=") tok with
  | [u; s] => set_pairs (Token [] [] [] zero_time zero_time [] s u) (split ";"%char u)
  | _ => Err ErrRoleTokenInvalid
  end.

(** Expired, role/token.go:87-89 *)
Definition rt_expired (now : time) (t : token) : bool := after now (rt_expiry t).

(** validate, role/processor.go:83-92.  [pkp] is nil when the processor was built without
    WithPubkeyProvider (role/processor.go:31-44, role/option.go:23-36). *)
Definition rt_validate (K : crypto) (pkp : option (provider K)) (now : time) (t : token) : outcome unit :=
  if rt_expired now t then Err ErrRoleTokenExpired else
  match pkp with
  | None => Panic
  | Some pkp =>
      match pkp EnvZTS (rt_key t) with
      | None => Err ErrRoleTokenInvalid
      | Some v => if vfy K v (rt_unsigned t) (rt_sig t) then Ok tt else Err (ErrMsg "signature verification failed")
      end
  end.

(** ParseAndValidateRoleToken, role/processor.go:47-57 *)
Definition parse_and_validate (K : crypto) (pkp : option (provider K)) (now : time) (tok : str) : outcome token :=
  let! t := parse_token tok in
  let! _ := rt_validate K pkp now t in
  Ok t.
