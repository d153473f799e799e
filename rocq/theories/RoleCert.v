(** * VerifyRoleCert (authorizerd.go:501-548) *)
From Verif Require Export Access GoStrings GoStringsFacts.

(** The maps drcheck and domainRoles, authorizerd.go:507-508 *)
Record rcst := RcSt { rc_seen : gset str; rc_roles : gmap str (list str) }.

(** addDomainRoles, authorizerd.go:509-519: [dr] is the result of SplitN(_, _, 2). *)
Definition add_domain_roles (s : rcst) (dr : list str) : rcst :=
  match dr with
  | [domain; role] =>
      if bool_decide (domain ++ role ∈ rc_seen s) then s
      else RcSt ({[ domain ++ role ]} ∪ rc_seen s)
                (<[domain := default [] (rc_roles s !! domain) ++ [role]]> (rc_roles s))
  | _ => s
  end.

(** One URI, authorizerd.go:527-532 ([pfx]: roleCertURIPrefix) *)
Definition add_uri (pfx : str) (s : rcst) (uri : str) : rcst :=
  if has_prefix pfx uri then add_domain_roles s (split_n2 (B "/") (trim_prefix pfx uri)) else s.
(** One certificate, authorizerd.go:522-532; roleInCNDelimiter is ":role." (authorizerd.go:122) *)
Definition add_cert (pfx : str) (s : rcst) (c : cert) : rcst :=
  fold_left (add_uri pfx) (c_uris c) (add_domain_roles s (split_n2 (B ":role.") (c_cn c))).
Definition cert_roles (pfx : str) (certs : list cert) : gmap str (list str) :=
  rc_roles (fold_left (add_cert pfx) certs (RcSt ∅ ∅)).

(** The loop over domainRoles, authorizerd.go:539-546.  [order]: the domains in the order the map
    iteration visits them; the i-th call of CheckPolicy is answered by [check i] ([None]: nil error;
    it never panics, C06), since the policy may change between the calls. *)
Fixpoint check_domains (check : nat -> str -> list str -> option error) (m : gmap str (list str))
    (i : nat) (order : list str) (last : error) : outcome unit :=
  match order with
  | [] => Err last
  | d :: order =>
      match check i d (default [] (m !! d)) with
      | None => Ok tt
      | Some e => check_domains check m (S i) order e
      end
  end.

(** VerifyRoleCert, authorizerd.go:502-548.  [disabled]: disablePolicyd. *)
Definition verify_role_cert (disabled : bool) (pfx : str) (check : nat -> str -> list str -> option error)
    (order : list str) (certs : list cert) : outcome unit :=
  if disabled then Ok tt
  else
    let m := cert_roles pfx certs in
    if bool_decide (m = ∅) then Err (ErrMsg "invalid role certificate")
    else check_domains check m 0 order (ErrMsg "").
(** What Go guarantees about the iteration order. *)
Definition valid_order (pfx : str) (certs : list cert) (order : list str) : Prop :=
  NoDup order /\ forall d, d ∈ order <-> is_Some (cert_roles pfx certs !! d).
