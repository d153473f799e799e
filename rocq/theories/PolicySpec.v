(** * What a policy cache says about a request, written without goroutines. *)
From Verif Require Export Assertion.

Section spec.
  Context (U : unicode) (domain : str) (action resource : str).

  Definition is_deny (a : assertion) : Prop := a_effect a <> None.
  Definition is_allow (a : assertion) : Prop := a_effect a = None.
  Definition hits (a : assertion) : Prop := a_matches U a domain action resource = true.

  (** Cache key of a role of the domain. *)
  Definition key_of (role : str) : str := domain ++ B ":role." ++ role.

  (** The cached assertions of [role] in the request's domain. *)
  Definition holds_assertion (c : cache) (role : str) (a : assertion) : Prop :=
    exists l, c !! key_of role = Some l /\ a ∈ l.

  (** Some assertion of [role] denies / allows the request. *)
  Definition role_denies (c : cache) (role : str) : Prop :=
    exists a, holds_assertion c role a /\ hits a /\ is_deny a.
  Definition role_allows (c : cache) (role : str) : Prop :=
    exists a, holds_assertion c role a /\ hits a /\ is_allow a.

  (** Some assertion of [role] applies (boolean, to filter role lists). *)
  Definition role_hitb (c : cache) (role : str) : bool :=
    match c !! key_of role with
    | Some l => existsb (fun a => a_matches U a domain action resource) l
    | None => false
    end.

  (** The verdict on a role list: deny overrides, otherwise some allow is needed. *)
  Definition spec_denied c (roles : list str) : Prop := exists r, r ∈ roles /\ role_denies c r.
  Definition spec_allowed c (roles : list str) : Prop :=
    (forall r, r ∈ roles -> ~ role_denies c r) /\ exists r, r ∈ roles /\ role_allows c r.
  Definition spec_no_match c (roles : list str) : Prop :=
    forall r, r ∈ roles -> ~ role_denies c r /\ ~ role_allows c r.
End spec.

(** A slice is deny-first: a (possibly empty) run of denials, then only allows. *)
Definition deny_first (l : list assertion) : Prop :=
  exists d k, l = d ++ k /\ Forall is_deny d /\ Forall is_allow k.
Definition deny_first_cache (c : cache) : Prop :=
  forall key l, c !! key = Some l -> deny_first l.
