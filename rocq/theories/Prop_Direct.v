(** * Property C108: the HTTP methods and the methods that are given a token agree *)
From Verif Require Import Prop_Authorizer Prop_Kinds Prop_Query Prop_Bypass Api.
From Verif Require Prop_PubKey Prop_Fetcher Prop_Role Prop_Access.
From Verif Require Import GoStrings.

(** ** Specification *)
(** The methods of the API that take a token, given what the HTTP request [r] carries: AuthorizeRoleToken
    with its role token header, AuthorizeAccessToken with its bearer token and the leaf certificate of the
    connection.  They take no query.  Each is there if its kind of token is enabled. *)
Inductive direct {O} (cf : @zconf O) (r : http_request) (act res : str) : request -> Prop :=
| direct_role : z_role cf = true -> direct cf r act res (Req MRole (h_role r) act res [] None)
| direct_access tok : z_access cf = true -> header_token (h_authz r) tok -> direct cf r act res (Req MAccess tok act res [] (leaf (h_tls r))).

Section direct.
  Context (K : crypto) (X : jwt_ext) {O : Type}.
  Notation authorize := (authorize K X). Notation authorizers := (authorizers K X). Notation authorize_loop := (authorize_loop K).
  Implicit Types (cf : @zconf O).
  Lemma carried_direct cf r act res q : direct cf r act res q -> carries cf r act res (with_query (h_query r) q).
  Proof. intros [H|tok H Ht]; unfold carries; cbn; done. Qed.
  Lemma direct_carried cf r act res q : carries cf r act res q -> direct cf r act res (with_query [] q) /\ q = with_query (h_query r) (with_query [] q).
  Proof.
    destruct q as [m tok a rs qu ct]. unfold carries, with_query. cbn. intros (-> & -> & -> & H). split; [|done].
    destruct m; [destruct H as (H & -> & ->); by constructor|destruct H as (H & Ht & ->); by constructor].
  Qed.
  (** Where the query has no say, a call comes to the same with and without it. *)
  Lemma same_call cf e q query c : z_trans cf = None \/ query = [] -> q_query q = [] ->
    authorize cf e (with_query query q) c = authorize cf e q c.
  Proof.
    intros [H| ->] Hq; [by apply C106_query_ignored_without_rules|]. destruct q; cbn in *. by subst.
  Qed.
  (** If there are no mapping rules, or the request has no query, Authorize succeeds just if one of the
      methods that take a token does with what the request carries. *)
  Theorem C108_http_and_direct_agree_partial cf rc r act res l es c : authorizers rc cf r act res = Some l ->
    z_trans cf = None \/ h_query r = [] ->
    (forall q, direct cf r act res q -> fst (authorize cf (es (slot cf (q_mode q))) q c) <> Panic) ->
    ((exists p, fst (authorize_loop cf l es c) = Ok p) <->
     (exists q p, direct cf r act res q /\ fst (authorize cf (es (slot cf (q_mode q))) q c) = Ok p)).
  Proof.
    intros Hl Ht Hp.
    assert (forall q, carries cf r act res q -> direct cf r act res (with_query [] q) /\
      authorize cf (es (slot cf (q_mode q))) q c = authorize cf (es (slot cf (q_mode q))) (with_query [] q) c) as Hc.
    { intros q Hq. destruct (direct_carried _ _ _ _ _ Hq) as [Hd Heq]. split; [done|]. rewrite Heq at 2. by apply same_call. }
    split.
    - intros [p H]. destruct (authorize_loop cf l es c) as [x c'] eqn:E. cbn in H. subst x.
      destruct (C79_accepted_on_carried_credential _ _ _ _ _ _ _ _ _ _ Hl E) as (q & Hq & Ha).
      destruct (Hc _ Hq) as [Hd Heq]. exists (with_query [] q), p. split; [done|]. cbn [with_query q_mode]. rewrite <- Heq, Ha. done.
    - intros (q & p & Hd & Ha). pose proof (carried_direct _ _ _ _ _ Hd) as Hq.
      assert (q_query q = []) as Hn by (by destruct Hd).
      destruct (authorize cf (es (slot cf (q_mode q))) q c) as [x c'] eqn:E. cbn in Ha. subst x.
      assert (authorize cf (es (slot cf (q_mode (with_query (h_query r) q)))) (with_query (h_query r) q) c = (Ok p, c')) as E' by (rewrite same_call; done).
      destruct (C79_carried_credential_suffices _ _ _ _ _ _ _ _ _ _ _ Hl Hq E') as (p2 & c2 & H).
      { intros q' Hq'. destruct (Hc _ Hq') as [Hd' ->]. by apply (Hp (with_query [] q')). }
      exists p2. by rewrite H.
  Qed.
  (** With one kind of token enabled, they return the same principal and leave the same cache. *)
  Theorem C108_role_token_same_result cf r act res es c : z_access cf = false -> z_role cf = true ->
    z_trans cf = None \/ h_query r = [] ->
    exists l, authorizers false cf r act res = Some l /\
      let d := authorize cf (es 0%nat) (Req MRole (h_role r) act res [] None) c in
      snd (authorize_loop cf l es c) = snd d /\
      fst (authorize_loop cf l es c) = match fst d with Err _ => Err ErrInvalidCredentials | x => x end.
  Proof.
    intros Ha Hr Ht. unfold Authorizer.authorizers. rewrite Ha, Hr. eexists. split; [reflexivity|]. cbn.
    unfold rt_authorizer. rewrite <- (same_call cf (es 0%nat) (Req MRole (h_role r) act res [] None) (h_query r) c Ht eq_refl).
    unfold with_query. cbn. destruct (authorize _ _ _ _) as [[p|e|] c']; done.
  Qed.
  Theorem C108_access_token_same_result cf r tok act res es c : z_access cf = true -> z_role cf = false ->
    z_trans cf = None \/ h_query r = [] -> header_token (h_authz r) tok ->
    exists l, authorizers false cf r act res = Some l /\
      let d := authorize cf (es 0%nat) (Req MAccess tok act res [] (leaf (h_tls r))) c in
      snd (authorize_loop cf l es c) = snd d /\
      fst (authorize_loop cf l es c) = match fst d with Err _ => Err ErrInvalidCredentials | x => x end.
  Proof.
    intros Ha Hr Ht Htok. unfold Authorizer.authorizers. rewrite Ha, Hr. eexists. split; [reflexivity|]. cbn.
    apply extract_spec in Htok. unfold at_authorizer. rewrite Htok, leaf_match.
    rewrite <- (same_call cf (es 0%nat) (Req MAccess tok act res [] (leaf (h_tls r))) (h_query r) c Ht eq_refl).
    unfold with_query. cbn. destruct (authorize _ _ _ _) as [[p|e|] c']; done.
  Qed.
  (** In the whole system: the calls of authorize that an HTTP method makes are those of the methods that
      take a token. *)
  Theorem C108_same_calls (cf : @vconf O) r act res q : h_query r = [] ->
    (TReq q ∈ http_tries cf r act res <-> direct (s_z (v_sys cf)) r act res q).
  Proof.
    intros Hq. unfold http_tries. rewrite Hq. split.
    - rewrite !elem_of_app. intros [H|[H|H]].
      + destruct (v_rc cf); [|by apply elem_of_nil in H]. apply elem_of_list_singleton in H. discriminate H.
      + destruct (z_access _) eqn:E; [|by apply elem_of_nil in H]. apply elem_of_list_singleton in H.
        destruct (extract_token (h_authz r)) as [tok| |] eqn:Et; [|done..]. injection H as ->. rewrite leaf_match. constructor; [done|by apply extract_spec].
      + destruct (z_role _) eqn:E; [|by apply elem_of_nil in H]. apply elem_of_list_singleton in H. injection H as ->. by constructor.
    - rewrite !elem_of_app. intros [H|tok H Ht].
      + right. right. rewrite H. by apply elem_of_list_singleton.
      + right. left. rewrite H. apply extract_spec in Ht. rewrite Ht, leaf_match. by apply elem_of_list_singleton.
  Qed.
End direct.

(** ** With mapping rules and a query *)
Section exs.
  Import Prop_PubKey Prop_Fetcher Prop_Authorizer Prop_Access.
  (** The policy grants everything but /secret; the rules turn GET /open into a get of /secret. *)
  Definition guarded (t : time) : @env K1 unit :=
    Env K1 t (e_keys K1 (env1 t)) tt (fun _ rs _ res => if bool_decide (res = B "/p/secret") then Err ErrDenyByPolicy else Ok rs).
  Definition open_cf : @zconf unit := s_z ocf.
  Definition asking (query : str) : http_request := HReq None [] rtok query.
  Definition over_http (query : str) : option (outcome principal) :=
    match authorizers K1 X0 false open_cf (asking query) (B "GET") (B "/open") with
    | Some l => Some (fst (authorize_loop K1 open_cf l (fun _ => guarded (50 * second)) ∅))
    | None => None
    end.
  Definition with_token : outcome principal :=
    fst (authorize K1 X0 open_cf (guarded (50 * second)) (Req MRole rtok (B "GET") (B "/open") [] None) ∅).
  (** With a query and mapping rules the two do not agree: the same token, action and resource is
      refused by AuthorizeRoleToken and, with a parameter in the query, granted by Authorize. *)
  Theorem C108_http_and_direct_agree_refuted : ~ forall (cf : @zconf unit) rc r act res l es c, authorizers K1 X0 rc cf r act res = Some l ->
    (forall q, direct cf r act res q -> fst (authorize K1 X0 cf (es (slot cf (q_mode q))) q c) <> Panic) ->
    (exists p, fst (authorize_loop K1 cf l es c) = Ok p) ->
    exists q p, direct cf r act res q /\ fst (authorize K1 X0 cf (es (slot cf (q_mode q))) q c) = Ok p.
  Proof.
    intros H.
    assert (match over_http (B "x") with Some o => is_ok o | None => false end = true) as Ho by (vm_compute; reflexivity).
    assert (with_token = Err ErrDenyByPolicy) as Hw by (vm_compute; reflexivity).
    unfold over_http in Ho. destruct (authorizers K1 X0 false open_cf (asking (B "x")) (B "GET") (B "/open")) as [l|] eqn:El; [|discriminate Ho].
    assert (forall q, direct open_cf (asking (B "x")) (B "GET") (B "/open") q -> fst (authorize K1 X0 open_cf (guarded (50 * second)) q ∅) = Err ErrDenyByPolicy) as Hd.
    { intros q [_|tok _ [Ht _]]; [exact Hw|]. by destruct Ht. }
    destruct (H open_cf false (asking (B "x")) (B "GET") (B "/open") l (fun _ => guarded (50 * second)) ∅ El) as (q & p & Hq & Ha).
    - intros q Hq. rewrite (Hd _ Hq). discriminate.
    - destruct (fst (authorize_loop K1 open_cf l _ ∅)) as [p| |]; [by exists p|discriminate Ho..].
    - rewrite (Hd _ Hq) in Ha. discriminate Ha.
  Qed.
  Example C108_nonvacuous :
    direct open_cf (asking []) (B "GET") (B "/other") (Req MRole rtok (B "GET") (B "/other") [] None) /\
    option_map is_ok (over_http []) = Some false /\ option_map is_ok (over_http (B "x")) = Some true /\ is_ok with_token = false /\
    is_ok (fst (authorize K1 X0 open_cf (guarded (50 * second)) (Req MRole rtok (B "GET") (B "/other") [] None) ∅)) = true.
  Proof. split; [by apply direct_role|]. split_and!; vm_compute; reflexivity. Qed.
End exs.
Print Assumptions C108_http_and_direct_agree_partial.
Print Assumptions C108_role_token_same_result.
Print Assumptions C108_access_token_same_result.
Print Assumptions C108_same_calls.
Print Assumptions C108_http_and_direct_agree_refuted.
Print Assumptions C108_nonvacuous.
