(** * Properties C43-C49, C51-C55: the authorizer *)
From Verif Require Import AuthorizerFacts.
From Verif Require Prop_Fetcher Prop_Access.

(** ** An instance for the examples: keys and tokens as in Prop_Fetcher and Prop_Access *)
Notation K1 := Prop_Fetcher.K1.
Notation X0 := Prop_Access.X0.
Definition ks1 : keys K1 := Keys K1 (Some Prop_Fetcher.keys1) (Some Prop_Access.p0).
Definition tr1 : unit -> str -> str -> str -> str -> outcome (str * str) := fun _ _ a r _ => Ok (a, r).
Definition cfz (pol : bool) (exp : duration) (ac : aconf) : @zconf unit := ZConf pol (Some tr1) (B "/p") exp true true ac.
(** A role token expiring at second 100, and an access token bound to certificate RAW. *)
Definition rtok : str := B "d=dom;r=r1,r2;p=user;t=1;e=100;k=0;s=ZTSKEYd=dom;r=r1,r2;p=user;t=1;e=100;k=0".
Definition atok : str := B "RS256,1.A.K1RS256,1A".
Definition rq (res query : str) : request := Req MRole rtok (B "get") res query None.
(** Labels of a complete call. *)
Definition call (i : nat) (q : request) : list (@zlabel K1 unit) :=
  [ZCall K1 i q; ZLook K1 i; ZParse K1 i ks1; ZTrans K1 i tt; ZPolicy K1 i (Ok [B "r1"]); ZStore K1 i].
Definition results (o : option (@zst)) : list (option (outcome principal)) :=
  match o with Some s => map (fun t => match t with CDone _ r => Some r | _ => None end) (z_tasks s) | None => [] end.
Definition ok_name (r : option (outcome principal)) : option str :=
  match r with Some (Ok p) => Some (pr_name p) | _ => None end.

Section props.
  Context {K : crypto} {X : jwt_ext} {O : Type}.
  Implicit Types (cf : @zconf O) (s : zst) (ls : list (@zlabel K O)).

  (** The answer to call [i] was given at time [tl]: by a cache hit, or right after storing. *)
  Definition answered_at cf s0 ls i q p tl : Prop :=
    looked (X:=X) cf s0 ls i q tl \/
    (stored (X:=X) cf s0 ls i q p tl /\ exists tv, evaluated (X:=X) cf s0 ls i q p tv).

  (** ** C54, C43 *)
  Theorem C54_success_is_backed cf n t0 ls s i q p : zrun K X cf ls (zinit n t0) = Some s ->
    z_tasks s !! i = Some (CDone q (Ok p)) ->
    exists j q' tv ts tl, cache_key cf q' = cache_key cf q /\ ZCall K j q' ∈ ls /\
      evaluated (X:=X) cf (zinit n t0) ls j q' p tv /\ stored (X:=X) cf (zinit n t0) ls j q' p ts /\
      answered_at cf (zinit n t0) ls i q p tl /\ tv <= ts <= tl /\ tl <= z_clock s.
  Proof.
    intros H Hi. destruct (machine_inv _ _ _ _ _ H) as (_ & Ht & _). destruct (Ht _ _ Hi) as (_ & _ & tl & Hle & (j & q' & tv & ts & H1 & H2 & H3 & H4 & _) & Hd).
    exists j, q', tv, ts, tl. split; [done|]. split.
    { destruct H3 as (s1 & (l1 & l2 & -> & Hr) & Hs & _). destruct (machine_inv _ _ _ _ _ Hr) as (_ & Ht1 & _).
      destruct (Ht1 _ _ Hs) as (Hc & _). apply elem_of_app. by left. }
    split_and!; try done; try lia. destruct Hd as [(ts' & tv' & Hs & -> & He)|Hl]; [right; split; [done|by exists tv']|by left].
  Qed.
  Theorem C43_bounded_staleness cf n t0 ls s i q p : zrun K X cf ls (zinit n t0) = Some s ->
    z_tasks s !! i = Some (CDone q (Ok p)) -> 0 <= t0 -> 0 < z_exp cf -> z_clock s + z_exp cf <= max_int64 ->
    exists j q' tv ts tl, cache_key cf q' = cache_key cf q /\ ZCall K j q' ∈ ls /\
      evaluated (X:=X) cf (zinit n t0) ls j q' p tv /\ stored (X:=X) cf (zinit n t0) ls j q' p ts /\
      answered_at cf (zinit n t0) ls i q p tl /\ tv <= ts <= tl /\ tl <= ts + z_exp cf.
  Proof.
    intros H Hi Ht0 Hexp Hmax. destruct (machine_inv _ _ _ _ _ H) as (Hc & Ht & _).
    destruct (Ht _ _ Hi) as (_ & _ & tl & Hle & (j & q' & tv & ts & H1 & H2 & H3 & H4 & H5) & Hd).
    assert (ZCall K j q' ∈ ls /\ t0 <= ts) as [Hcall Hts].
    { destruct H3 as (s1 & (l1 & l2 & -> & Hr) & Hs & <-). destruct (machine_inv _ _ _ _ _ Hr) as (Hc1 & Ht1 & _).
      destruct (Ht1 _ _ Hs) as (Hcc & _). split; [apply elem_of_app; by left|done]. }
    exists j, q', tv, ts, tl. split_and!; try done; try (specialize (H5 ltac:(lia) ltac:(lia) ltac:(lia)); lia).
    destruct Hd as [(ts' & tv' & Hs & -> & He)|Hl]; [right; split; [done|by exists tv']|by left].
  Qed.
  (** Other calls never touch a call in progress, and no call ever waits for another. *)
  Definition own (i : nat) (l : @zlabel K O) : bool :=
    match l with
    | ZCall _ j _ | ZLook _ j | ZParse _ j _ | ZTrans _ j _ | ZPolicy _ j _ | ZStore _ j => Nat.eqb i j
    | _ => false
    end.
  Theorem C54_calls_are_isolated cf l s s' i : zstep K X cf l s = Some s' -> own i l = false -> z_tasks s' !! i = z_tasks s !! i.
  Proof.
    intros H Ho. destruct l as [t|j q|j|j ks|j o|j r|j|k|]; cbn [zstep own] in *; try apply Nat.eqb_neq in Ho;
      repeat (case_match; try done); injection H as <-; cbn [set_task z_tasks]; try done; by rewrite list_lookup_insert_ne.
  Qed.
  Theorem C54_never_blocked cf s i t (o : O) (ks : keys K) r : z_tasks s !! i = Some t -> t <> CIdle -> (forall q r', t <> CDone q r') ->
    exists l s', own i l = true /\ zstep K X cf l s = Some s' /\
      (l = ZLook K i \/ l = ZParse K i ks \/ l = ZTrans K i o \/ l = ZPolicy K i r \/ l = ZStore K i).
  Proof.
    intros Hi Hne Hnd. destruct t as [|q|q|q p|q p a rs|q p|q r']; [done|..|by destruct (Hnd q r')].
    - exists (ZLook K i). eexists. cbn [own zstep]. rewrite Nat.eqb_refl, Hi. split_and!; [done..|tauto].
    - exists (ZParse K i ks). eexists. cbn [own zstep]. rewrite Nat.eqb_refl, Hi. split_and!; [done..|tauto].
    - exists (ZTrans K i o). eexists. cbn [own zstep]. rewrite Nat.eqb_refl, Hi. split_and!; [done..|tauto].
    - exists (ZPolicy K i r). eexists. cbn [own zstep]. rewrite Nat.eqb_refl, Hi. split_and!; [done..|tauto].
    - exists (ZStore K i). eexists. cbn [own zstep]. rewrite Nat.eqb_refl, Hi. split_and!; [done..|tauto].
  Qed.
  (** The stand-alone function used for HTTP requests is the call run without interruption. *)
  Theorem C54_authorize_is_a_schedule cf (e : env K) q c :
    exists ls s, zrun K X cf ls (ZSt c (e_now K e) [CIdle]) = Some s /\ (forall l, l ∈ ls -> own 0 l = true) /\
      z_tasks s = [CDone q (fst (authorize K X cf e q c))] /\ z_cache s = snd (authorize K X cf e q c) /\ z_clock s = e_now K e.
  Proof.
    assert (forall l : @zlabel K O, l ∈ [] -> own 0 l = true) as H0 by (intros l Hl; by apply elem_of_nil in Hl).
    assert (forall (l : @zlabel K O) ls, own 0 l = true -> (forall l, l ∈ ls -> own 0 l = true) -> forall l', l' ∈ l :: ls -> own 0 l' = true) as Hc.
    { intros l ls Hl Hls l' Hl'. apply elem_of_cons in Hl' as [-> |?]; auto. }
    unfold authorize. destruct (empty_params cf q) eqn:Ee.
    { eexists [ZCall K 0 q], _. cbn. rewrite Ee. split_and!; try done. by apply Hc. }
    destruct (g_get (e_now K e) (cache_key cf q) c) as [p|] eqn:Eg.
    { eexists [ZCall K 0 q; ZLook K 0], _. cbn. rewrite Ee. cbn. rewrite Eg. split_and!; try done. apply Hc; [done|]. by apply Hc. }
    destruct (process K X cf (e_keys K e) (e_now K e) q) as [p|er|] eqn:Ep.
    2:{ eexists [ZCall K 0 q; ZLook K 0; ZParse K 0 (e_keys K e)], _. cbn. rewrite Ee. cbn. rewrite Eg. cbn. rewrite Ep. cbn. split_and!; try done. by repeat apply Hc. }
    2:{ eexists [ZCall K 0 q; ZLook K 0; ZParse K 0 (e_keys K e)], _. cbn. rewrite Ee. cbn. rewrite Eg. cbn. rewrite Ep. cbn. split_and!; try done. by repeat apply Hc. }
    destruct (z_policy cf) eqn:Epol.
    2:{ eexists [ZCall K 0 q; ZLook K 0; ZParse K 0 (e_keys K e); ZStore K 0], _. cbn. rewrite Ee. cbn. rewrite Eg. cbn. rewrite Ep. cbn. rewrite ?Epol. cbn. split_and!; try done. by repeat apply Hc. }
    destruct (target cf (e_order K e) p q) as [[a r]|er|] eqn:Et.
    2:{ eexists [ZCall K 0 q; ZLook K 0; ZParse K 0 (e_keys K e); ZTrans K 0 (e_order K e)], _. cbn [zrun zstep z_tasks lookup list_lookup]. rewrite Ee. cbn. rewrite Eg. cbn. rewrite Ep. cbn. rewrite ?Epol. cbn. rewrite Et. cbn. split_and!; try done. by repeat apply Hc. }
    2:{ eexists [ZCall K 0 q; ZLook K 0; ZParse K 0 (e_keys K e); ZTrans K 0 (e_order K e)], _. cbn [zrun zstep z_tasks lookup list_lookup]. rewrite Ee. cbn. rewrite Eg. cbn. rewrite Ep. cbn. rewrite ?Epol. cbn. rewrite Et. cbn. split_and!; try done. by repeat apply Hc. }
    set (acc := e_check K e (pr_domain p) (pr_roles p) a r).
    destruct acc as [ac|er|] eqn:Ea; subst acc.
    - eexists [ZCall K 0 q; ZLook K 0; ZParse K 0 (e_keys K e); ZTrans K 0 (e_order K e); ZPolicy K 0 (Ok ac); ZStore K 0], _.
      cbn [zrun zstep z_tasks lookup list_lookup]. rewrite Ee. cbn. rewrite Eg. cbn. rewrite Ep. cbn. rewrite ?Epol. cbn. rewrite Et. cbn. rewrite Ea. cbn. split_and!; try done. by repeat apply Hc.
    - eexists [ZCall K 0 q; ZLook K 0; ZParse K 0 (e_keys K e); ZTrans K 0 (e_order K e); ZPolicy K 0 (Err er)], _.
      cbn [zrun zstep z_tasks lookup list_lookup]. rewrite Ee. cbn. rewrite Eg. cbn. rewrite Ep. cbn. rewrite ?Epol. cbn. rewrite Et. cbn. rewrite Ea. cbn. split_and!; try done. by repeat apply Hc.
    - eexists [ZCall K 0 q; ZLook K 0; ZParse K 0 (e_keys K e); ZTrans K 0 (e_order K e); ZPolicy K 0 Panic], _.
      cbn [zrun zstep z_tasks lookup list_lookup]. rewrite Ee. cbn. rewrite Eg. cbn. rewrite Ep. cbn. rewrite ?Epol. cbn. rewrite Et. cbn. rewrite Ea. cbn. split_and!; try done. by repeat apply Hc.
  Qed.

  (** ** C45 *)
  (** Only a successful call changes the cache, and only under its own key. *)
  Theorem C45_only_success_stores cf l s s' : zstep K X cf l s = Some s' ->
    z_cache s' = z_cache s \/ (exists k, l = ZPurge K k /\ z_cache s' = delete k (z_cache s)) \/ l = ZClear K \/
    exists i q p, l = ZStore K i /\ z_tasks s !! i = Some (CStore q p) /\ z_tasks s' !! i = Some (CDone q (Ok p)) /\
      z_cache s' = g_set (z_clock s) (cache_key cf q) p (z_exp cf) (z_cache s).
  Proof.
    intros H. destruct l as [t|j q|j|j ks|j o|j r|j|k|]; cbn [zstep] in H; try (left; repeat (case_match; try done); injection H as <-; done).
    - destruct (z_tasks s !! j) as [[]|] eqn:E; try done. injection H as <-. right. right. right. exists j, q, p. split_and!; try done.
      cbn. rewrite list_lookup_insert; [done|]. by apply lookup_lt_Some in E.
    - destruct (z_cache s !! k) as [e|]; [|done]. destruct (g_valid (z_clock s) e); [done|]. injection H as <-. right. left. by exists k.
    - right. right. by left.
  Qed.
  Theorem C45_failure_not_cached cf l s s' i q r : zstep K X cf l s = Some s' -> own i l = true ->
    z_tasks s' !! i = Some (CDone q r) -> (forall p, r <> Ok p) -> z_cache s' = z_cache s.
  Proof.
    intros H Ho Hi Hr. destruct (C45_only_success_stores _ _ _ _ H) as [?|[(k & -> & _)|[->|(j & q' & p & -> & _ & Hj & _)]]]; try done.
    cbn in Ho. apply Nat.eqb_eq in Ho as <-. rewrite Hj in Hi. injection Hi as <- <-. by destruct (Hr p).
  Qed.
  Theorem C45_failed_call_leaves_cache cf (e : env K) q c er c' : authorize K X cf e q c = (Err er, c') -> c' = c.
  Proof.
    unfold authorize. intros H. destruct (empty_params cf q); [by injection H|]. destruct (g_get _ _ c); [done|].
    match type of H with (match ?x with _ => _ end) = _ => destruct x end; by injection H.
  Qed.
  (** Without a stored success of the same key the token is examined. *)
  Theorem C45_miss_is_evaluated cf n t0 ls s i q s' : zrun K X cf ls (zinit n t0) = Some s -> z_tasks s !! i = Some (CLook q) ->
    (forall j q' p ts, cache_key cf q' = cache_key cf q -> ~ stored (X:=X) cf (zinit n t0) ls j q' p ts) ->
    zstep K X cf (ZLook K i) s = Some s' -> z_tasks s' !! i = Some (CParse q).
  Proof.
    intros H Hi Hn Hstep. destruct (machine_inv _ _ _ _ _ H) as (_ & _ & Hc). cbn [zstep] in Hstep. rewrite Hi in Hstep.
    unfold g_get in Hstep. destruct (z_cache s !! cache_key cf q) as [e|] eqn:E.
    - destruct (Hc _ _ E) as (j & q' & tv & ts & Hk & _ & Hst & _). by destruct (Hn j q' (ge_val e) ts Hk).
    - injection Hstep as <-. cbn. rewrite list_lookup_insert; [done|]. by apply lookup_lt_Some in Hi.
  Qed.

  (** ** C46 *)
  Theorem C46_empty_parameters cf n t0 ls s i q : zrun K X cf ls (zinit n t0) = Some s -> z_policy cf = true -> q_act q = [] \/ q_res q = [] ->
    ZCall K i q ∈ ls -> z_tasks s !! i = Some (CDone q (Err ErrInvalidParameters)).
  Proof.
    intros H Hpol He Hin.
    assert (empty_params cf q = true) as Hemp.
    { unfold empty_params. rewrite Hpol. destruct He as [-> | ->]; [done|]. cbn. by rewrite orb_true_r. }
    clear He Hpol. revert s H. induction ls as [|l ls IH] using rev_ind; intros s H; [by apply elem_of_nil in Hin|].
    apply zrun_snoc in H as (s1 & Hr & Hstep). apply elem_of_app in Hin as [Hin|Hin].
    - specialize (IH Hin _ Hr). destruct (own i l) eqn:Ho; [|by rewrite (C54_calls_are_isolated _ _ _ _ _ Hstep Ho)].
      exfalso. destruct l as [t|j q'|j|j ks|j o|j r|j|k|]; cbn [own] in Ho; try done; apply Nat.eqb_eq in Ho as <-; cbn [zstep] in Hstep; by rewrite IH in Hstep.
    - apply elem_of_list_singleton in Hin as <-. cbn [zstep] in Hstep. destruct (z_tasks s1 !! i) as [[]|] eqn:E; try done.
      injection Hstep as <-. rewrite Hemp. cbn. rewrite list_lookup_insert; [done|]. by apply lookup_lt_Some in E.
  Qed.
  Theorem C46_empty_parameters_http cf (e : env K) q c : z_policy cf = true -> q_act q = [] \/ q_res q = [] ->
    authorize K X cf e q c = (Err ErrInvalidParameters, c).
  Proof. intros H He. unfold authorize, empty_params. rewrite H. destruct He as [-> | ->]; cbn; [done|]. by rewrite orb_true_r. Qed.

  (** ** C48 *)
  (** What a principal says about a token. *)
  Definition describes_role (t : token) (p : principal) : Prop :=
    pr_name p = rt_principal t /\ pr_roles p = rt_roles t /\ pr_domain p = rt_domain t /\
    pr_issue p = unix_of (rt_time t) /\ pr_expiry p = unix_of (rt_expiry t) /\ pr_client p = None.
  Definition describes_access (c : claims) (p : principal) : Prop :=
    pr_name p = cl_sub c /\ pr_roles p = cl_scope c /\ pr_domain p = cl_aud c /\
    pr_issue p = cl_iat c /\ pr_expiry p = cl_exp c /\ pr_client p = Some (cl_client c).
  Lemma process_describes cf ks now q p : process K X cf ks now q = Ok p ->
    pr_auth p = [] /\
    (q_mode q = MRole /\ (exists t, parse_and_validate K (ks_pub K ks) now (q_tok q) = Ok t /\ describes_role t p) \/
     q_mode q = MAccess /\ (exists c, parse_access X (z_aconf cf) (ks_jwk K ks) now (q_tok q) (q_cert q) = Ok c /\ describes_access c p)).
  Proof.
    unfold process. destruct (q_mode q).
    - destruct (z_role cf); [|done]. destruct (parse_and_validate _ _ _ _) as [t| |] eqn:E; [|done|done]. intros [= <-]. split; [done|]. left. split; [done|]. by exists t.
    - destruct (z_access cf); [|done]. destruct (parse_access _ _ _ _ _ _) as [c| |] eqn:E; [|done|done]. intros [= <-]. split; [done|]. right. split; [done|]. by exists c.
  Qed.
  Theorem C48_principal_describes_token cf n t0 ls s i q p : zrun K X cf ls (zinit n t0) = Some s ->
    z_tasks s !! i = Some (CDone q (Ok p)) ->
    exists j q' now ks, cache_key cf q' = cache_key cf q /\ ZCall K j q' ∈ ls /\ ZParse K j ks ∈ ls /\ now <= z_clock s /\
      (q_mode q' = MRole /\ (exists t, parse_and_validate K (ks_pub K ks) now (q_tok q') = Ok t /\ describes_role t p) \/
       q_mode q' = MAccess /\ (exists c, parse_access X (z_aconf cf) (ks_jwk K ks) now (q_tok q') (q_cert q') = Ok c /\ describes_access c p)) /\
      (z_policy cf = true -> ZPolicy K j (Ok (pr_auth p)) ∈ ls) /\ (z_policy cf = false -> pr_auth p = []).
  Proof.
    intros H Hi. destruct (C54_success_is_backed _ _ _ _ _ _ _ _ H Hi) as (j & q' & tv & ts & tl & Hk & Hcall & (p0 & Hv & Hp) & _ & _ & Hle).
    destruct Hv as (ks & s1 & Hocc & Hs1 & <- & Hproc). exists j, q', (z_clock s1), ks. split; [done|]. split; [done|].
    assert (forall l s1, occurs (X:=X) cf (zinit n t0) ls l s1 -> l ∈ ls) as Hocc_in.
    { intros l s2 (l1 & l2 & -> & _). apply elem_of_app. right. left. }
    split; [by eapply Hocc_in|]. split; [lia|].
    apply process_describes in Hproc as [Hauth Hproc].
    destruct (z_policy cf).
    - destruct Hp as (acc & (s2 & o & a & r & Hocc2 & _) & ->). split; [exact Hproc|].
      split; [intros _; cbn [with_auth pr_auth]; by eapply Hocc_in|done].
    - subst p0. done.
  Qed.

  (** ** C55 *)
  Theorem C55_policy_gets_translated_request cf n t0 ls s i q p a r : zrun K X cf ls (zinit n t0) = Some s ->
    z_tasks s !! i = Some (CCheck q p a r) ->
    match z_trans cf with
    | None => a = q_act q /\ r = z_prefix cf ++ q_res q
    | Some tr => exists o r0, tr o (pr_domain p) (q_act q) (q_res q) (q_query q) = Ok (a, r0) /\ r = z_prefix cf ++ r0
    end.
  Proof.
    intros H Hi. destruct (machine_inv _ _ _ _ _ H) as (_ & Ht & _). destruct (Ht _ _ Hi) as (_ & _ & _ & _ & o & Ho).
    unfold target in Ho. destruct (z_trans cf) as [tr|].
    - destruct (tr o _ _ _ _) as [[a' r']| |] eqn:E; cbn in Ho; try done. injection Ho as <- <-. by exists o, r'.
    - cbn in Ho. by injection Ho as <- <-.
  Qed.
  Theorem C55_translator_error_rejects cf s s' i q p tr o er : z_trans cf = Some tr -> z_tasks s !! i = Some (CTrans q p) ->
    tr o (pr_domain p) (q_act q) (q_res q) (q_query q) = Err er -> zstep K X cf (ZTrans K i o) s = Some s' ->
    z_tasks s' !! i = Some (CDone q (Err er)) /\ z_cache s' = z_cache s.
  Proof.
    intros Htr Hi He H. cbn [zstep] in H. rewrite Hi in H. unfold target in H. rewrite Htr, He in H. cbn in H. injection H as <-. cbn.
    rewrite list_lookup_insert; [done|]. by apply lookup_lt_Some in Hi.
  Qed.

  (** ** C52 *)
  (** With a non-positive cache expiry a stored verdict is returned for ever (until Clear). *)
  Theorem C52_nonpositive_never_expires cf n t0 l1 i q p s1 l2 s2 j q' s3 : z_exp cf <= 0 ->
    zrun K X cf l1 (zinit n t0) = Some s1 -> z_tasks s1 !! i = Some (CStore q p) ->
    zrun K X cf (ZStore K i :: l2) s1 = Some s2 -> ZClear K ∉ l2 ->
    z_tasks s2 !! j = Some (CLook q') -> cache_key cf q' = cache_key cf q -> zstep K X cf (ZLook K j) s2 = Some s3 ->
    exists p', z_tasks s3 !! j = Some (CDone q' (Ok p')).
  Proof.
    intros Hexp Hr Hi H Hclear Hj Hk Hstep.
    assert (exists e, z_cache s2 !! cache_key cf q = Some e /\ ge_exp e <= 0) as (e & He & Hle).
    { cbn [zrun] in H. destruct (zstep K X cf (ZStore K i) s1) as [s1'|] eqn:E; [|done].
      assert (exists e, z_cache s1' !! cache_key cf q = Some e /\ ge_exp e <= 0) as Hs.
      { cbn [zstep] in E. rewrite Hi in E. injection E as <-. cbn. unfold g_set. rewrite lookup_insert. eexists. split; [done|]. cbn.
        by destruct (Z.ltb_spec 0 (z_exp cf)); [lia|]. }
      clear E Hr Hi. revert s1' Hs H. induction l2 as [|l l2 IH]; intros s1' Hs H; [by injection H as <-|].
      cbn [zrun] in H. destruct (zstep K X cf l s1') as [s1''|] eqn:E; [|done].
      apply not_elem_of_cons in Hclear as [Hcl Hclear]. eapply IH; [done| |exact H].
      destruct (C45_only_success_stores _ _ _ _ E) as [->|[(k & -> & Hd)|[->|(m & q0 & p0 & -> & _ & _ & ->)]]]; [done| |done|].
      - rewrite Hd. destruct Hs as (e & He & Hle). exists e. split; [|done]. rewrite lookup_delete_ne; [done|]. intros ->.
        cbn [zstep] in E. rewrite He in E. unfold g_valid in E. by destruct (Z.leb_spec (ge_exp e) 0); [|lia].
      - unfold g_set. destruct (decide (cache_key cf q0 = cache_key cf q)) as [->|Hne].
        + rewrite lookup_insert. eexists. split; [done|]. cbn. by destruct (Z.ltb_spec 0 (z_exp cf)); [lia|].
        + by rewrite lookup_insert_ne. }
    cbn [zstep] in Hstep. rewrite Hj in Hstep. injection Hstep as <-. cbn. rewrite list_lookup_insert by (by apply lookup_lt_Some in Hj).
    rewrite Hk. unfold g_get. rewrite He. unfold g_valid. destruct (Z.leb_spec (ge_exp e) 0); [|lia]. cbn. by exists (ge_val e).
  Qed.

  (** ** C51 *)
  (** A role token accepted at [tl] was unexpired at [tv], and the answer came at most the cache
      expiry after storing that verdict. *)
  Theorem C51_overrun_bounded_partial cf n t0 ls s i q p : zrun K X cf ls (zinit n t0) = Some s ->
    z_tasks s !! i = Some (CDone q (Ok p)) -> 0 <= t0 -> 0 < z_exp cf -> z_clock s + z_exp cf <= max_int64 ->
    exists j q' tv ts tl ks, cache_key cf q' = cache_key cf q /\ stored (X:=X) cf (zinit n t0) ls j q' p ts /\
      answered_at cf (zinit n t0) ls i q p tl /\ tv <= ts <= tl /\ tl <= ts + z_exp cf /\
      (q_mode q' = MRole /\ (exists t, parse_and_validate K (ks_pub K ks) tv (q_tok q') = Ok t /\ tv <= rt_expiry t) \/
       q_mode q' = MAccess /\ (exists c, parse_access X (z_aconf cf) (ks_jwk K ks) tv (q_tok q') (q_cert q') = Ok c)).
  Proof.
    intros H Hi H0 Hexp Hmax. destruct (C43_bounded_staleness _ _ _ _ _ _ _ _ H Hi H0 Hexp Hmax) as (j & q' & tv & ts & tl & Hk & Hcall & (p0 & Hv & Hp) & Hst & Han & Hle & Hle').
    destruct Hv as (ks & s1 & Hocc & Hs1 & <- & Hproc). exists j, q', (z_clock s1), ts, tl, ks. split_and!; try done; try lia.
    apply process_describes in Hproc as [_ [[Hm (t & Ht & _)]|[Hm (c & Hc & _)]]].
    - left. split; [done|]. exists t. split; [done|]. unfold parse_and_validate in Ht. destruct (parse_token (q_tok q')) as [t'| |]; cbn in Ht; try done.
      destruct (rt_validate K (ks_pub K ks) (z_clock s1) t') as [[]| |] eqn:Ev; cbn in Ht; try done. injection Ht as <-.
      unfold rt_validate, rt_expired, after in Ev. by destruct (Z.ltb_spec (rt_expiry t') (z_clock s1)); [done|].
    - right. split; [done|]. by exists c.
  Qed.

  (** ** C44 *)
  Definition colon_free (s : str) : Prop := ":"%char ∉ s.
  Lemma colon_cut a b a' b' : colon_free a -> colon_free a' -> a ++ B ":" ++ b = a' ++ B ":" ++ b' -> a = a' /\ b = b'.
  Proof.
    unfold colon_free. revert a'. induction a as [|x a IH]; intros [|y a'] Ha Ha' H; cbn in H.
    - by injection H.
    - injection H as <- _. destruct Ha'. left.
    - injection H as -> _. destruct Ha. left.
    - injection H as -> H. apply not_elem_of_cons in Ha as [_ Ha], Ha' as [_ Ha']. by destruct (IH _ Ha Ha' H) as [-> ->].
  Qed.
  Definition plain_request (q : request) : Prop :=
    colon_free (q_tok q) /\ colon_free (q_act q) /\ colon_free (q_res q) /\
    match q_cert q with Some c => colon_free (c_issuer c) /\ colon_free (c_cn c) | None => True end.
  Definition same_names (c c' : option cert) : Prop :=
    match c, c' with
    | None, None => True
    | Some c, Some c' => c_issuer c = c_issuer c' /\ c_cn c = c_cn c'
    | _, _ => False
    end.
  (** For requests without colons in token, names, action and resource, with or without a certificate
      both, the key determines everything the policy check depends on. *)
  Theorem C44_key_determines_request_partial cf q q' : z_policy cf = true -> plain_request q -> plain_request q' ->
    (is_Some (q_cert q) <-> is_Some (q_cert q')) -> cache_key cf q = cache_key cf q' ->
    q_tok q = q_tok q' /\ q_act q = q_act q' /\ q_res q = q_res q' /\ (z_trans cf <> None -> q_query q = q_query q') /\ same_names (q_cert q) (q_cert q').
  Proof.
    intros Hpol (Ht & Ha & Hr & Hc) (Ht' & Ha' & Hr' & Hc') Hsome H. unfold cache_key in H. rewrite Hpol in H.
    assert (q_res q ++ (match z_trans cf with Some _ => match q_query q with [] => [] | _ => B ":" ++ q_query q end | None => [] end) =
      q_res q' ++ (match z_trans cf with Some _ => match q_query q' with [] => [] | _ => B ":" ++ q_query q' end | None => [] end) ->
      q_res q = q_res q' /\ (z_trans cf <> None -> q_query q = q_query q')) as Hrq.
    { intros Heq. destruct (z_trans cf); [|rewrite !app_nil_r in Heq; split; [done|]; done].
      destruct (q_query q) as [|x xs], (q_query q') as [|y ys]; rewrite ?app_nil_r in Heq.
      - done.
      - exfalso. apply Hr. rewrite Heq. apply elem_of_app. right. left.
      - exfalso. apply Hr'. rewrite <- Heq. apply elem_of_app. right. left.
      - apply colon_cut in Heq as [Hq1 Heq]; [|done|done]. split; [done|]. intros _. exact Heq. }
    destruct (q_cert q) as [c|] eqn:Ec, (q_cert q') as [c'|] eqn:Ec'.
    - destruct Hc as [H1 H2], Hc' as [H1' H2']. rewrite <- !app_assoc in H.
      apply colon_cut in H as [E1 H]; [|done|done]. apply colon_cut in H as [E2 H]; [|done|done]. apply colon_cut in H as [E3 H]; [|done|done].
      apply colon_cut in H as [E4 H]; [|done|done]. apply Hrq in H as [E5 E6]. done.
    - exfalso. destruct Hsome as [Hs _]. destruct Hs; [eauto|done].
    - exfalso. destruct Hsome as [_ Hs]. destruct Hs; [eauto|done].
    - rewrite !app_nil_l in H. apply colon_cut in H as [E1 H]; [|done|done]. apply colon_cut in H as [E2 H]; [|done|done].
      apply Hrq in H as [E3 E4]. done.
  Qed.

  (** ** C47, C49 *)
  Notation authz := (@zconf O -> @env K O -> gache principal -> outcome principal * gache principal).
  Implicit Types (l : list authz).
  Theorem C47_verify_agrees cf l es c : verify_loop K cf l es c =
    (match fst (authorize_loop K cf l es c) with Ok _ => Ok tt | Err e => Err e | Panic => Panic end, snd (authorize_loop K cf l es c)).
  Proof.
    revert c. induction l as [|f l IH]; intros c; cbn [verify_loop authorize_loop]; [done|].
    destruct (f cf (es (length l)) c) as [[p|e|] c']; [done|apply IH|done].
  Qed.
  Theorem C47_failure_is_invalid_credentials cf l es c e c' : authorize_loop K cf l es c = (Err e, c') -> e = ErrInvalidCredentials.
  Proof.
    revert c. induction l as [|f l IH]; intros c; cbn [authorize_loop]; [by intros [= <- _]|].
    destruct (f cf (es (length l)) c) as [[p|e0|] c1]; [done|apply IH|done].
  Qed.
  (** A credential check that fails leaves the cache alone. *)
  Definition keeps_cache cf (f : authz) : Prop := forall e c er c', f cf e c = (Err er, c') -> c' = c.
  Lemma authorizers_keep cf rc r act res l : authorizers K X rc cf r act res = Some l -> Forall (keeps_cache cf) l.
  Proof.
    intros H. assert (Forall (keeps_cache cf) ((if rc then [rc_authorizer K r act res] else []) ++
          (if z_access cf then [at_authorizer K X r act res] else []) ++ (if z_role cf then [rt_authorizer K X r act res] else []))) as Hall.
    { apply Forall_app. split; [|apply Forall_app; split].
      - destruct rc; constructor; [|constructor]. intros e c er c' Hf. by injection Hf.
      - destruct (z_access cf); constructor; [|constructor]. intros e c er c' Hf. unfold at_authorizer in Hf.
        destruct (extract_token (h_authz r)); [by apply C45_failed_call_leaves_cache in Hf|by injection Hf|done].
      - destruct (z_role cf); constructor; [|constructor]. intros e c er c' Hf. by apply C45_failed_call_leaves_cache in Hf. }
    unfold authorizers in H. destruct (_ ++ _) as [|f fs]; [done|]. injection H as <-. done.
  Qed.
  (** Authorize returns the first success; the checks before it failed, all on the same cache. *)
  Theorem C47_first_success cf rc r act res l es c p c' : authorizers K X rc cf r act res = Some l ->
    (authorize_loop K cf l es c = (Ok p, c') <->
     exists l1 f l2, l = l1 ++ f :: l2 /\ f cf (es (length l2)) c = (Ok p, c') /\
       forall m1 g m2, l1 = m1 ++ g :: m2 -> exists er, g cf (es (length (m2 ++ f :: l2))) c = (Err er, c)).
  Proof.
    intros H. apply authorizers_keep in H. clear r act res rc. induction l as [|f l IH].
    - cbn. split; [done|]. by intros ([|] & f & l2 & ? & _).
    - inversion H as [|? ? Hf Hl]; subst. specialize (IH Hl). cbn [authorize_loop]. destruct (f cf (es (length l)) c) as [[p0|e0|] c1] eqn:E.
      + split.
        * intros [= -> ->]. exists [], f, l. split; [done|]. split; [done|]. by intros [|] ? ? ?.
        * intros (l1 & g & l2 & Heq & Hg & Hm). destruct l1 as [|x l1]; cbn in Heq.
          -- injection Heq as -> ->. by rewrite Hg in E.
          -- injection Heq as -> ->. destruct (Hm [] x l1 eq_refl) as [er Hx]. rewrite Hx in E. done.
      + pose proof (Hf _ _ _ _ E) as ->. rewrite IH. split.
        * intros (l1 & g & l2 & -> & Hg & Hm). exists (f :: l1), g, l2. split; [done|]. split; [done|].
          intros [|y m1] x m2 Hx; cbn in Hx; injection Hx as -> Hx; [rewrite <- Hx; by exists e0|]. by eapply Hm.
        * intros (l1 & g & l2 & Heq & Hg & Hm). destruct l1 as [|x l1]; cbn in Heq.
          -- injection Heq as -> ->. by rewrite Hg in E.
          -- injection Heq as -> ->. exists l1, g, l2. split; [done|]. split; [done|]. intros m1 y m2 Hy. apply (Hm (x :: m1) y m2). by rewrite Hy.
      + split; [done|]. intros (l1 & g & l2 & Heq & Hg & Hm). destruct l1 as [|x l1]; cbn in Heq.
        * injection Heq as -> ->. by rewrite Hg in E.
        * injection Heq as -> ->. destruct (Hm [] x l1 eq_refl) as [er Hx]. by rewrite Hx in E.
  Qed.
  (** Success iff some enabled check succeeds on this cache (none of them panicking). *)
  Theorem C47_disjunction cf rc r act res l es c : authorizers K X rc cf r act res = Some l ->
    (forall l1 f l2, l = l1 ++ f :: l2 -> fst (f cf (es (length l2)) c) <> Panic) ->
    ((exists p c', authorize_loop K cf l es c = (Ok p, c')) <->
     exists l1 f l2 p c', l = l1 ++ f :: l2 /\ f cf (es (length l2)) c = (Ok p, c')).
  Proof.
    intros H Hnp. split.
    - intros (p & c' & Hl). apply (C47_first_success _ _ _ _ _ _ _ _ _ _ H) in Hl as (l1 & f & l2 & -> & Hf & _). by exists l1, f, l2, p, c'.
    - apply authorizers_keep in H. clear rc r act res. induction l as [|f l IH]; intros (l1 & g & l2 & p & c' & Hl & Hg); [by destruct l1|].
      inversion H as [|? ? Hf Hk]; subst. cbn [authorize_loop]. destruct (f cf (es (length l)) c) as [[p0|e0|] c1] eqn:E.
      + by exists p0, c1.
      + pose proof (Hf _ _ _ _ E) as ->. apply IH; [done| |].
        * intros m1 h m2 ->. apply (Hnp (f :: m1) h m2). done.
        * destruct l1 as [|x l1]; cbn in Hl; injection Hl as -> ->; [by rewrite Hg in E|]. by exists l1, g, l2, p, c'.
      + exfalso. apply (Hnp [] f l eq_refl). by rewrite E.
  Qed.
  (** The order: role certificate, access token, role token; with nothing enabled New fails. *)
  Theorem C47_order cf rc r act res : authorizers K X rc cf r act res =
    match rc, z_access cf, z_role cf with
    | false, false, false => None
    | _, _, _ => Some ((if rc then [rc_authorizer K r act res] else []) ++ (if z_access cf then [at_authorizer K X r act res] else []) ++
                        (if z_role cf then [rt_authorizer K X r act res] else []))
    end.
  Proof. unfold authorizers. by destruct rc, (z_access cf), (z_role cf). Qed.
  (** A certificate alone never authorizes a request; enabling role certificates changes no answer. *)
  Theorem C49_role_certificates_never_authorize cf r act res l es c : z_access cf = false -> z_role cf = false ->
    authorizers K X true cf r act res = Some l -> authorize_loop K cf l es c = (Err ErrInvalidCredentials, c).
  Proof. intros H1 H2 H. rewrite C47_order in H. rewrite H1, H2 in H. injection H as <-. done. Qed.
  Theorem C49_enabling_changes_nothing cf r act res l l' es c : authorizers K X true cf r act res = Some l -> authorizers K X false cf r act res = Some l' ->
    authorize_loop K cf l es c = authorize_loop K cf l' es c.
  Proof.
    rewrite !C47_order. destruct (z_access cf), (z_role cf); intros H H'; try done; injection H as <-; injection H' as <-; done.
  Qed.
End props.

(** ** Examples and refutations *)
Definition cf_on := cfz true (60 * second) (AConf false 0 0 false ∅).
Definition s_init n := zinit n (50 * second).
(** Reading a computed run. *)
Definition done_at (i : nat) (o : option zst) : option (request * principal) :=
  match o with Some s => match z_tasks s !! i with Some (CDone q (Ok p)) => Some (q, p) | _ => None end | None => None end.
Lemma done_at_run i o q p : done_at i o = Some (q, p) -> exists s, o = Some s /\ z_tasks s !! i = Some (CDone q (Ok p)).
Proof.
  unfold done_at. destruct o as [s|]; [|discriminate]. destruct (z_tasks s !! i) as [[| | | | | |q' [p'| |]]|] eqn:E; try discriminate.
  intros [= -> ->]. by exists s.
Qed.
Definition look_at (i : nat) (o : option zst) : option (request * time) :=
  match o with Some s => match z_tasks s !! i with Some (CLook q) => Some (q, z_clock s) | _ => None end | None => None end.
Lemma look_at_run i o q t : look_at i o = Some (q, t) -> exists s, o = Some s /\ z_tasks s !! i = Some (CLook q) /\ z_clock s = t.
Proof.
  unfold look_at. destruct o as [s|]; [|discriminate]. destruct (z_tasks s !! i) as [[]|] eqn:E; try discriminate.
  intros [= -> <-]. by exists s.
Qed.
Definition pr1 : principal := Principal (B "user") [B "r1"; B "r2"] (B "dom") 1 100 [B "r1"] None.
Notation run1 cf ls n := (zrun K1 X0 cf ls (s_init n)).

(** A first call, and a second answered from the cache 60 s later; after that the token is examined
    again (and has expired). *)
Definition hist1 : list (@zlabel K1 unit) :=
  call 0 (rq (B "/a") []) ++
  [ZTick K1 (110 * second); ZCall K1 1 (rq (B "/a") []); ZLook K1 1;
   ZTick K1 (110 * second + 1); ZCall K1 2 (rq (B "/a") []); ZLook K1 2; ZParse K1 2 ks1].
Example C43_nonvacuous :
  results (run1 cf_on hist1 3) =
    [Some (Ok (Principal (B "user") [B "r1"; B "r2"] (B "dom") 1 100 [B "r1"] None));
     Some (Ok (Principal (B "user") [B "r1"; B "r2"] (B "dom") 1 100 [B "r1"] None)); Some (Err ErrRoleTokenExpired)].
Proof. vm_compute. reflexivity. Qed.
Example C54_nonvacuous :
  let ls := [ZCall K1 0 (rq (B "/a") []); ZCall K1 1 (rq (B "/a") []); ZLook K1 0; ZLook K1 1; ZParse K1 1 ks1; ZParse K1 0 ks1;
             ZTrans K1 1 tt; ZPolicy K1 1 (Err ErrNoMatch); ZTrans K1 0 tt; ZPolicy K1 0 (Ok [B "r2"]); ZStore K1 0;
             ZCall K1 2 (rq (B "/a") []); ZLook K1 2] in
  map (option_map (fun r => match r with Ok p => Some (pr_auth p) | _ => None end)) (results (run1 cf_on ls 3)) =
    [Some (Some [B "r2"]); Some None; Some (Some [B "r2"])].
Proof. vm_compute. reflexivity. Qed.
Example C45_nonvacuous :
  let ls := [ZCall K1 0 (rq (B "/a") []); ZLook K1 0; ZParse K1 0 ks1; ZTrans K1 0 tt; ZPolicy K1 0 (Err ErrNoMatch);
             ZCall K1 1 (rq (B "/a") []); ZLook K1 1; ZParse K1 1 ks1] in
  option_map (fun s => (map_size (z_cache s), match z_tasks s !! 1%nat with Some (CTrans _ p) => pr_name p | _ => [] end)) (run1 cf_on ls 2) =
    Some (0%nat, B "user").
Proof. vm_compute. reflexivity. Qed.
Example C46_nonvacuous :
  results (run1 cf_on (call 0 (rq (B "/a") []) ++ [ZCall K1 1 (rq [] []); ZCall K1 2 (Req MRole rtok [] (B "/a") [] None)]) 3) !! 1%nat =
    Some (Some (Err ErrInvalidParameters)) /\
  results (run1 cf_on (call 0 (rq (B "/a") []) ++ [ZCall K1 1 (rq [] []); ZCall K1 2 (Req MRole rtok [] (B "/a") [] None)]) 3) !! 2%nat =
    Some (Some (Err ErrInvalidParameters)) /\
  (* with policy checking off an empty resource is fine *)
  map ok_name (results (zrun K1 X0 (cfz false 60 (AConf false 0 0 false ∅)) [ZCall K1 0 (rq [] []); ZLook K1 0; ZParse K1 0 ks1; ZStore K1 0] (s_init 1))) = [Some (B "user")].
Proof. split_and!; vm_compute; reflexivity. Qed.
Example C48_nonvacuous :
  results (zrun K1 X0 cf_on (call 0 (Req MAccess atok (B "get") (B "/a") [] None)) (zinit 1 (150 * second))) =
    [Some (Ok (Principal (B "user") [B "r1"; B "r2"] (B "dom") 100 200 [B "r1"] (Some (B "svc"))))].
Proof. vm_compute; reflexivity. Qed.
Example C55_nonvacuous :
  option_map (fun s => match z_tasks s !! 0%nat with Some (CCheck _ _ a r) => (a, r) | _ => ([], []) end)
    (run1 cf_on [ZCall K1 0 (rq (B "/a") []); ZLook K1 0; ZParse K1 0 ks1; ZTrans K1 0 tt] 1) = Some (B "get", B "/p/a").
Proof. vm_compute. reflexivity. Qed.

(** C44: a verdict for resource /a with query b is reused for resource /a:b, which no policy check
    ever saw. *)
Theorem C44_same_request_refuted : ~ forall (cf : @zconf unit) n t0 ls s i q p,
  zrun K1 X0 cf ls (zinit n t0) = Some s -> z_tasks s !! i = Some (CDone q (Ok p)) ->
  exists j q', ZPolicy K1 j (Ok (pr_auth p)) ∈ ls /\ ZCall K1 j q' ∈ ls /\ q_res q' = q_res q /\ q_query q' = q_query q.
Proof.
  intros H. pose (ls := call 0 (rq (B "/a") (B "b")) ++ [ZCall K1 1 (rq (B "/a:b") []); ZLook K1 1]).
  destruct (done_at_run 1 (run1 cf_on ls 2) (rq (B "/a:b") []) pr1) as (s & E & Hi); [vm_compute; reflexivity|].
  destruct (H _ _ _ _ _ _ _ _ E Hi) as (j & q' & Hp & Hc & Hr & _). clear H E Hi.
  assert (forallb (fun l => match l with ZPolicy _ j _ => Nat.eqb j 0 | _ => true end) ls = true) as H1 by (vm_compute; reflexivity).
  assert (forallb (fun l => match l with ZCall _ 0%nat q => bool_decide (q_res q = B "/a") | _ => true end) ls = true) as H2 by (vm_compute; reflexivity).
  rewrite forallb_forall in H1, H2. apply elem_of_list_In, H1, Nat.eqb_eq in Hp. subst j.
  apply elem_of_list_In, H2, bool_decide_eq_true in Hc. rewrite Hc in Hr. discriminate Hr.
Qed.
Example C44_nonvacuous :
  plain_request (Req MAccess atok (B "get") (B "/a") (B "x:y") (Some Prop_Access.crt0)) /\
  cache_key cf_on (Req MAccess (B "t") (B "get") (B "/a") (B "x:y") (Some Prop_Access.crt0)) = B "t:ca:svc:get:/a:x:y".
Proof.
  split; [|vm_compute; reflexivity].
  assert (forall s, existsb (Ascii.eqb ":"%char) s = false -> colon_free s) as Hcf.
  { intros s Hs Hin. apply elem_of_list_In in Hin. assert (existsb (Ascii.eqb ":"%char) s = true) as Ht; [|by rewrite Ht in Hs].
    apply existsb_exists. exists ":"%char. split; [done|]. by rewrite Ascii.eqb_refl. }
  split_and!; [by apply Hcf..|]. cbn. split; by apply Hcf.
Qed.

(** C51: answered 10 s after the token's expiry. *)
Theorem C51_expired_not_accepted_refuted : ~ forall (cf : @zconf unit) n t0 ls s i q p,
  zrun K1 X0 cf ls (zinit n t0) = Some s -> z_tasks s !! i = Some (CDone q (Ok p)) ->
  forall tl, looked (X:=X0) cf (zinit n t0) ls i q tl -> tl <= pr_expiry p * second.
Proof.
  intros H.
  destruct (done_at_run 1 (run1 cf_on (take 9 hist1) 3) (rq (B "/a") []) pr1) as (s & E & Hi); [vm_compute; reflexivity|].
  destruct (look_at_run 1 (run1 cf_on (take 8 hist1) 3) (rq (B "/a") []) (110 * second)) as (s1 & E1 & Hi1 & Ht); [vm_compute; reflexivity|].
  assert (110 * second <= 100 * second) as Hf; [|apply Z.leb_le in Hf; vm_compute in Hf; discriminate Hf].
  apply (H _ _ _ _ _ _ _ _ E Hi). exists s1. split; [|split; [exact Hi1|exact Ht]].
  exists (take 8 hist1), []. split; [reflexivity|exact E1].
Qed.
Example C51_nonvacuous : map ok_name (results (run1 cf_on hist1 3)) = [Some (B "user"); Some (B "user"); None].
Proof. vm_compute. reflexivity. Qed.

(** C52: nothing expires with a zero cache expiry: the expired token is accepted after a year. *)
Theorem C52_disables_caching_refuted : ~ forall (cf : @zconf unit) n t0 ls s i q p, z_exp cf <= 0 ->
  zrun K1 X0 cf ls (zinit n t0) = Some s -> z_tasks s !! i = Some (CDone q (Ok p)) -> exists ks, ZParse K1 i ks ∈ ls.
Proof.
  intros H. pose (ls := call 0 (rq (B "/a") []) ++ [ZTick K1 (31536000 * second); ZCall K1 1 (rq (B "/a") []); ZLook K1 1]).
  pose (cf := cfz true 0 (AConf false 0 0 false ∅)).
  destruct (done_at_run 1 (run1 cf ls 2) (rq (B "/a") []) pr1) as (s & E & Hi); [vm_compute; reflexivity|].
  destruct (H cf _ _ _ _ _ _ _ (Z.le_refl 0) E Hi) as [ks Hk]. clear H E Hi.
  assert (forallb (fun l => match l with ZParse _ j _ => Nat.eqb j 0 | _ => true end) ls = true) as H1 by (vm_compute; reflexivity).
  rewrite forallb_forall in H1. apply elem_of_list_In, H1, Nat.eqb_eq in Hk. discriminate Hk.
Qed.
Example C52_nonvacuous :
  let ls := call 0 (rq (B "/a") []) ++ [ZTick K1 (31536000 * second); ZCall K1 1 (rq (B "/a") []); ZLook K1 1] in
  map ok_name (results (run1 (cfz true (-5) (AConf false 0 0 false ∅)) ls 2)) = [Some (B "user"); Some (B "user")].
Proof. vm_compute. reflexivity. Qed.

(** C53: binding enabled; the bound token is accepted with another certificate of the same names,
    and with no certificate at all when the names are appended to the token text. *)
Definition cf_bound := cfz true (60 * second) (AConf true 0 0 false ∅).
Definition other_cert : cert := Cert (B "svc") (B "ca") (B "STOLEN") 0 [].
Definition aq (tok : str) (ct : option cert) : request := Req MAccess tok (B "get") (B "/a") [] ct.
Definition hist_bound (tok : str) (ct : option cert) : list (@zlabel K1 unit) :=
  call 0 (aq atok (Some Prop_Access.crt0)) ++ [ZCall K1 1 (aq tok ct); ZLook K1 1].
Lemma bound_claims now jp ct c : parse_access X0 (z_aconf cf_bound) jp now atok (Some ct) = Ok c -> c_raw ct = B "RAW".
Proof.
  destruct jp as [jp|]; [|discriminate]. intros Hc.
  apply Prop_Access.C38_binding_exact in Hc as [Hc (crt & Heq & Hb)]; [|reflexivity].
  injection Heq as <-. apply Prop_Access.C37_accepted_is_signed in Hc as [(q0 & q1 & q2 & cb & Hs & Hd & Hj) _].
  assert (q1 = B "A") as ->.
  { destruct Hs as (Hs & H0 & H1 & H2). assert (split "."%char atok !! 1%nat = Some q1) as Hq1.
    - rewrite Hs. rewrite split_app by done. rewrite split_app by done. reflexivity.
    - vm_compute in Hq1. by injection Hq1. }
  assert (json_claims X0 (B "A") = Some c) as Hj' by (by injection Hd as <-). clear Hj Hd Hs.
  destruct Hb as [(t & Ht & [Hth|(Ho & _)])|(l & u & Hl & _)]; [|by destruct Ho|].
  - assert (t = B "TRAW") as ->.
    { assert (match json_claims X0 (B "A") with Some c => cl_confirm c !! B "x5t#S256" | None => None end = Some (JStr (B "TRAW"))) as Hx by (vm_compute; reflexivity).
      rewrite Hj', Ht in Hx. by injection Hx. }
    change (B "T" ++ c_raw ct = B "T" ++ B "RAW") in Hth. by apply app_inv_head in Hth.
  - assert (match json_claims X0 (B "A") with Some c => cl_confirm c !! B "proxy-principals#spiffe" | None => None end = None) as Hx by (vm_compute; reflexivity).
    rewrite Hj', Hl in Hx. discriminate Hx.
Qed.
Example C53_witnesses :
  let run ls := map ok_name (results (zrun K1 X0 cf_bound ls (zinit 2 (150 * second)))) in
  run (hist_bound atok (Some other_cert)) = [Some (B "user"); Some (B "user")] /\
  run (hist_bound (atok ++ B ":ca:svc") None) = [Some (B "user"); Some (B "user")].
Proof. split; vm_compute; reflexivity. Qed.
(** Neither is accepted on its own, at any time, with any keys. *)
Lemma C53_other_cert_rejected now ks p : process K1 X0 cf_bound ks now (aq atok (Some other_cert)) <> Ok p.
Proof.
  intros E. apply process_describes in E as [_ [[Hm _]|[_ (c & Hc & _)]]]; [discriminate Hm|].
  apply bound_claims in Hc. discriminate Hc.
Qed.
Lemma C53_no_cert_rejected now ks p : process K1 X0 cf_bound ks now (aq (atok ++ B ":ca:svc") None) <> Ok p.
Proof.
  intros E. apply process_describes in E as [_ [[Hm _]|[_ (c & Hc & _)]]]; [discriminate Hm|].
  cbn [q_tok q_cert aq] in Hc. destruct (ks_jwk K1 ks) as [jp|]; [|discriminate Hc].
  apply Prop_Access.C38_binding_exact in Hc as [_ (crt & Heq & _)]; [|reflexivity]. discriminate Heq.
Qed.
Theorem C53_stays_bound_refuted : ~ forall (cf : @zconf unit) n t0 ls s i q p, a_bound (z_aconf cf) = true -> q_mode q = MAccess ->
  zrun K1 X0 cf ls (zinit n t0) = Some s -> z_tasks s !! i = Some (CDone q (Ok p)) ->
  exists now ks p', process K1 X0 cf ks now q = Ok p'.
Proof.
  intros H.
  destruct (done_at_run 1 (zrun K1 X0 cf_bound (hist_bound atok (Some other_cert)) (zinit 2 (150 * second))) (aq atok (Some other_cert))
    (Principal (B "user") [B "r1"; B "r2"] (B "dom") 100 200 [B "r1"] (Some (B "svc")))) as (s & E & Hi); [vm_compute; reflexivity|].
  destruct (H cf_bound 2%nat _ _ s 1%nat (aq atok (Some other_cert)) _ eq_refl eq_refl E Hi) as (now & ks & p' & Hp). by apply C53_other_cert_rejected in Hp.
Qed.
Theorem C53_needs_certificate_refuted : ~ forall (cf : @zconf unit) n t0 ls s i q p, a_bound (z_aconf cf) = true -> q_mode q = MAccess ->
  zrun K1 X0 cf ls (zinit n t0) = Some s -> z_tasks s !! i = Some (CDone q (Ok p)) -> q_cert q <> None.
Proof.
  intros H.
  destruct (done_at_run 1 (zrun K1 X0 cf_bound (hist_bound (atok ++ B ":ca:svc") None) (zinit 2 (150 * second))) (aq (atok ++ B ":ca:svc") None)
    (Principal (B "user") [B "r1"; B "r2"] (B "dom") 100 200 [B "r1"] (Some (B "svc")))) as (s & E & Hi); [vm_compute; reflexivity|].
  by apply (H cf_bound 2%nat _ _ s 1%nat (aq (atok ++ B ":ca:svc") None) _ eq_refl eq_refl E Hi).
Qed.
(** What does hold: the certificate validated has the names of the one presented, if token and
    names have no colons and one was presented both times. *)
Theorem C53_same_names_partial {K X O} (cf : @zconf O) n t0 ls s i q p : zrun K X cf ls (zinit n t0) = Some s ->
  z_policy cf = true -> z_tasks s !! i = Some (CDone q (Ok p)) -> (forall j q', ZCall K j q' ∈ ls -> plain_request q' /\ (is_Some (q_cert q) <-> is_Some (q_cert q'))) ->
  exists j q', ZCall K j q' ∈ ls /\ (exists now ks, ZParse K j ks ∈ ls /\ is_ok (process K X cf ks now q') = true) /\
    q_tok q' = q_tok q /\ same_names (q_cert q') (q_cert q).
Proof.
  intros H Hpol Hi Hall. destruct (C54_success_is_backed _ _ _ _ _ _ _ _ H Hi) as (j & q' & tv & ts & tl & Hk & Hcall & (p0 & (ks & s1 & (l1 & l2 & Hl & _) & _ & _ & Hp) & _) & _).
  assert (ZCall K i q ∈ ls) as Hcq.
  { destruct (machine_inv _ _ _ _ _ H) as (_ & Ht & _). by destruct (Ht _ _ Hi) as (Hc & _). }
  destruct (Hall _ _ Hcall) as [Hpl Hsome]. destruct (Hall _ _ Hcq) as [Hpl' _].
  exists j, q'. split; [done|]. split.
  { exists tv, ks. split; [rewrite Hl; apply elem_of_app; right; left|]. by rewrite Hp. }
  destruct (C44_key_determines_request_partial cf q' q Hpol Hpl Hpl' (iff_sym Hsome) Hk) as (-> & _ & _ & _ & Hn). done.
Qed.

(** C47, C49 *)
Definition env1 (now : time) : @env K1 unit :=
  Env K1 now ks1 tt (fun d rs a r => if bool_decide (r = B "/p/a") then Ok [B "r1"] else Err ErrNoMatch).
Definition http (rc ra rr : bool) (r : http_request) (res : str) (now : time) : outcome principal :=
  let cf := ZConf true (Some tr1) (B "/p") (60 * second) rr ra (AConf false 0 0 false ∅) in
  match authorizers K1 X0 rc cf r (B "get") res with
  | Some l => fst (authorize_loop K1 cf l (fun _ => env1 now) ∅)
  | None => Err (ErrMsg "error no authorizers")
  end.
Definition name_of (o : outcome principal) : option str := match o with Ok p => Some (pr_name p) | _ => None end.
Example C47_nonvacuous :
  let both := HReq None (B "bEaReR " ++ atok) rtok [] in
  name_of (http true true true both (B "/a") (150 * second)) = Some (B "user") /\
  name_of (http false false true both (B "/a") (50 * second)) = Some (B "user") /\
  name_of (http false true false both (B "/a") (50 * second)) = None /\
  name_of (http false true true (HReq None [] rtok []) (B "/a") (50 * second)) = Some (B "user") /\
  http false true true both (B "/b") (50 * second) = Err ErrInvalidCredentials /\
  http false false false both (B "/a") (50 * second) = Err (ErrMsg "error no authorizers").
Proof. split_and!; vm_compute; reflexivity. Qed.
Example C49_nonvacuous :
  http true false false (HReq (Some [Cert (B "dom:role.r1") (B "ca") [] 0 []]) [] [] []) (B "/a") 0 = Err ErrInvalidCredentials.
Proof. vm_compute. reflexivity. Qed.

Print Assumptions C43_bounded_staleness.
Print Assumptions C44_key_determines_request_partial.
Print Assumptions C44_same_request_refuted.
Print Assumptions C45_only_success_stores.
Print Assumptions C45_failure_not_cached.
Print Assumptions C45_failed_call_leaves_cache.
Print Assumptions C45_miss_is_evaluated.
Print Assumptions C46_empty_parameters.
Print Assumptions C46_empty_parameters_http.
Print Assumptions C47_verify_agrees.
Print Assumptions C47_failure_is_invalid_credentials.
Print Assumptions C47_first_success.
Print Assumptions C47_disjunction.
Print Assumptions C47_order.
Print Assumptions C53_other_cert_rejected.
Print Assumptions C53_no_cert_rejected.
Print Assumptions C48_principal_describes_token.
Print Assumptions C49_role_certificates_never_authorize.
Print Assumptions C49_enabling_changes_nothing.
Print Assumptions C51_overrun_bounded_partial.
Print Assumptions C51_expired_not_accepted_refuted.
Print Assumptions C52_nonpositive_never_expires.
Print Assumptions C52_disables_caching_refuted.
Print Assumptions C53_stays_bound_refuted.
Print Assumptions C53_needs_certificate_refuted.
Print Assumptions C53_same_names_partial.
Print Assumptions C54_success_is_backed.
Print Assumptions C54_calls_are_isolated.
Print Assumptions C54_never_blocked.
Print Assumptions C54_authorize_is_a_schedule.
Print Assumptions C55_policy_gets_translated_request.
Print Assumptions C55_translator_error_rejects.
