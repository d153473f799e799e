(** * Property C110: a clock that lags

    policy/signed_policy.go:46, policy/fetcher.go:93,145, policy/daemon.go:358, role/token.go:88,
    client/exp_rt.go and the gache caches do not read the system clock: they read a copy of it kept
    by the library fastime (go.mod:10), which a background goroutine refreshes.  The time of the
    model ([now], [z_clock]) is what that copy reads.  Here it is compared with the true time: the
    copy is never ahead and at most [dl] behind.  (Access tokens are judged by the jwt library,
    which reads the system clock itself; nothing is said of their dates here.) *)
From Verif Require Import AuthorizerFacts RoleProofs FetcherFacts.
From Verif Require Import Prop_Authorizer Prop_Role Prop_Fetcher.

(** ** Specification *)
(** At true time [T] the copy reads [r]. *)
Definition reads (dl T r : Z) : Prop := r <= T <= r + dl.

Section lag.
  Context {K : crypto} {X : jwt_ext} {O : Type}.
  Implicit Types (cf : @zconf O) (s : zst) (ls : list (@zlabel K O)) (tls : list (time * @zlabel K O)).

  (** ** Tokens, policies and caches *)
  (** A role token is accepted at most [dl] after it expired, and never refused as expired while it
      is valid. *)
  Theorem C110_role_token dl T r pkp tok t : reads dl T r ->
    parse_and_validate K (Some pkp) r tok = Ok t -> T <= rt_expiry t + dl.
  Proof.
    intros [_ H] Ht. unfold parse_and_validate in Ht. destruct (parse_token tok) as [t'| |]; cbn in Ht; try done.
    destruct (rt_validate K (Some pkp) r t') as [[]| |] eqn:Ev; cbn in Ht; try done. injection Ht as <-.
    unfold rt_validate, rt_expired, after in Ev. destruct (Z.ltb_spec (rt_expiry t') r); [done|]. lia.
  Qed.
  Theorem C110_role_token_not_early dl T r pkp tok t : reads dl T r ->
    parse_and_validate K (Some pkp) T tok = Ok t -> parse_and_validate K (Some pkp) r tok = Ok t.
  Proof.
    intros [H _]. rewrite !C34_accept_iff. intros (fs & sig & v & E & Hw & Ho & Et & Hle & Hv & Hs).
    exists fs, sig, v. split_and!; try done. lia.
  Qed.
  (** The same for a signed policy document. *)
  Theorem C110_policy dl T r pkp sp d e : reads dl T r -> sp_data sp = Some d -> sd_expires d = Some e ->
    sp_verify K pkp r (Some sp) = Ok tt -> T < e + dl.
  Proof.
    intros [_ H] Hd He. rewrite C22_verify_exact. intros (d' & e' & v & m & v' & m' & E1 & E2 & Hlt & _).
    rewrite Hd in E1. injection E1 as <-. rewrite He in E2. injection E2 as <-. lia.
  Qed.
  Theorem C110_policy_not_early dl T r pkp sp : reads dl T r ->
    sp_verify K pkp T (Some sp) = Ok tt -> sp_verify K pkp r (Some sp) = Ok tt.
  Proof.
    intros [H _]. rewrite !C22_verify_exact. intros (d & e & v & m & v' & m' & E1 & E2 & Hlt & Hr).
    exists d, e, v, m, v', m'. split_and!; try done; try lia; apply Hr.
  Qed.
  (** A cache entry written at [T1] to live for [d] is returned until [T1 + d - dl] and never after
      [T1 + d + dl]. *)
  Theorem C110_cache {V} dl T1 r1 T2 r2 k (v : V) d g : reads dl T1 r1 -> reads dl T2 r2 ->
    0 <= r1 -> 0 < d -> i64 (r1 + d) ->
    (T2 <= T1 + d - dl -> g_get r2 k (g_set r1 k v d g) = Some v) /\
    (T1 + d + dl < T2 -> g_get r2 k (g_set r1 k v d g) = None).
  Proof.
    intros [A1 A2] [B1 B2] H0 Hd Hi. split; intros H.
    - rewrite g_get_set_eq. unfold g_valid. cbn [ge_exp]. destruct (Z.ltb_spec 0 d); [|lia]. rewrite wrap64_id by done.
      destruct (Z.leb_spec r2 (r1 + d)); [|lia]. by rewrite orb_true_r.
    - apply g_set_expires; try done; lia.
  Qed.

  (** ** Whole histories *)
  (** A history with the true time of each step; whenever anything but the clock moves, the copy is
      at most [dl] behind. *)
  Definition is_tick (l : @zlabel K O) : bool := match l with ZTick _ _ => true | _ => false end.
  Definition lagging dl cf s0 tls : Prop :=
    forall l1 T l l2 s1, tls = l1 ++ (T, l) :: l2 -> is_tick l = false ->
      zrun K X cf (map snd l1) s0 = Some s1 -> reads dl T (z_clock s1).

  Lemma lag_occurs dl cf s0 tls l s1 : lagging dl cf s0 tls -> occurs (X:=X) cf s0 (map snd tls) l s1 -> is_tick l = false ->
    exists T, (T, l) ∈ tls /\ reads dl T (z_clock s1).
  Proof.
    intros HL (l1 & l2 & E & Hr) Hn. apply map_eq_app in E as (a & b & -> & <- & Eb).
    destruct b as [|[T l'] b]; [done|]. cbn in Eb. injection Eb as -> <-.
    exists T. split; [apply elem_of_app; right; left|]. by eapply HL.
  Qed.

  (** Every acceptance, in true time: some call with the same key examined its token at [Tv] and
      stored the verdict at [Ts]; the answer came at [Tl], at most the cache expiry and the lag
      later; and at [Tv] a role token was at most the lag past its expiry. *)
  Theorem C110_overrun dl cf n t0 tls s i q p : zrun K X cf (map snd tls) (zinit n t0) = Some s ->
    lagging dl cf (zinit n t0) tls ->
    z_tasks s !! i = Some (CDone q (Ok p)) -> 0 <= t0 -> 0 < z_exp cf -> z_clock s + z_exp cf <= max_int64 ->
    exists j q' ks Tv Ts Tl, cache_key cf q' = cache_key cf q /\
      ZCall K j q' ∈ map snd tls /\ (Tv, ZParse K j ks) ∈ tls /\ (Ts, ZStore K j) ∈ tls /\
      ((Tl, ZLook K i) ∈ tls \/ (Tl, ZStore K i) ∈ tls) /\
      Ts - dl <= Tl <= Ts + z_exp cf + dl /\ Tv <= Ts + dl /\
      (q_mode q' = MRole -> exists t, parse_token (q_tok q') = Ok t /\ Tv <= rt_expiry t + dl).
  Proof.
    intros H HL Hi H0 Hexp Hmax.
    destruct (C43_bounded_staleness _ _ _ _ _ _ _ _ H Hi H0 Hexp Hmax) as (j & q' & tv & ts & tl & Hk & Hcall & (p0 & Hv & Hp) & Hst & Han & Hle & Hle').
    destruct Hv as (ks & s1 & Hocc & Hs1 & <- & Hproc). destruct (lag_occurs _ _ _ _ _ _ HL Hocc eq_refl) as (Tv & HTv & Rv).
    destruct Hst as (s2 & Hocc2 & Hs2 & <-). destruct (lag_occurs _ _ _ _ _ _ HL Hocc2 eq_refl) as (Ts & HTs & Rs).
    assert (exists Tl, ((Tl, ZLook K i) ∈ tls \/ (Tl, ZStore K i) ∈ tls) /\ reads dl Tl tl) as (Tl & HTl & Rl).
    { destruct Han as [(s3 & Hocc3 & _ & <-)|[(s3 & Hocc3 & _ & <-) _]];
        destruct (lag_occurs _ _ _ _ _ _ HL Hocc3 eq_refl) as (T & HT & R); exists T; auto. }
    exists j, q', ks, Tv, Ts, Tl. destruct Rv as [Rv1 Rv2], Rs as [Rs1 Rs2], Rl as [Rl1 Rl2].
    split_and!; try done; try lia.
    intros Hm. apply process_describes in Hproc as [_ [[_ (t & Ht & _)]|[Hm' _]]]; [|congruence].
    unfold parse_and_validate in Ht. destruct (parse_token (q_tok q')) as [t'| |]; cbn in Ht; try done.
    destruct (rt_validate K (ks_pub K ks) (z_clock s1) t') as [[]| |] eqn:Ev; cbn in Ht; try done.
    exists t'. split; [done|]. unfold rt_validate, rt_expired, after in Ev.
    destruct (Z.ltb_spec (rt_expiry t') (z_clock s1)); [done|]. lia.
  Qed.
End lag.

(** ** A concrete case: a clock five seconds behind *)
(** The token of the examples expires at second 100.  The first call comes at second 104, the copy
    reads 100: accepted.  The second comes at second 165, the copy reads 160: answered from the cache,
    65 seconds past the expiry.  At second 166 the copy has caught up to 161 and the token is refused. *)
Definition lagged1 : list (time * @zlabel K1 unit) :=
  (100 * second, ZTick K1 (100 * second)) :: map (fun l => (104 * second, l)) (call 0 (rq (B "/a") [])) ++
  [(160 * second, ZTick K1 (160 * second));
   (165 * second, ZCall K1 1 (rq (B "/a") [])); (165 * second, ZLook K1 1);
   (166 * second, ZTick K1 (161 * second));
   (166 * second, ZCall K1 2 (rq (B "/a") [])); (166 * second, ZLook K1 2); (166 * second, ZParse K1 2 ks1)].
(** The readings, step by step. *)
Fixpoint readings (dl : Z) (tls : list (time * @zlabel K1 unit)) (s : zst) : bool :=
  match tls with
  | [] => true
  | (T, l) :: r =>
      (is_tick l || ((z_clock s <=? T) && (T <=? z_clock s + dl))) &&
      match zstep K1 X0 cf_on l s with Some s' => readings dl r s' | None => true end
  end.
Lemma readings_lagging dl tls s : readings dl tls s = true -> lagging (X:=X0) dl cf_on s tls.
Proof.
  intros H l1 T l l2 s1 -> Hn. revert s H. induction l1 as [|[T' l'] l1 IH]; intros s H Hr; cbn in Hr.
  - injection Hr as <-. cbn in H. rewrite Hn in H. apply andb_true_iff in H as [H _]. cbn in H.
    apply andb_true_iff in H as [H1 H2]. split; lia.
  - cbn in H. apply andb_true_iff in H as [_ H]. destruct (zstep K1 X0 cf_on l' s) as [s'|]; [|discriminate].
    exact (IH s' H Hr).
Qed.
Example C110_nonvacuous :
  results (run1 cf_on (map snd lagged1) 3) =
    [Some (Ok pr1); Some (Ok pr1); Some (Err ErrRoleTokenExpired)] /\
  lagging (X:=X0) (5 * second) cf_on (s_init 3) lagged1.
Proof. split; [vm_compute; reflexivity|]. apply readings_lagging. vm_compute. reflexivity. Qed.
(** With a clock that is exact the same first call is refused. *)
Example C110_exact_clock :
  results (run1 cf_on (ZTick K1 (104 * second) :: take 3 (call 0 (rq (B "/a") []))) 1) = [Some (Err ErrRoleTokenExpired)].
Proof. vm_compute. reflexivity. Qed.

Print Assumptions C110_role_token.
Print Assumptions C110_role_token_not_early.
Print Assumptions C110_policy.
Print Assumptions C110_policy_not_early.
Print Assumptions C110_cache.
Print Assumptions C110_overrun.
