(** * Property C112: acceptance in true time, with two clocks and a cache that loses entries *)
From Verif Require Import Rough AuthorizerFacts Prop_Lag.
From Verif Require Import Prop_Authorizer Prop_Access.
From Verif Require Import GoStrings.

Section claims.
  Context {K : crypto} {X : jwt_ext} {O : Type}.
  Implicit Types (cf : @zconf O) (s : rst) (ls : list (@rlabel K O)).
  Notation rrun := (rrun K X). Notation rstep := (rstep K X).

  Lemma rrun_app cf dl l1 l2 s : rrun cf dl (l1 ++ l2) s = match rrun cf dl l1 s with Some s1 => rrun cf dl l2 s1 | None => None end.
  Proof. revert s. induction l1 as [|l l1 IH]; intros s; [done|]. cbn [app Rough.rrun]. by destruct (rstep cf dl l s). Qed.
  Lemma rrun_snoc cf dl ls l s s' : rrun cf dl (ls ++ [l]) s = Some s' <-> exists s1, rrun cf dl ls s = Some s1 /\ rstep cf dl l s1 = Some s'.
  Proof.
    rewrite rrun_app. destruct (rrun cf dl ls s) as [s1|]; cbn [Rough.rrun].
    - split; [intros H; exists s1; split; [done|]; by destruct (rstep cf dl l s1)|intros (s2 & [= <-] & ->); done].
    - split; [done|by intros (s2 & ? & _)].
  Qed.

  (** ** Specification: what a history shows, in true time *)
  (** Step [l] was taken in state [s1], when the system clock read [T]. *)
  Definition did cf dl s0 ls l s1 (T : time) : Prop :=
    (exists l1 l2, ls = l1 ++ l :: l2 /\ rrun cf dl l1 s0 = Some s1) /\ r_true s1 = T.
  (** At [T] call [j] found the token of its request [q] good, by the clock that goes with its kind: principal [p]. *)
  Definition examined cf dl s0 ls j q p T : Prop :=
    exists ks s1, did cf dl s0 ls (RParse K j ks) s1 T /\ z_tasks (r_z s1) !! j = Some (CParse q) /\
      process K X cf ks (clock_for s1 q) q = Ok p /\ reads dl T (z_clock (r_z s1)).
  (** The policies granted [acc] to call [j], asked for the translated and prefixed request. *)
  Definition allowed cf dl s0 ls j q p acc : Prop :=
    exists s1 T o a r, did cf dl s0 ls (RStep K (ZPolicy K j (Ok acc))) s1 T /\ z_tasks (r_z s1) !! j = Some (CCheck q p a r) /\
      target cf o p q = Ok (a, r).
  Definition judged cf dl s0 ls j q p T : Prop :=
    exists p0, examined cf dl s0 ls j q p0 T /\
      if z_policy cf then exists acc, allowed cf dl s0 ls j q p0 acc /\ p = with_auth p0 acc else p = p0.
  Definition kept cf dl s0 ls j q p T : Prop :=
    exists s1, did cf dl s0 ls (RStep K (ZStore K j)) s1 T /\ z_tasks (r_z s1) !! j = Some (CStore q p).
  Definition answered cf dl s0 ls i q p T : Prop :=
    (exists s1, did cf dl s0 ls (RStep K (ZLook K i)) s1 T /\ z_tasks (r_z s1) !! i = Some (CLook q)) \/ kept cf dl s0 ls i q p T.

  (** ** Facts *)
  Lemma did_mono cf dl s0 ls x l s1 T : did cf dl s0 ls l s1 T -> did cf dl s0 (ls ++ x) l s1 T.
  Proof. intros [(l1 & l2 & -> & H) HT]. split; [|done]. exists l1, (l2 ++ x). split; [by rewrite <- app_assoc|done]. Qed.
  Lemma did_last cf dl s0 ls l s1 : rrun cf dl ls s0 = Some s1 -> did cf dl s0 (ls ++ [l]) l s1 (r_true s1).
  Proof. intros H. split; [|done]. by exists ls, []. Qed.
  Lemma examined_mono cf dl s0 ls x j q p T : examined cf dl s0 ls j q p T -> examined cf dl s0 (ls ++ x) j q p T.
  Proof. intros (ks & s1 & H & ?). exists ks, s1. split; [by apply did_mono|done]. Qed.
  Lemma judged_mono cf dl s0 ls x j q p T : judged cf dl s0 ls j q p T -> judged cf dl s0 (ls ++ x) j q p T.
  Proof.
    intros (p0 & H & Hp). exists p0. split; [by apply examined_mono|]. destruct (z_policy cf); [|done].
    destruct Hp as (acc & (s1 & T' & o & a & r & Hd & ?) & ->). exists acc. split; [|done]. exists s1, T', o, a, r. split; [by apply did_mono|done].
  Qed.
  Lemma kept_mono cf dl s0 ls x j q p T : kept cf dl s0 ls j q p T -> kept cf dl s0 (ls ++ x) j q p T.
  Proof. intros (s1 & H & ?). exists s1. split; [by apply did_mono|done]. Qed.
  Lemma answered_mono cf dl s0 ls x j q p T : answered cf dl s0 ls j q p T -> answered cf dl s0 (ls ++ x) j q p T.
  Proof. intros [(s1 & H & ?)|H]; [left; exists s1; split; [by apply did_mono|done]|right; by apply kept_mono]. Qed.

  (** A success of request [q], answered at [Tl]. *)
  Definition rests cf dl s0 ls q p Tl : Prop :=
    exists j q' Tv Ts, cache_key cf q' = cache_key cf q /\ judged cf dl s0 ls j q' p Tv /\ kept cf dl s0 ls j q' p Ts /\
      Tv <= Ts <= Tl /\ (0 < z_exp cf -> 0 < Ts - dl -> Tl + z_exp cf <= max_int64 -> Tl <= Ts + z_exp cf + dl).
  Lemma rests_mono cf dl s0 ls x q p T : rests cf dl s0 ls q p T -> rests cf dl s0 (ls ++ x) q p T.
  Proof. intros (j & q' & Tv & Ts & H1 & H2 & H3 & ?). exists j, q', Tv, Ts. split; [done|]. split; [by apply judged_mono|]. split; [by apply kept_mono|done]. Qed.
  Definition task_ok cf dl s0 ls s j (t : ctask) : Prop :=
    match t with
    | CTrans q p => z_policy cf = true /\ exists Tv, examined cf dl s0 ls j q p Tv /\ Tv <= r_true s
    | CCheck q p a r => z_policy cf = true /\ (exists Tv, examined cf dl s0 ls j q p Tv /\ Tv <= r_true s) /\ exists o, target cf o p q = Ok (a, r)
    | CStore q p => exists Tv, judged cf dl s0 ls j q p Tv /\ Tv <= r_true s
    | CDone q (Ok p) => exists Tl, Tl <= r_true s /\ rests cf dl s0 ls q p Tl /\ answered cf dl s0 ls j q p Tl
    | _ => True
    end.
  Definition cache_ok cf dl s0 ls s : Prop :=
    forall k e, z_cache (r_z s) !! k = Some e -> exists j q Tv Ts r, cache_key cf q = k /\ judged cf dl s0 ls j q (ge_val e) Tv /\
      kept cf dl s0 ls j q (ge_val e) Ts /\ Tv <= Ts <= r_true s /\ reads dl Ts r /\
      ge_exp e = (if 0 <? z_exp cf then wrap64 (r + z_exp cf) else z_exp cf).
  Lemma task_ok_mono cf dl s0 ls x s s' j t : r_true s <= r_true s' -> task_ok cf dl s0 ls s j t -> task_ok cf dl s0 (ls ++ x) s' j t.
  Proof.
    intros Hc. destruct t as [|q|q|q p|q p a r|q p|q [p|e|]]; cbn [task_ok]; try done.
    - intros (? & Tv & ? & ?). split; [done|]. exists Tv. split; [by apply examined_mono|lia].
    - intros (? & (Tv & ? & ?) & ?). split; [done|]. split; [|done]. exists Tv. split; [by apply examined_mono|lia].
    - intros (Tv & ? & ?). exists Tv. split; [by apply judged_mono|lia].
    - intros (Tl & ? & ? & ?). exists Tl. split; [lia|]. split; [by apply rests_mono|by apply answered_mono].
  Qed.

  Lemma rough_inv cf dl n t0 ls s : 0 <= dl -> rrun cf dl ls (rinit n t0) = Some s ->
    reads dl (r_true s) (z_clock (r_z s)) /\ (forall j t, z_tasks (r_z s) !! j = Some t -> task_ok cf dl (rinit n t0) ls s j t) /\
    cache_ok cf dl (rinit n t0) ls s.
  Proof.
    intros Hdl. set (s0 := rinit n t0). revert s. induction ls as [|l ls IH] using rev_ind; intros s H.
    - cbn in H. injection H as <-. split; [split; cbn; lia|]. split.
      + intros j t Ht. cbn in Ht. apply lookup_replicate in Ht as [-> _]. done.
      + intros k e He. cbn in He. by rewrite lookup_empty in He.
    - apply rrun_snoc in H as (s1 & Hr & Hstep). destruct (IH _ Hr) as (Hc & Ht & Hcache). clear IH. destruct s1 as [z1 T1].
      pose proof (did_last cf dl s0 ls l _ Hr) as Hdid. cbn [r_true r_z] in *.
      (* nothing but the tasks has changed *)
      assert (forall i u, s = RSt (set_task z1 i u) T1 -> task_ok cf dl s0 (ls ++ [l]) s i u ->
        reads dl (r_true s) (z_clock (r_z s)) /\ (forall j t, z_tasks (r_z s) !! j = Some t -> task_ok cf dl s0 (ls ++ [l]) s j t) /\ cache_ok cf dl s0 (ls ++ [l]) s) as Hset.
      { intros i u -> Hi. split; [done|]. split.
        - intros j t Hj. cbn [r_z set_task z_tasks] in Hj. apply list_lookup_insert_Some in Hj as [(<- & <- & _)|[_ Hj]]; [done|].
          eapply task_ok_mono; [|by apply Ht]. done.
        - intros k e He. destruct (Hcache k e He) as (j & q & Tv & Ts & r & H1 & H2 & H3 & H4). exists j, q, Tv, Ts, r.
          split; [done|]. split; [by apply judged_mono|]. split; [by apply kept_mono|done]. }
      assert (forall T, T1 <= T -> forall k e, z_cache z1 !! k = Some e -> exists j q Tv Ts r, cache_key cf q = k /\ judged cf dl s0 (ls ++ [l]) j q (ge_val e) Tv /\
        kept cf dl s0 (ls ++ [l]) j q (ge_val e) Ts /\ Tv <= Ts <= T /\ reads dl Ts r /\ ge_exp e = (if 0 <? z_exp cf then wrap64 (r + z_exp cf) else z_exp cf)) as Hold.
      { intros T HT k e He. destruct (Hcache k e He) as (j & q & Tv & Ts & r & H1 & H2 & H3 & H4 & H5 & H6). cbn [r_true] in H4. exists j, q, Tv, Ts, r.
        split; [done|]. split; [by apply judged_mono|]. split; [by apply kept_mono|]. split; [lia|done]. }
      destruct l as [l|T r|i ks|k]; cbn [Rough.rstep r_z r_true] in Hstep.
      + destruct (zstep K X cf l z1) as [z|] eqn:Hz; [|by destruct l].
        assert (s = RSt z T1) as -> by (destruct l; cbn in Hstep; congruence || by injection Hstep).
        assert (forall t, l <> ZTick K t) as Nt by (intros t ->; done). assert (forall i ks, l <> ZParse K i ks) as Np by (intros i ks ->; done). clear Hstep.
        destruct l as [t|i q|i|i ks|i o|i r|i|k|]; cbn [zstep] in Hz.
        * by destruct (Nt t).
        * destruct (z_tasks z1 !! i) as [[]|] eqn:Ei; try done. injection Hz as <-. eapply Hset; [done|]. by destruct (empty_params cf q).
        * destruct (z_tasks z1 !! i) as [[]|] eqn:Ei; try done. injection Hz as <-. eapply Hset; [done|].
          unfold g_get. destruct (z_cache z1 !! cache_key cf q) as [e|] eqn:Eg; [|done]. destruct (g_valid (z_clock z1) e) eqn:Ev; [|done].
          cbn [task_ok]. exists T1. split; [done|]. split; [|left; exists (RSt z1 T1); by split].
          destruct (Hold T1 ltac:(lia) _ _ Eg) as (j & q' & Tv & Ts & r & H1 & H2 & H3 & H4 & [H5 H5'] & H6). exists j, q', Tv, Ts. split_and!; try done; try lia.
          intros Hp Hpos Hmax. unfold g_valid in Ev. rewrite H6 in Ev. rewrite (proj2 (Z.ltb_lt 0 (z_exp cf)) Hp) in Ev.
          rewrite wrap64_id in Ev by (unfold min_int64, two63; destruct Hc; lia). apply orb_true_iff in Ev. rewrite !Z.leb_le in Ev. destruct Hc. lia.
        * by destruct (Np i ks).
        * destruct (z_tasks z1 !! i) as [[]|] eqn:Ei; try done. injection Hz as <-. eapply Hset; [done|].
          destruct (Ht _ _ Ei) as (Hpol & Tv & Hv & Htv). destruct (target cf o p q) as [[a r]|e|] eqn:Et; [|done|done]. cbn [task_ok]. split_and!; [done| |by exists o].
          exists Tv. split; [by apply examined_mono|done].
        * destruct (z_tasks z1 !! i) as [[]|] eqn:Ei; try done. injection Hz as <-. eapply Hset; [done|].
          destruct (Ht _ _ Ei) as (Hpol & (Tv & Hv & Htv) & o & Ho). destruct r as [acc|e|]; [|done|done]. cbn [task_ok]. exists Tv. split; [|done].
          exists p. split; [by apply examined_mono|]. rewrite Hpol. exists acc. split; [|done]. exists (RSt z1 T1), T1, o, act, res. done.
        * destruct (z_tasks z1 !! i) as [[]|] eqn:Ei; try done. injection Hz as <-.
          destruct (Ht _ _ Ei) as (Tv & Hj & Htv). cbn [r_true] in Htv. pose proof (judged_mono _ _ _ _ [RStep K (ZStore K i)] _ _ _ _ Hj) as Hj'.
          assert (kept cf dl s0 (ls ++ [RStep K (ZStore K i)]) i q p T1) as Hk by (exists (RSt z1 T1); by split).
          split; [done|]. split.
          -- intros j t Hjt. cbn [r_z z_tasks] in Hjt. apply list_lookup_insert_Some in Hjt as [(<- & <- & _)|[_ Hjt]].
             ++ cbn [task_ok]. exists T1. split; [done|]. split; [|by right]. exists i, q, Tv, T1. split_and!; try done. intros; lia.
             ++ eapply task_ok_mono; [|by apply Ht]. done.
          -- intros k e He. cbn [r_z z_cache] in He. unfold g_set in He. apply lookup_insert_Some in He as [[<- <-]|[_ He]]; [|by apply Hold].
             exists i, q, Tv, T1, (z_clock z1). done.
        * destruct (z_cache z1 !! k) as [e|] eqn:Ek; [|done]. destruct (g_valid (z_clock z1) e); [done|]. injection Hz as <-.
          split; [done|]. split; [intros j t Hj; eapply task_ok_mono; [|by apply Ht]; done|].
          intros k' e' He. cbn [r_z z_cache] in He. apply lookup_delete_Some in He as [_ He]. by apply Hold.
        * injection Hz as <-. split; [done|]. split; [intros j t Hj; eapply task_ok_mono; [|by apply Ht]; done|].
          intros k e He. cbn in He. by rewrite lookup_empty in He.
      + destruct ((T1 <=? T) && (z_clock z1 <=? r) && (r <=? T) && (T <=? r + dl)) eqn:Eb; [|done]. injection Hstep as <-.
        rewrite !andb_true_iff, !Z.leb_le in Eb. destruct Eb as [[[E1 E2] E3] E4]. split; [split; cbn; lia|]. split.
        * intros j t Hj. eapply task_ok_mono; [|by apply Ht]. done.
        * intros k e He. by apply Hold.
      + destruct (z_tasks z1 !! i) as [[]|] eqn:Ei; try done. injection Hstep as <-. eapply Hset; [done|].
        destruct (process K X cf ks (clock_for (RSt z1 T1) q) q) as [p|e|] eqn:Ep; [|done|done].
        assert (examined cf dl s0 (ls ++ [RParse K i ks]) i q p T1) as Hv by (exists ks, (RSt z1 T1); done).
        destruct (z_policy cf) eqn:Epol; cbn [task_ok].
        * split; [done|]. by exists T1.
        * exists T1. split; [|done]. exists p. split; [done|]. by rewrite Epol.
      + injection Hstep as <-. split; [done|]. split; [intros j t Hj; eapply task_ok_mono; [|by apply Ht]; done|].
        intros k' e' He. cbn [r_z z_cache] in He. apply lookup_delete_Some in He as [_ He]. by apply Hold.
  Qed.

  Lemma no_provider (cf : aconf) now tok ct c : parse_access X cf None now tok ct <> Ok c.
  Proof.
    unfold parse_access, parse_with_claims. destruct (split "."%char tok) as [|x0 [|x1 [|x2 [|]]]]; try done.
    destruct (decode_segment X x0) as [hb|]; [|done]. destruct (json_header X hb) as [h|]; [|done].
    destruct (decode_segment X x1) as [cb|]; [|done]. destruct (json_claims X cb) as [c'|]; [|done].
    destruct (header_string h (B "alg")) as [alg|]; [|done]. destruct (get_signing_method alg) as [m|]; [|done].
    unfold key_func. destruct (header_string h (B "kid")); [|done]. by destruct (header_string h (B "jku")) as [|[]].
  Qed.

  (** ** Theorems *)
  (** Whoever is let in: some call with the same key examined its token at [Tv], the policies granted the request, the
      verdict was kept at [Ts] and answered at [Tl], all in true time, the answer at most the cache expiry and the lag
      after the verdict was kept.  A role token was at most the lag past its expiry when it was examined, an access
      token was within its dates. *)
  Theorem C112_accepted cf dl n t0 ls s i q p : 0 <= dl -> rrun cf dl ls (rinit n t0) = Some s ->
    z_tasks (r_z s) !! i = Some (CDone q (Ok p)) -> dl < t0 -> 0 < z_exp cf -> r_true s + z_exp cf <= max_int64 ->
    exists j q' Tv Ts Tl, cache_key cf q' = cache_key cf q /\ judged cf dl (rinit n t0) ls j q' p Tv /\
      kept cf dl (rinit n t0) ls j q' p Ts /\ answered cf dl (rinit n t0) ls i q p Tl /\
      Tv <= Ts <= Tl /\ Tl <= Ts + z_exp cf + dl /\
      match q_mode q' with
      | MRole => exists t, parse_token (q_tok q') = Ok t /\ Tv <= rt_expiry t + dl
      | MAccess => exists c, claims_of X (q_tok q') c /\ dates_ok Tv c
      end.
  Proof.
    intros Hdl Hr Hi Ht0 Hexp Hmax. destruct (rough_inv _ _ _ _ _ _ Hdl Hr) as (_ & Ht & _).
    destruct (Ht _ _ Hi) as (Tl & Hle & (j & q' & Tv & Ts & H1 & H2 & H3 & H4 & H5) & Ha).
    assert (t0 <= Ts) as Hts.
    { destruct H3 as (s1 & [(l1 & l2 & _ & Hr1) <-] & _). clear -Hr1. assert (t0 = r_true (rinit n t0)) as E by done. rewrite E at 1. revert s1 Hr1.
      induction l1 as [|l l1 IH] using rev_ind; intros s1 Hr1; [cbn in Hr1; by injection Hr1 as <-|]. apply rrun_snoc in Hr1 as (s2 & Hr2 & Hs). specialize (IH _ Hr2).
      destruct l as [l|T r|i ks|k]; cbn [Rough.rstep] in Hs.
      - destruct (zstep K X cf l (r_z s2)); destruct l; cbn in Hs; try done; injection Hs as <-; done.
      - destruct ((r_true s2 <=? T) && (z_clock (r_z s2) <=? r) && (r <=? T) && (T <=? r + dl)) eqn:Eb; [|done]. injection Hs as <-.
        rewrite !andb_true_iff, !Z.leb_le in Eb. cbn [r_true]. lia.
      - destruct (z_tasks (r_z s2) !! i) as [[]|]; try done. by injection Hs as <-.
      - by injection Hs as <-. }
    exists j, q', Tv, Ts, Tl. split_and!; try done; try lia.
    destruct H2 as (p0 & (ks & s1 & [_ HT] & _ & Hproc & [Hc1 Hc2]) & _). apply process_describes in Hproc as [_ Hp].
    unfold clock_for in Hp. destruct (q_mode q') eqn:Em.
    - destruct Hp as [[_ (t & Hpt & _)]|[? _]]; [|done]. unfold parse_and_validate in Hpt. destruct (parse_token (q_tok q')) as [t'| |]; cbn in Hpt; try done.
      destruct (rt_validate K (ks_pub K ks) (z_clock (r_z s1)) t') as [[]| |] eqn:Ev; cbn in Hpt; try done. exists t'. split; [done|].
      unfold rt_validate, rt_expired, after in Ev. destruct (Z.ltb_spec (rt_expiry t') (z_clock (r_z s1))); [done|]. lia.
    - destruct Hp as [[? _]|[_ (c & Hpc & _)]]; [done|]. exists c. rewrite HT in Hpc. destruct (ks_jwk K ks) as [jw|] eqn:Ej; [|by apply no_provider in Hpc].
      destruct (C37_accepted_is_signed _ _ _ _ _ _ _ Hpc) as (H6 & H7 & _). done.
  Qed.

  (** Nobody is refused because of the cache: a refused call was without parameters, or its own token was found bad at
      that moment, or its own request was refused by the translation or the policies. *)
  Definition refused_for cf dl s0 ls i q e : Prop :=
    (e = ErrInvalidParameters /\ z_policy cf = true /\ (q_act q = [] \/ q_res q = [])) \/
    (exists ks s1 T, did cf dl s0 ls (RParse K i ks) s1 T /\ z_tasks (r_z s1) !! i = Some (CParse q) /\
      process K X cf ks (clock_for s1 q) q = Err e /\ reads dl T (z_clock (r_z s1))) \/
    (exists o s1 T p Tv, did cf dl s0 ls (RStep K (ZTrans K i o)) s1 T /\ examined cf dl s0 ls i q p Tv /\ target cf o p q = Err e) \/
    (exists s1 T p a r o Tv, did cf dl s0 ls (RStep K (ZPolicy K i (Err e))) s1 T /\ z_tasks (r_z s1) !! i = Some (CCheck q p a r) /\
      examined cf dl s0 ls i q p Tv /\ target cf o p q = Ok (a, r)).
  Lemma refused_mono cf dl s0 ls x i q e : refused_for cf dl s0 ls i q e -> refused_for cf dl s0 (ls ++ x) i q e.
  Proof.
    intros [H|[(ks & s1 & T & H & ?)|[(o & s1 & T & p & Tv & H & Hv & ?)|(s1 & T & p & a & r & o & Tv & H & ? & Hv & ?)]]]; [by left|right; left|right; right; left|right; right; right].
    - exists ks, s1, T. split; [by apply did_mono|done].
    - exists o, s1, T, p, Tv. split; [by apply did_mono|]. split; [by apply examined_mono|done].
    - exists s1, T, p, a, r, o, Tv. split; [by apply did_mono|]. split; [done|]. split; [by apply examined_mono|done].
  Qed.
  Theorem C112_refused cf dl n t0 ls s i q e : 0 <= dl -> rrun cf dl ls (rinit n t0) = Some s ->
    z_tasks (r_z s) !! i = Some (CDone q (Err e)) -> refused_for cf dl (rinit n t0) ls i q e.
  Proof.
    intros Hdl. set (s0 := rinit n t0). revert s. induction ls as [|l ls IH] using rev_ind; intros s H Hi.
    - cbn in H. injection H as <-. cbn in Hi. apply lookup_replicate in Hi as [? _]. done.
    - apply rrun_snoc in H as (s1 & Hr & Hstep). destruct (rough_inv _ _ _ _ _ _ Hdl Hr) as (Hc & Ht & _). destruct s1 as [z1 T1].
      pose proof (did_last cf dl s0 ls l _ Hr) as Hdid. specialize (IH _ Hr). cbn [r_true r_z] in *.
      assert (z_tasks z1 !! i = Some (CDone q (Err e)) -> refused_for cf dl s0 (ls ++ [l]) i q e) as Hold by (intros Hz; by apply refused_mono, IH).
      (* the last step wrote task [j] *)
      assert (forall j u, z_tasks (r_z s) = <[j := u]> (z_tasks z1) -> (j = i -> u = CDone q (Err e) -> refused_for cf dl s0 (ls ++ [l]) i q e) ->
        refused_for cf dl s0 (ls ++ [l]) i q e) as Hset.
      { intros j u Hz Hu. rewrite Hz in Hi. apply list_lookup_insert_Some in Hi as [(-> & -> & _)|[_ Hi]]; [by apply Hu|by apply Hold]. }
      destruct l as [l|T r|j ks|k]; cbn [Rough.rstep r_z r_true] in Hstep.
      + destruct (zstep K X cf l z1) as [z|] eqn:Hz; [|by destruct l].
        assert (s = RSt z T1) as -> by (destruct l; cbn in Hstep; congruence || by injection Hstep).
        assert (forall t, l <> ZTick K t) as Nt by (intros t ->; done). assert (forall i ks, l <> ZParse K i ks) as Np by (intros j ks ->; done). clear Hstep.
        destruct l as [t|j q'|j|j ks|j o|j r|j|k|]; cbn [zstep] in Hz.
        * by destruct (Nt t).
        * destruct (z_tasks z1 !! j) as [[]|] eqn:Ej; try done. injection Hz as <-. eapply Hset; [done|]. intros -> Hu.
          destruct (empty_params cf q') eqn:Ee; [|done]. injection Hu as -> <-. left. split; [done|]. unfold empty_params in Ee.
          apply andb_true_iff in Ee as [? Ee]. split; [done|]. apply orb_true_iff in Ee. by rewrite !bool_decide_eq_true in Ee.
        * destruct (z_tasks z1 !! j) as [[]|] eqn:Ej; try done. injection Hz as <-. eapply Hset; [done|]. intros -> Hu. by destruct (g_get _ _ _).
        * by destruct (Np j ks).
        * destruct (z_tasks z1 !! j) as [[]|] eqn:Ej; try done. injection Hz as <-. eapply Hset; [done|]. intros -> Hu.
          destruct (Ht _ _ Ej) as (_ & Tv & Hv & _). destruct (target cf o p q0) as [[a r]|e'|] eqn:Et; try done. injection Hu as -> ->.
          right. right. left. exists o, (RSt z1 T1), T1, p, Tv. split; [done|]. split; [by apply examined_mono|done].
        * destruct (z_tasks z1 !! j) as [[]|] eqn:Ej; try done. injection Hz as <-. eapply Hset; [done|]. intros -> Hu.
          destruct (Ht _ _ Ej) as (_ & (Tv & Hv & _) & o & Ho). destruct r as [acc|e'|]; try done. injection Hu as -> ->.
          right. right. right. exists (RSt z1 T1), T1, p, act, res, o, Tv. split; [done|]. split; [done|]. split; [by apply examined_mono|done].
        * destruct (z_tasks z1 !! j) as [[]|] eqn:Ej; try done. injection Hz as <-. eapply Hset; [done|]. done.
        * destruct (z_cache z1 !! k) as [x|] eqn:Ek; [|done]. destruct (g_valid (z_clock z1) x); [done|]. injection Hz as <-. by apply Hold.
        * injection Hz as <-. by apply Hold.
      + destruct ((T1 <=? T) && (z_clock z1 <=? r) && (r <=? T) && (T <=? r + dl)); [|done]. injection Hstep as <-. by apply Hold.
      + destruct (z_tasks z1 !! j) as [[]|] eqn:Ej; try done. injection Hstep as <-. eapply Hset; [done|]. intros -> Hu.
        destruct (process K X cf ks (clock_for (RSt z1 T1) q0) q0) as [p|e'|] eqn:Ep; [by destruct (z_policy cf)| |done]. injection Hu as -> ->.
        right. left. exists ks, (RSt z1 T1), T1. done.
      + injection Hstep as <-. by apply Hold.
  Qed.
  (** No role token is refused as expired before it has expired in true time. *)
  Theorem C112_not_early cf dl ks s T q : q_mode q = MRole -> reads dl T (z_clock (r_z s)) ->
    process K X cf ks (clock_for s q) q = Err ErrRoleTokenExpired -> forall t, parse_token (q_tok q) = Ok t -> rt_expiry t < T.
  Proof.
    intros Hm [H1 H2] Hp t Ht. unfold process, clock_for in Hp. rewrite Hm in Hp. destruct (z_role cf); [|done].
    unfold parse_and_validate in Hp. rewrite Ht in Hp. cbn [obind] in Hp. unfold rt_validate, rt_expired, after in Hp.
    destruct (Z.ltb_spec (rt_expiry t) (z_clock (r_z s))); [lia|]. exfalso. revert Hp.
    destruct (ks_pub K ks) as [pk|]; [|done]. destruct (pk EnvZTS (rt_key t)) as [v|]; [|done]. by destruct (vfy K v (rt_unsigned t) (rt_sig t)).
  Qed.

  (** With exact clocks and no losses this is the machine of C43. *)
  Definition rough_of (l : @zlabel K O) : @rlabel K O :=
    match l with ZTick _ t => RPass K t t | ZParse _ i ks => RParse K i ks | l => RStep K l end.
  Theorem C112_exact_case cf n t0 (ls : list (@zlabel K O)) z : zrun K X cf ls (zinit n t0) = Some z ->
    rrun cf 0 (map rough_of ls) (rinit n t0) = Some (RSt z (z_clock z)).
  Proof.
    revert z. induction ls as [|l ls IH] using rev_ind; intros z H; [cbn in H; by injection H as <-|].
    apply zrun_snoc in H as (z1 & Hr & Hs). rewrite map_app. cbn [map]. apply rrun_snoc. exists (RSt z1 (z_clock z1)). split; [by apply IH|].
    destruct l as [t|i q|i|i ks|i o|i r|i|k|]; cbn [rough_of Rough.rstep r_z r_true].
    - cbn [zstep] in Hs. destruct (Z.leb_spec (z_clock z1) t); [|done]. injection Hs as <-. rewrite !Z.leb_refl, Z.add_0_r, Z.leb_refl. done.
    - rewrite Hs. cbn in Hs |- *. destruct (z_tasks z1 !! i) as [[]|]; try done. by injection Hs as <-.
    - rewrite Hs. cbn in Hs |- *. destruct (z_tasks z1 !! i) as [[]|]; try done. by injection Hs as <-.
    - cbn [zstep] in Hs. destruct (z_tasks z1 !! i) as [[]|]; try done. injection Hs as <-. unfold clock_for. cbn [r_z r_true]. by destruct (q_mode q).
    - rewrite Hs. cbn in Hs |- *. destruct (z_tasks z1 !! i) as [[]|]; try done. by injection Hs as <-.
    - rewrite Hs. cbn in Hs |- *. destruct (z_tasks z1 !! i) as [[]|]; try done. by injection Hs as <-.
    - rewrite Hs. cbn in Hs |- *. destruct (z_tasks z1 !! i) as [[]|]; try done. by injection Hs as <-.
    - rewrite Hs. cbn in Hs |- *. destruct (z_cache z1 !! k) as [e|]; [|done]. destruct (g_valid (z_clock z1) e); [done|]. by injection Hs as <-.
    - rewrite Hs. cbn in Hs |- *. by injection Hs as <-.
  Qed.
End claims.

(** ** A concrete case: a copy of the clock five seconds behind *)
(** The role token of the examples expires at second 100; the access token is good from 100 to 200. *)
Definition aq0 : request := Req MAccess atok (B "get") (B "/a") [] None.
Definition rcall (i : nat) (q : request) : list (@rlabel K1 unit) :=
  [RStep K1 (ZCall K1 i q); RStep K1 (ZLook K1 i); RParse K1 i ks1; RStep K1 (ZTrans K1 i tt); RStep K1 (ZPolicy K1 i (Ok [B "r1"])); RStep K1 (ZStore K1 i)].
Definition rresults (o : option rst) : list (option (outcome principal)) := results (option_map r_z o).
(** At second 104 the copy reads 100.  The role token is accepted, four seconds late, and the access token, four
    seconds old.  At second 106 the copy reads 101: the role token is still accepted from the cache; then its entry
    is lost, and it is refused.  At second 200 the copy reads 195: the access token, not in the cache any more, is
    refused to the second. *)
Definition rough1 : list (@rlabel K1 unit) :=
  RPass K1 (104 * second) (100 * second) :: rcall 0 (rq (B "/a") []) ++ rcall 1 aq0 ++
  RPass K1 (106 * second) (101 * second) :: [RStep K1 (ZCall K1 2 (rq (B "/a") [])); RStep K1 (ZLook K1 2)] ++
  RLose K1 (cache_key cf_on (rq (B "/a") [])) :: take 3 (rcall 3 (rq (B "/a") [])) ++
  RPass K1 (200 * second) (195 * second) :: take 3 (rcall 4 aq0).
Definition agreed (o : option rst) (i : nat) : option (time * time) :=
  match o with Some s => match z_tasks (r_z s) !! i with Some (CDone _ (Ok _)) => Some (r_true s, z_clock (r_z s)) | _ => None end | None => None end.
Notation rr1 ls := (rrun K1 X0 cf_on (5 * second) ls (rinit 5 (50 * second))).
Example C112_nonvacuous :
  rresults (rr1 rough1) =
    [Some (Ok pr1); Some (Ok (Principal (B "user") [B "r1"; B "r2"] (B "dom") 100 200 [B "r1"] (Some (B "svc"))));
     Some (Ok pr1); Some (Err ErrRoleTokenExpired); Some (Err (ErrMsg "invalid token"))] /\
  agreed (rr1 (take 16 rough1)) 2 = Some (106 * second, 101 * second) /\
  (* a copy further behind than allowed is not a run *)
  rr1 [RPass K1 (106 * second) (100 * second)] = None.
Proof. split_and!; vm_compute; reflexivity. Qed.
(** Second 104 by an exact clock: the role token is refused. *)
Example C112_exact_clock :
  rresults (rrun K1 X0 cf_on 0 (RPass K1 (104 * second) (104 * second) :: take 3 (rcall 0 (rq (B "/a") []))) (rinit 1 (50 * second))) =
    [Some (Err ErrRoleTokenExpired)].
Proof. vm_compute. reflexivity. Qed.

Print Assumptions C112_accepted.
Print Assumptions C112_refused.
Print Assumptions C112_not_early.
Print Assumptions C112_exact_case.
