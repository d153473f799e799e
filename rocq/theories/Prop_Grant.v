(** * Property C96: new grants take effect within a bound *)
From Verif Require Import Prop_System Prop_Revoke Prop_Timed Timed Joint Prop_Latency SystemFacts Prop_Entitled.
From Verif Require Import Running Prop_KeyLatency Prop_KeyRevoke Hooked.
From Verif Require Prop_Expiry.
From Verif Require Import GoStrings.

Section claims.
  Context (K : crypto) (X : jwt_ext) {O : Type} (U : unicode) (parse : str -> option (verifier K)).
  Context (cf : @sconf O) (t0 : time) (n nk nj nu : nat) (calls : nat -> list bool).
  Notation s0 := (yinit K cf t0 n nk nj nu calls).
  Notation yrun := (yrun K X U parse cf s0).
  Notation ystep := (ystep K X U parse cf).
  Notation happened := (happened K X U parse cf s0).
  Notation passed := (passed K X U parse cf s0).
  Notation published_by := (published_by K X U parse cf s0).
  Notation took := (took K X U parse cf s0).
  Notation served_at := (served_at K X U parse cf t0 n nk nj nu calls).
  Notation own_calls := (own_calls K X U parse cf t0 n nk nj nu calls).
  Notation updated_since := (updated_since K X U parse cf t0 n nk nj nu calls).
  Notation valid_token := (valid_token K X cf).
  Notation entitled := (entitled K X U parse cf t0 n nk nj nu calls).
  Notation ylabel := (@ylabel K O).
  Notation now := (now K).

  (** ** Specification *)
  (** The policies [P] speaks of, by domain, are usable up to time [t]: no role or action with a
      comma, no policy with both effects for one key, not expired, no role in two domains. *)
  Definition usable (P : nat -> signed_policy -> Prop) (t : time) : Prop :=
    (forall w sp exp doc, P w sp -> content sp exp doc -> no_commas doc /\ no_cross_conflict U doc /\ t <= exp /\ 2 * exp <= max_int64) /\
    (forall w w' sp sp' exp exp' doc doc' pol pol' r r', P w sp -> content sp exp doc -> P w' sp' -> content sp' exp' doc' ->
       pol ∈ doc -> r ∈ pol -> pol' ∈ doc' -> r' ∈ pol' -> r_role r = r_role r' -> w = w').
  (** They allow the request to a role of [p], in one of the configured domains, and deny it to none. *)
  Definition grants (P : nat -> signed_policy -> Prop) (p : principal) (a b : str) : Prop :=
    (exists role w, role ∈ pr_roles p /\ (w < length (s_f cf))%nat /\
       forall sp exp doc, P w sp -> content sp exp doc -> doc_allows U (pr_domain p) a b doc role) /\
    (forall role w sp exp doc, role ∈ pr_roles p -> P w sp -> content sp exp doc -> ~ doc_denies U (pr_domain p) a b doc role).
  (** Request [q], examined by call [i], is granted: its token is valid then, the translator knows its
      path, and [P] grants what is asked. *)
  Definition granted (ls : list ylabel) (i : nat) (q : request) (P : nat -> signed_policy -> Prop) : Prop :=
    q_act q <> [] /\ q_res q <> [] /\
    (forall l1 s1, happened ls (YAuth K (ZParse K i (keys_now K cf s1))) l1 s1 -> z_tasks (y_auth K s1) !! i = Some (CParse q) -> exists p, valid_token s1 q p) /\
    (forall o l1 s1 p, happened ls (YAuth K (ZParse K i (keys_now K cf s1))) l1 s1 -> valid_token s1 q p ->
       exists a b, target (s_z cf) o p q = Ok (a, b)) /\
    (forall l2 s2 p a b, passed ls l2 s2 -> z_tasks (y_auth K s2) !! i = Some (CCheck q p a b) -> grants P p a b).

  (** ** Facts *)
  Lemma took_all ls s m o : yrun ls s -> untouched K X U parse cf s0 ls o -> published_by ls m o -> forall w, (w < length (s_f cf))%nat -> exists exp doc t, took ls m w exp doc t.
  Proof.
    intros Hr Hh Hpub w Hw. destruct (published_exists K X U parse cf t0 n nk nj nu calls _ _ _ _ Hr Hpub) as [Hlt _].
    apply lookup_lt_is_Some_2 in Hlt as [obj Hobj].
    destruct (objects_ok K X U parse cf t0 n nk nj nu calls _ _ _ Hr Hh) as [_ Hplain]. destruct (Hplain _ _ Hobj Hpub) as (u & Hu & Hret & _).
    destruct (updates_ok K X U parse cf t0 n nk nj nu calls _ _ Hr _ _ Hu) as (uls & H1 & H2 & _).
    destruct (update_all_or_nothing _ _ _ _ _ _ H1) as [_ Hok]. destruct (Hok Hret) as [Hf _]. destruct (Hf w Hw) as [j Hj].
    destruct (H2 _ _ Hj) as (doc & Htk & _). eauto.
  Qed.
  Lemma happened_prefix ls l2 s2 l l1 s1 : passed ls l2 s2 -> happened l2 l l1 s1 -> happened ls l l1 s1.
  Proof. intros [[y ->] _] H. by apply happened_mono. Qed.

  (** ** C96 *)
  (** In [s1] the current cache is from an Update begun after [sr], and so are the newer ones; from
      [sr] on the server speaks of policies satisfying [P] only.  A call made after [s1] is accepted
      if these grant it. *)
  Theorem C96_fresh_caches_grant ls s lr sr P l1 s1 i q r lc sc : yrun ls s -> 0 < t0 -> check_untouched K X U parse cf s0 ls i -> YChk K i EnvCancel ∉ ls -> own_calls ls ->
    passed ls lr sr -> served_at ls lr P -> usable P (now s) ->
    passed ls l1 s1 -> updated_since ls sr s1 ->
    happened ls (YAuth K (ZCall K i q)) lc sc -> passed lc l1 s1 ->
    granted ls i q P -> z_tasks (y_auth K s) !! i = Some (CDone q r) -> exists p, r = Ok p.
  Proof.
    intros Hr Ht0 Hh Hnc Hown Hpr Hsv [Hus1 Hus2] Hp1 Hup Hcall Hp1c (Ha & Hb & Hval & Htr & Hgr) Hi.
    pose proof (filled_since K X U parse cf t0 n nk nj nu calls _ _ _ _ _ Hr Hpr Hown Hup) as [Hfill _].
    assert (z_tasks (y_auth K sc) !! i = Some Authorizer.CIdle) as Hidle.
    { destruct (happened_step K X U parse cf t0 n nk nj nu calls _ _ _ _ _ Hr Hcall) as [s3 Hs]. inversion Hs as [? ? ? Hz _| | | | | | | | | | | |]; subst.
      cbn [zstep] in Hz. by destruct (z_tasks (y_auth K sc) !! i) as [[]|]. }
    assert (y_cur K s1 <= y_cur K sc)%nat as Hcur.
    { destruct Hp1c as [[y ->] H1], Hcall as [_ Hc]. by eapply (cur_mono K X U parse cf t0 n nk nj nu calls). }
    apply (C93_entitled_is_accepted K X U parse cf t0 n nk nj nu calls ls s i q r Hr Ht0 Hh Hnc); [|done].
    split; [done|]. split; [done|]. intros _. split; [done|]. split.
    - exists lc, sc. split; [by eapply happened_passed|]. split; [|done]. destruct Hup as [Hlen _]. destruct Hpr as [_ Hr0].
      pose proof (cur_bound K X U parse cf t0 n nk nj nu calls _ _ Hr0). lia.
    - intros l2 s2 m p a b (x & k & Hpo & Hk & Hpub) Hchk.
      pose proof (happened_passed K X U parse cf t0 n nk nj nu calls _ _ _ _ Hpo) as Hp2. pose proof Hp2 as [[y2 Heq] Hr2].
      destruct (loaded K X U parse cf t0 n nk nj nu calls _ _ Hr2 _ _ Hk) as (la & sa & Hla & Hob).
      (* the check loaded the pointer after the call was made *)
      assert (y_cur K sc <= y_cur K sa)%nat as Hca.
      { destruct (happened_step K X U parse cf t0 n nk nj nu calls _ _ _ _ _ Hr2 Hla) as [s3 Hs].
        assert (exists q' p' a' b', z_tasks (y_auth K sa) !! i = Some (CCheck q' p' a' b')) as (q' & p' & a' & b' & Hta) by (inversion Hs; subst; eauto).
        pose proof (happened_passed K X U parse cf t0 n nk nj nu calls _ _ _ _ (happened_prefix _ _ _ _ _ _ Hp2 Hla)) as Hpa.
        pose proof (happened_passed K X U parse cf t0 n nk nj nu calls _ _ _ _ Hcall) as Hpc.
        destruct (passed_cases K X U parse cf t0 n nk nj nu calls _ _ _ _ _ Hpc Hpa) as [[z ->]|[z ->]].
        - destruct Hpc as [_ Hc], Hpa as [_ Hra]. by eapply (cur_mono K X U parse cf t0 n nk nj nu calls).
        - exfalso. destruct Hpc as [_ Hc], Hpa as [_ Hra]. destruct (task_forward K X U parse cf t0 n nk nj nu calls _ _ _ _ _ _ Hra Hc Hta) as (t' & Ht' & Hn & _).
          rewrite Hidle in Ht'. injection Ht' as <-. by apply Hn. }
      assert (published_by ls m (k_obj k)) as Hpub' by (rewrite Heq; by apply published_mono).
      assert (forall w exp doc t, took l2 m w exp doc t -> exists sp, P w sp /\ content sp exp doc) as Hdocs.
      { intros w exp doc t (cl & script & l3 & s3 & Hh3 & Hans & _). pose proof (happened_prefix _ _ _ _ _ _ Hp2 Hh3) as Hh3'.
        destruct Hpr as [? Hr0].
        eapply (answer_P K X U parse cf t0 n nk nj nu calls); [exact Hsv|exact Hr0|by split|by eapply happened_passed|exact Hans|].
        eapply (Hfill (k_obj k)); [lia|exact Hpub'|exact Hh3']. }
      assert (now s2 <= now s) as Hclk by (by eapply passed_clock).
      destruct (Hgr _ _ _ _ _ Hp2 Hchk) as [(role & w & Hrole & Hw & Hal) Hnd].
      pose proof (Hh _ _ _ _ Hpo Hk) as Hh2.
      split_and!.
      + split.
        * intros w' exp doc t Htk. destruct (Hdocs _ _ _ _ Htk) as (sp & HP & Hc). destruct (Hus1 _ _ _ _ HP Hc) as (? & ? & ? & ?). split; [done|]. split; [done|]. right. lia.
        * intros w1 w2 e1 e2 d1 d2 u1 u2 pol1 pol2 r1 r2 T1 T2. destruct (Hdocs _ _ _ _ T1) as (sp1 & HP1 & Hc1), (Hdocs _ _ _ _ T2) as (sp2 & HP2 & Hc2). by apply (Hus2 _ _ _ _ _ _ _ _ pol1 pol2 r1 r2 HP1 Hc1 HP2 Hc2).
      + exists role. split; [done|]. destruct (took_all _ _ _ _ Hr2 Hh2 Hpub w Hw) as (exp & doc & t & Htk). destruct (Hdocs _ _ _ _ Htk) as (sp & HP & Hc). exists w, exp, doc, t. split; [done|]. by eapply Hal.
      + intros role' Hr' (w' & exp & doc & t & Htk & Hd). destruct (Hdocs _ _ _ _ Htk) as (sp & HP & Hc). by eapply Hnd.
  Qed.

  (** The bound, with the loop of the policy daemon and the clock: a call made later than the change
      by a refresh period, a turn of the loop and an Update is accepted.  The cache of results adds
      nothing: refusals are not cached. *)
  Theorem C96_grant_latency c pre ls0 sb nx0 js j jr sr x t P i q r lc sc : yrun ls0 sb -> uncalled K sb nx0 -> sensible c ->
    joint_run K X U parse cf c pre (jstart K c sb nx0) js j -> js = jr ++ x -> joint_run K X U parse cf c pre (jstart K c sb nx0) jr sr ->
    0 < t0 -> check_untouched K X U parse cf s0 (ls0 ++ sysl K js) i -> YChk K i EnvCancel ∉ ls0 ++ sysl K js -> own_calls (ls0 ++ sysl K js) ->
    uncancelled (loopl K js) -> read c Sending pre (tinit c (now sb)) (loopl K js) ->
    served_at (ls0 ++ sysl K js) (ls0 ++ sysl K jr) P -> usable P (now (j_sys K j)) -> now (j_sys K sr) <= t ->
    (forall v e, (v, Some (RUpdated (Some e))) ∈ loopl K js -> v <= t) ->
    happened (ls0 ++ sysl K js) (YAuth K (ZCall K i q)) lc sc -> t + (c_refresh c + turn c + c_update c) < now sc ->
    granted (ls0 ++ sysl K js) i q P -> z_tasks (y_auth K (j_sys K j)) !! i = Some (CDone q r) -> exists p, r = Ok p.
  Proof.
    intros Hb Hnew Hc Hj Ejs Hjr Ht0 Hh Hnc Hown Hunc Hread Hsv Hus Ht Hfail Hcall Hlate Hgr Hi.
    pose proof (joint_run_sys K X U parse cf t0 n nk nj nu calls _ _ _ _ _ Hb _ _ Hj) as Hy.
    pose proof (joint_run_sys K X U parse cf t0 n nk nj nu calls _ _ _ _ _ Hb _ _ Hjr) as Hyr.
    pose proof (happened_passed K X U parse cf t0 n nk nj nu calls _ _ _ _ Hcall) as Hpc.
    pose proof (passed_clock K X U parse cf s0 _ _ _ _ Hpc Hy) as Hclk.
    destruct (fresh_cache K X U parse cf t0 n nk nj nu calls _ _ _ _ _ Hb Hnew _ _ _ _ _ t Hc Hj Ejs Hjr Hunc Hread Ht Hfail) as (la & sv & Hpv & Hnv & Hup); [lia|].
    apply (C96_fresh_caches_grant (ls0 ++ sysl K js) (j_sys K j) (ls0 ++ sysl K jr) (j_sys K sr) P la sv i q r lc sc); try done.
    - split; [|done]. exists (sysl K x). by rewrite Ejs, (sysl_app K), app_assoc.
    - destruct (passed_cases K X U parse cf t0 n nk nj nu calls _ _ _ _ _ Hpv Hpc) as [[y ->]|[y ->]]; [split; [by eexists|by destruct Hpv]|].
      exfalso. destruct Hpv as [_ Hr1], Hpc as [_ Hr2]. pose proof (yrun_clock K X U parse cf s0 _ _ _ _ Hr2 Hr1). lia.
  Qed.

  (** The same with all three daemons. *)
  Theorem C96_grant_latency_with_all_daemons on c ls0 sb nx0 ws w wr sr x t P i q r lc sc : yrun ls0 sb -> on DPol = true -> uncalled K sb (pick nx0 DPol) ->
    world_run K X U parse cf on c (wstart K c sb nx0) ws w -> ws = wr ++ x -> world_run K X U parse cf on c (wstart K c sb nx0) wr sr ->
    0 < t0 -> check_untouched K X U parse cf s0 (ls0 ++ wsysl K ws) i -> YChk K i EnvCancel ∉ ls0 ++ wsysl K ws -> own_calls (ls0 ++ wsysl K ws) ->
    healthy K c DPol sb ws t -> served_at (ls0 ++ wsysl K ws) (ls0 ++ wsysl K wr) P -> usable P (now (w_sys K w)) -> now (w_sys K sr) <= t ->
    happened (ls0 ++ wsysl K ws) (YAuth K (ZCall K i q)) lc sc -> t + delay c DPol < now sc ->
    granted (ls0 ++ wsysl K ws) i q P -> z_tasks (y_auth K (w_sys K w)) !! i = Some (CDone q r) -> exists p, r = Ok p.
  Proof.
    intros Hb Hon Hnew Hw -> Hwr Ht0 Hh Hnc Hown (Hc & Hunc & Hread & Hfail) Hsv Hus Ht Hcall Hlate Hgr Hi.
    rewrite <- !sysl_jpol in *. rewrite <- loopl_jpol in *.
    eapply (C96_grant_latency (c DPol) (text_of DPol) ls0 sb (pick nx0 DPol) (jpol K (wr ++ x)) (jpart K w) (jpol K wr) (jpart K sr) (jpol K x) t P i q r lc sc Hb Hnew Hc); try done.
    - by eapply joint_part.
    - apply jpol_app.
    - by eapply joint_part.
    - by apply Hread.
  Qed.
End claims.

Section hooks.
  Context (K : crypto) (X : jwt_ext) {O : Type} (U : unicode) (parse : str -> option (verifier K)).
  Context (cf : @sconf O) (doms : list str) (t0 : time) (n nk nj nu : nat) (calls : nat -> list bool).
  Notation s0 := (yinit K cf t0 n nk nj nu calls).
  (** The same in the system with the expired hook, if each cache is replaced before its policies
      expire. *)
  Theorem C96_fresh_caches_grant_with_the_hook hls h lr sr P l1 s1 i q r lc sc : hrun K X U parse cf doms (hinit K s0) hls h -> 0 < t0 ->
    Prop_Expiry.replaced K X U parse cf doms t0 n nk nj nu calls hls (now K (h_sys K h)) ->
    YChk K i EnvCancel ∉ hsys K hls -> own_calls K X U parse cf t0 n nk nj nu calls (hsys K hls) ->
    passed K X U parse cf s0 (hsys K hls) lr sr -> served_at K X U parse cf t0 n nk nj nu calls (hsys K hls) lr P -> usable U P (now K (h_sys K h)) ->
    passed K X U parse cf s0 (hsys K hls) l1 s1 -> updated_since K X U parse cf t0 n nk nj nu calls (hsys K hls) sr s1 ->
    happened K X U parse cf s0 (hsys K hls) (YAuth K (ZCall K i q)) lc sc -> passed K X U parse cf s0 lc l1 s1 ->
    granted K X U parse cf t0 n nk nj nu calls (hsys K hls) i q P -> z_tasks (y_auth K (h_sys K h)) !! i = Some (CDone q r) -> exists p, r = Ok p.
  Proof.
    intros Hr Ht0 Hrep Hnc Hown Hpr Hsv Hus Hp1 Hup Hcall Hpc Hgr Hi.
    pose proof (Prop_Expiry.C90_is_the_system _ _ _ _ _ _ _ _ _ _ _ _ _ _ Hr) as Hy.
    destruct (Prop_Expiry.C90_no_hook_if_replaced _ _ _ _ _ _ _ _ _ _ _ _ _ _ Hr Ht0 Hrep) as (_ & Hh & _).
    apply (unhooked_checks K X U parse cf t0 n nk nj nu calls _ i) in Hh. by eapply (C96_fresh_caches_grant K X U parse cf t0 n nk nj nu calls (hsys K hls) (h_sys K h) lr sr P l1 s1 i q r lc sc).
  Qed.
End hooks.

(** ** An execution with a new grant
    The policy loaded by Init allows the request to a role the token does not have: the request is
    refused.  Then the server allows it to role r2; the same request is accepted. *)
From Verif Require Import SystemExec PolicyCheckers Prop_Window.
From Verif Require Prop_PubKey Prop_Fetcher Prop_Authorizer.
From Verif Require Import GoStrings.
Section example.
  Import Prop_PubKey Prop_Fetcher Prop_Authorizer.
  Definition gdoc : document := [[Raw (B "dom:role.r9") (B "get") (B "dom:/p/*") (B "ALLOW")]].
  Definition gpol : signed_policy := pol1 (B "dom") gdoc (200 * second).
  Definition gcmds0 : list (@cmd unit) := keys_cmds 0 (B "ZTSKEY") ++ keys_cmds 1 (B "ZMSKEY") ++ [DSpawn 0] ++ update_cmds 0 0 gpol ++ [DTick (52 * second)].
  Definition gcmdsA : list (@jcmd unit) := map JC (wcall 0 3 3 2 q1).
  Definition P2 (w : nat) (sp : signed_policy) : Prop := w = 0%nat /\ rpol2 = sp.
  Definition refused_by : option (request * option (list str * list str * str)) := Some (q1, None).
  Definition gevents : list ev := lev 3 rdoc2 rpol2 (82 * second) ++ lev 2 rdoc2 rpol2 (72 * second) ++ lev 1 rdoc2 rpol2 (62 * second) ++ lev 0 gdoc gpol (50 * second).
  Notation proj := Prop_Latency.proj.
  Notation jdrive1 := (jdrive K1 X0 U0 parse1 rcf cL (B "error update policy")).
  Notation lrun := (System.yrun K1 X0 U0 parse1 rcf linit).
  Notation lpassed := (passed K1 X0 U0 parse1 rcf linit).
  Notation lhappened := (happened K1 X0 U0 parse1 rcf linit).
  Notation lcalls := (fun _ : nat => [false; false; false; false]).
  (** No hook, no cancelled check; the token of call 1 is valid when it is examined; what call 1 asks. *)
  Definition plainb (T : list (@ylabel K1 unit * sys K1)) : bool :=
    forallb (fun '(l, s) => match l with
      | YAuth _ (ZParse _ 1 ks) => match process K1 X0 (s_z rcf) (keys_now K1 rcf s) (now K1 s) q1 with Ok _ => true | _ => false end
      | YHook _ | YChk _ _ EnvCancel => false
      | _ => true end) T.
  Definition asksb (s : sys K1) : bool :=
    match z_tasks (y_auth K1 s) !! 1%nat with
    | Some (CCheck _ p a b) => bool_decide (pr_roles p = [B "r1"; B "r2"] /\ pr_domain p = B "dom" /\ a = B "get" /\ b = B "/p/a")
    | _ => true end.
  Lemma the_granting_run : exists tr0 sb trA jA trB jB trC jC trD jD,
    drive K1 X0 U0 parse1 rcf gcmds0 [] linit = Some (tr0, sb) /\ jdrive1 gcmdsA [] (jstart K1 cL sb 1) = Some (trA, jA) /\ jdrive1 cmdsB trA jA = Some (trB, jB) /\
    jdrive1 cmdsC trB jB = Some (trC, jC) /\ jdrive1 cmdsD trC jC = Some (trD, jD) /\
    calls_of sb = [(1%nat, false); (0%nat, true); (0%nat, true); (0%nat, true)] /\
    tasks (j_sys K1 jB) = [refused_by; None; None] /\ tasks (j_sys K1 jD) = [refused_by; granted_to (B "r2"); None] /\
    (now K1 (j_sys K1 jB) = 53 * second /\ now K1 (j_sys K1 jC) = 84 * second /\ now K1 (j_sys K1 jD) = 84 * second) /\
    own_okb (proj K1 trD ++ tr0) = true /\ loop_okb (loopl K1 (rev trD.*1)) = true /\
    events (proj K1 trD ++ tr0) = gevents /\ plainb (proj K1 trD ++ tr0) = true /\ forallb (fun '(_, s) => asksb s) (proj K1 trD ++ tr0) = true /\ asksb (j_sys K1 jD) = true.
  Proof.
    assert (
      match drive K1 X0 U0 parse1 rcf gcmds0 [] linit with None => None | Some (tr0, sb) =>
      match jdrive1 gcmdsA [] (jstart K1 cL sb 1) with None => None | Some (trA, jA) =>
      match jdrive1 cmdsB trA jA with None => None | Some (trB, jB) =>
      match jdrive1 cmdsC trB jB with None => None | Some (trC, jC) =>
      match jdrive1 cmdsD trC jC with None => None | Some (trD, jD) =>
        Some (calls_of sb, tasks (j_sys K1 jB), tasks (j_sys K1 jD), now K1 (j_sys K1 jB), now K1 (j_sys K1 jC), now K1 (j_sys K1 jD),
          (own_okb (proj K1 trD ++ tr0), loop_okb (loopl K1 (rev trD.*1)), events (proj K1 trD ++ tr0), plainb (proj K1 trD ++ tr0), forallb (fun '(_, s) => asksb s) (proj K1 trD ++ tr0) && asksb (j_sys K1 jD)))
      end end end end end =
      Some ([(1%nat, false); (0%nat, true); (0%nat, true); (0%nat, true)], [refused_by; None; None], [refused_by; granted_to (B "r2"); None], 53 * second, 84 * second, 84 * second,
        (true, true, gevents, true, true))) as Ho by (vm_compute; reflexivity).
    destruct (drive K1 X0 U0 parse1 rcf gcmds0 [] linit) as [[tr0 sb]|]; [|discriminate Ho].
    destruct (jdrive1 gcmdsA [] (jstart K1 cL sb 1)) as [[trA jA]|] eqn:EA; [|discriminate Ho].
    destruct (jdrive1 cmdsB trA jA) as [[trB jB]|] eqn:EB; [|discriminate Ho].
    destruct (jdrive1 cmdsC trB jB) as [[trC jC]|] eqn:EC; [|discriminate Ho].
    destruct (jdrive1 cmdsD trC jC) as [[trD jD]|] eqn:ED; [|discriminate Ho].
    exists tr0, sb, trA, jA, trB, jB, trC, jC, trD, jD.
    assert (forall A1 A2 A3 A4 A5 A6 A7 A8 A9 A10 A11 (a1 b1 : A1) (a2 b2 : A2) (a3 b3 : A3) (a4 b4 : A4) (a5 b5 : A5) (a6 b6 : A6) (a7 b7 : A7) (a8 b8 : A8) (a9 b9 : A9) (a10 b10 : A10) (a11 b11 : A11),
      Some (a1, a2, a3, a4, a5, a6, (a7, a8, a9, a10, a11)) = Some (b1, b2, b3, b4, b5, b6, (b7, b8, b9, b10, b11)) ->
      a1 = b1 /\ a2 = b2 /\ a3 = b3 /\ a4 = b4 /\ a5 = b5 /\ a6 = b6 /\ a7 = b7 /\ a8 = b8 /\ a9 = b9 /\ a10 = b10 /\ a11 = b11) as Hinj by (intros; by simplify_eq).
    apply Hinj in Ho as (H1 & H2 & H3 & H4 & H5 & H6 & H7 & H8 & H9 & H10 & H11). apply andb_true_iff in H11 as [H11 H12].
    do 5 (split; [first [assumption|reflexivity]|]). do 3 (split; [assumption|]). split; [split; [assumption|]; split; assumption|]. do 5 (split; [assumption|]). assumption.
  Qed.
  Lemma content_rpol2 w sp exp doc : P2 w sp -> content sp exp doc -> exp = 200 * second /\ doc = rdoc2.
  Proof. intros [_ <-] (d & p & H1 & H2 & H3 & H4). cbn in H1. injection H1 as <-. cbn in H2, H3. injection H2 as <-. injection H3 as <-. split; [done|]. apply written_inj. exact (eq_sym H4). Qed.
  Example C96_nonvacuous : exists ls0 sb js j jr sr x lc sc p,
    lrun ls0 sb /\ uncalled K1 sb 1 /\ sensible cL /\
    joint_run K1 X0 U0 parse1 rcf cL (B "error update policy") (jstart K1 cL sb 1) js j /\ js = jr ++ x /\ joint_run K1 X0 U0 parse1 rcf cL (B "error update policy") (jstart K1 cL sb 1) jr sr /\
    0 < t0 /\ check_untouched K1 X0 U0 parse1 rcf linit (ls0 ++ sysl K1 js) 1 /\ YChk K1 1 EnvCancel ∉ ls0 ++ sysl K1 js /\
    own_calls K1 X0 U0 parse1 rcf t0 3 2 0 4 lcalls (ls0 ++ sysl K1 js) /\
    uncancelled (loopl K1 js) /\ read cL Sending (B "error update policy") (tinit cL (now K1 sb)) (loopl K1 js) /\
    served_at K1 X0 U0 parse1 rcf t0 3 2 0 4 lcalls (ls0 ++ sysl K1 js) (ls0 ++ sysl K1 jr) P2 /\
    usable U0 P2 (now K1 (j_sys K1 j)) /\
    now K1 (j_sys K1 sr) <= 53 * second /\ (forall v e, (v, Some (RUpdated (Some e))) ∈ loopl K1 js -> v <= 53 * second) /\
    lhappened (ls0 ++ sysl K1 js) (YAuth K1 (ZCall K1 1 q1)) lc sc /\ 53 * second + (c_refresh cL + turn cL + c_update cL) < now K1 sc /\
    granted K1 X0 U0 parse1 rcf t0 3 2 0 4 lcalls (ls0 ++ sysl K1 js) 1 q1 P2 /\
    z_tasks (y_auth K1 (j_sys K1 j)) !! 1%nat = Some (CDone q1 (Ok p)) /\ pr_auth p = [B "r2"] /\
    (* the same request was refused before *)
    exists r0, z_tasks (y_auth K1 (j_sys K1 sr)) !! 0%nat = Some (CDone q1 r0) /\ forall p0, r0 <> Ok p0.
  Proof.
    destruct the_granting_run as (tr0 & sb & trA & jA & trB & jB & trC & jC & trD & jD & E0 & EA & EB & EC & ED & Hcalls & HtB & HtD & (NB & NC & ND) & Hown & Hloop & Hev & Hplain & Hasks & HaskD).
    pose proof (drive_chain K1 X0 U0 parse1 rcf linit _ _ _ _ _ E0 eq_refl) as C0.
    destruct (jdrive_sound K1 X0 U0 parse1 rcf cL (B "error update policy") linit (jstart K1 cL sb 1) _ _ _ _ _ tr0 EA C0 ltac:(constructor)) as (CA & JA & _).
    destruct (jdrive_sound K1 X0 U0 parse1 rcf cL (B "error update policy") linit (jstart K1 cL sb 1) _ _ _ _ _ tr0 EB CA JA) as (CB & JB & xB & XB).
    destruct (jdrive_sound K1 X0 U0 parse1 rcf cL (B "error update policy") linit (jstart K1 cL sb 1) _ _ _ _ _ tr0 EC CB JB) as (CC & JC & xC & XC).
    destruct (jdrive_sound K1 X0 U0 parse1 rcf cL (B "error update policy") linit (jstart K1 cL sb 1) _ _ _ _ _ tr0 ED CC JC) as (CD & JD & xD & XD).
    destruct (jdrive_first _ _ _ _ _ _ ED) as (lD & jD1 & yD & EqD & XD').
    assert (lD = JSys K1 (YAuth K1 (ZCall K1 1 q1))) as ->.
    { clear -EqD. cbn [jexec yexec] in EqD. unfold zexec in EqD. destruct (zstep _ _ _ _ (y_auth K1 (j_sys K1 jC))); [|discriminate EqD]. cbn [upd_okb] in EqD. by injection EqD. }
    clear E0 EA EB EC ED EqD.
    assert (forall tr : list (@joint_label K1 unit * joint K1), rev (proj K1 tr ++ tr0).*1 = rev tr0.*1 ++ sysl K1 (rev tr.*1)) as Hrev.
    { intros tr. rewrite fmap_app, rev_app_distr. f_equal. apply proj_sysl. }
    assert (forall x tr : list (@joint_label K1 unit * joint K1), sysl K1 (rev (x ++ tr).*1) = sysl K1 (rev tr.*1) ++ sysl K1 (rev x.*1)) as Hsapp.
    { intros x tr. rewrite fmap_app, rev_app_distr. unfold sysl. apply omap_app. }
    destruct (task_obs (j_sys K1 jD) 1 q1 [B "r2"] [B "r1"; B "r2"] (B "dom")) as (p & Hp & Ha & _); [by rewrite HtD|].
    assert (exists r0, z_tasks (y_auth K1 (j_sys K1 jB)) !! 0%nat = Some (CDone q1 r0) /\ forall p0, r0 <> Ok p0) as Hrefused.
    { clear -HtB. unfold tasks in HtB. destruct (z_tasks (y_auth K1 (j_sys K1 jB))) as [|tk tks]; [discriminate HtB|]. cbn [map] in HtB. injection HtB as Htk _. cbn [lookup list_lookup].
      destruct tk as [| | | | | |q r]; try discriminate Htk. destruct r; try discriminate Htk; injection Htk as ->; by eexists. }
    exists (rev tr0.*1), sb, (rev trD.*1), jD, (rev trB.*1), jB, (rev (xD ++ xC).*1), (rev tr0.*1 ++ sysl K1 (rev trC.*1)), (j_sys K1 jC), p.
    assert (forall l l1 s1, lhappened (rev tr0.*1 ++ sysl K1 (rev trD.*1)) l l1 s1 -> (l, s1) ∈ proj K1 trD ++ tr0) as Hin.
    { intros l l1 s1. rewrite <- Hrev. by apply (chain_happened K1 X0 U0 parse1 rcf linit _ _ _ _ _ CD). }
    assert (forall l l1 s1, lhappened (rev tr0.*1 ++ sysl K1 (rev trD.*1)) l l1 s1 -> forall e, e ∈ events [(l, s1)] -> e ∈ gevents) as Hev'.
    { intros l l1 s1 Hh e He. apply Hin in Hh. rewrite <- Hev. unfold events in *. apply elem_of_list_omap. exists (l, s1). split; [done|]. apply elem_of_list_omap in He as (y & ->%elem_of_list_singleton & Hy). done. }
    assert (forall l, l ∈ rev tr0.*1 ++ sysl K1 (rev trD.*1) -> l <> YHook K1 /\ (forall i, l <> YChk K1 i EnvCancel)) as Hcalm.
    { intros l Hl. rewrite <- Hrev in Hl. apply elem_of_list_In in Hl. apply in_rev in Hl. apply elem_of_list_In, elem_of_list_fmap in Hl as ([l1 s1] & -> & Hl). cbn [fst].
      unfold plainb in Hplain. rewrite forallb_forall in Hplain. apply elem_of_list_In, Hplain in Hl. clear -Hl. split; [intros ->|intros i ->]; discriminate Hl. }
    assert (forall la sa, lpassed (rev tr0.*1 ++ sysl K1 (rev trD.*1)) la sa -> asksb sa = true) as Hasked.
    { intros la sa Hps. rewrite <- Hrev in Hps. destruct (chain_passed K1 X0 U0 parse1 rcf linit _ _ _ _ CD Hps) as (T2 & T1 & ET & -> & H1).
      pose proof (chain_run K1 X0 U0 parse1 rcf linit _ _ H1) as R1. destruct T2 as [|[l3 s3] T3 _] using rev_ind.
      - rewrite ET in CD. apply chain_run in CD. by assert (sa = j_sys K1 jD) as -> by (exact (yrun_det K1 X0 U0 parse1 rcf linit _ _ _ R1 CD)).
      - pose proof CD as CD'. rewrite ET, <- app_assoc in CD'. apply chain_tail in CD' as (s4 & _ & CD'). apply chain_run in CD'. assert (sa = s3) as -> by (exact (yrun_det K1 X0 U0 parse1 rcf linit _ _ _ R1 CD')).
        rewrite forallb_forall in Hasks. apply (Hasks (l3, s3)). apply elem_of_list_In. rewrite ET, !elem_of_app, elem_of_list_singleton. auto. }
    assert (forall d i r l1 s1, lhappened (rev tr0.*1 ++ sysl K1 (rev trD.*1)) (YReply K1 d i r) l1 s1 -> d = 0%nat) as Hd0.
    { intros d i r l1 s1 Hh. pose proof (chain_run K1 X0 U0 parse1 rcf linit _ _ CD) as RD. rewrite Hrev in RD. destruct (happened_step K1 X0 U0 parse1 rcf t0 3 2 0 4 lcalls _ _ _ _ _ RD Hh) as [s3 Hs].
      inversion Hs as [| | | |? ? ? ? fc f f' Hfc| | | | | | | |]; subst. destruct d as [|d]; [done|]. destruct d; discriminate Hfc. }
    split; [by apply chain_run|].
    split. { intros m u Hm Hu. assert (calls_of sb !! m = Some (u_spawned u, match u_ret u with None => true | _ => false end)) as Hx by (unfold calls_of; by rewrite list_lookup_fmap, Hu).
      rewrite Hcalls in Hx. clear -Hm Hx. destruct m as [|[|[|[|m]]]]; [lia|cbn in Hx..]; try discriminate Hx; injection Hx as H1 H2; (split; [done|]); by destruct (u_ret u). }
    split; [unfold sensible, cL; cbn; unfold second; lia|]. split; [done|].
    split; [rewrite XD, XC, !fmap_app, !rev_app_distr; by rewrite <- app_assoc|]. split; [done|]. split; [done|].
    split; [eapply (unhooked_checks K1 X0 U0 parse1 rcf); intros Hx; by apply Hcalm in Hx as [? _]|]. split; [intros Hx; apply Hcalm in Hx as [_ Hx]; by eapply Hx|].
    split; [|split; [|split; [|split; [|split; [|split; [|split; [|split; [|split; [|split]]]]]]]]].
    - (* own calls *) split.
      + intros m w k script l' s' Hh. apply Hin in Hh. unfold own_okb in Hown. rewrite forallb_forall in Hown. apply elem_of_list_In in Hh. apply Hown in Hh. cbn beta iota in Hh.
        apply existsb_exists in Hh as ([l1 sa] & H1 & H2). apply elem_of_list_In in H1. destruct (chain_in K1 X0 U0 parse1 rcf linit _ _ _ _ CD H1) as [la Hla].
        unfold idleb in H2. destruct (y_upd K1 sa !! m) as [u|] eqn:Eu; [|discriminate H2]. destruct (y_fetch K1 sa !! w) as [f|] eqn:Ef; [|discriminate H2]. apply andb_true_iff in H2 as [H2 H3].
        exists la, sa, u. rewrite <- Hrev. split; [done|]. split; [done|]. split; [by apply Nat.ltb_lt|]. destruct (fs_calls f !! k) as [[b| | | |]|] eqn:Ek; try discriminate H3. by exists f, b.
      + intros ob w k c script l' s' Hh. exfalso. apply Hin in Hh. unfold own_okb in Hown. rewrite forallb_forall in Hown. apply elem_of_list_In in Hh. apply Hown in Hh. discriminate Hh.
    - intros t e He. unfold loop_okb in Hloop. apply andb_true_iff in Hloop as [Hl _]. rewrite forallb_forall in Hl. apply elem_of_list_In in He. by apply Hl in He.
    - intros tr1 tr2 s1 Etr H b m _. unfold loop_okb in Hloop. apply andb_true_iff in Hloop as [_ Hl]. apply ech_length in H. apply Nat.ltb_lt in Hl. rewrite Etr, app_length in Hl. cbn in H. lia.
    - (* the server *)
      assert (forall l x s', lhappened (rev tr0.*1 ++ sysl K1 (rev trD.*1)) l ((rev tr0.*1 ++ sysl K1 (rev trB.*1)) ++ x) s' -> 53 * second <= now K1 s') as Hclk.
      { intros l x s' [_ Hr]. rewrite <- NB. pose proof (chain_run K1 X0 U0 parse1 rcf linit _ _ CB) as RB. rewrite Hrev in RB. exact (yrun_clock K1 X0 U0 parse1 rcf linit _ _ _ _ RB Hr). }
      split; [|split].
      + intros d i etag sp x s' Hh. split; [by eapply Hd0|]. pose proof (Hclk _ _ _ Hh) as Hc. pose proof (Hev' _ _ _ Hh (EReply (now K1 s') 200 (Doc sp)) ltac:(by apply in_events)) as Hi.
        clear -Hc Hi. unfold gevents, lev in Hi. cbn [app] in Hi. set (v := now K1 s') in *. clearbody v. rewrite !elem_of_cons, elem_of_nil in Hi.
        repeat (destruct Hi as [Hi|Hi]; [try discriminate Hi; injection Hi as H1 H2; first [by symmetry|by rewrite H1 in Hc]|]); done.
      + intros d i etag b x s' f rt tp inm t Hh. pose proof (Hev' _ _ _ Hh (EReply (now K1 s') 304 b) ltac:(by apply in_events)) as Hi. exfalso.
        clear -Hi. unfold gevents, lev in Hi. cbn [app] in Hi. rewrite !elem_of_cons, elem_of_nil in Hi. repeat (destruct Hi as [Hi|Hi]; [discriminate Hi|]). done.
      + intros d i x s' s'' f sp e Hh Hs Hf Hc. exfalso.
        pose proof (Hev' _ _ _ Hh _ ltac:(by apply in_events)) as Hi. clear -Hi Hs Hf Hc.
        inversion Hs as [| | |? ? ? fc f0 f' Hfc Hf0 Hst| | | | | | | | |]; subst. cbn [set_fetch y_fetch] in Hf.
        rewrite list_lookup_insert in Hf by (by eapply lookup_lt_Some). injection Hf as ->.
        unfold fetch_calls in Hi. rewrite list_lookup_fmap, Hf0 in Hi. cbn [fmap option_fmap option_map mbind option_bind] in Hi.
        rewrite list_lookup_fmap in Hi. cbn [fstep] in Hst.
        assert (fs_calls f0 !! i = Some (FIdle false)) as Hi2.
        { clear -Hi. unfold gevents, lev in Hi. cbn [app] in Hi. rewrite !elem_of_cons, elem_of_nil in Hi.
          destruct (fs_calls f0 !! i) as [[[]| | | |]|]; cbn in Hi; [exfalso|done|exfalso..]; repeat (destruct Hi as [Hi|Hi]; [discriminate Hi|]); done. }
        rewrite Hi2 in Hst. injection Hst as <-. cbn [fs_calls] in Hc. rewrite list_lookup_insert in Hc by (by eapply lookup_lt_Some).
        destruct d as [|d]; [|done]. injection Hfc as <-. discriminate Hc.
    - rewrite ND. split.
      + intros w sp exp doc HP Hc. destruct (content_rpol2 _ _ _ _ HP Hc) as [-> ->]. split; [by apply no_commasb_spec|]. split; [by apply no_conflictb_spec|]. split; vm_compute; done.
      + intros w w' sp sp' exp exp' doc doc' pol pol' r r' [-> _] _ [-> _]. done.
    - by rewrite NB.
    - intros v e He. unfold loop_okb in Hloop. apply andb_true_iff in Hloop as [Hl _]. rewrite forallb_forall in Hl. apply elem_of_list_In in He. by apply Hl in He.
    - assert (proj K1 trD ++ tr0 = proj K1 yD ++ (YAuth K1 (ZCall K1 1 q1), j_sys K1 jC) :: (proj K1 trC ++ tr0)) as EP by (rewrite XD'; unfold proj; rewrite omap_app, <- app_assoc; done).
      rewrite <- !Hrev, EP. rewrite EP in CD. exact (chain_at K1 X0 U0 parse1 rcf linit _ _ _ _ _ CD).
    - by rewrite NC.
    - split; [done|]. split; [done|]. split; [|split].
      + intros l1 s1 Hh _. apply Hin in Hh. unfold plainb in Hplain. rewrite forallb_forall in Hplain. apply elem_of_list_In, Hplain in Hh. cbn beta iota in Hh.
        destruct (process K1 X0 (s_z rcf) (keys_now K1 rcf s1) (now K1 s1) q1) as [p1| |] eqn:Ep; [|discriminate Hh..]. exists p1. apply (proj2 (valid_iff K1 X0 parse1 rcf 0 0 (fun _ => []) s1 q1 p1)); exact Ep.
      + intros; by do 2 eexists.
      + intros l2 s2 p2 a b Hps Hck. apply Hasked in Hps. unfold asksb in Hps. rewrite Hck in Hps. apply bool_decide_eq_true in Hps as (Hro & Hdo & -> & ->). split.
        * exists (B "r2"), 0%nat. rewrite Hro, Hdo. split; [right; left|]. split; [cbn; lia|]. intros sp exp doc HP Hc. destruct (content_rpol2 _ _ _ _ HP Hc) as [_ ->]. by apply doc_allowsb_spec.
        * intros role w sp exp doc _ HP Hc Hd. destruct (content_rpol2 _ _ _ _ HP Hc) as [_ ->]. destruct Hd as (pol & r & Hpol & Hr & _ & Hd). apply elem_of_list_singleton in Hpol as ->. apply elem_of_list_singleton in Hr as ->. discriminate Hd.
    - done.
  Qed.
End example.
Print Assumptions C96_fresh_caches_grant.
Print Assumptions C96_grant_latency.
Print Assumptions C96_grant_latency_with_all_daemons.
Print Assumptions C96_fresh_caches_grant_with_the_hook.
