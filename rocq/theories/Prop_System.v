(** * Property C71: end-to-end authorization *)
From Verif Require Import Prop_Jwk Prop_Role Prop_Access RoleProofs System SystemSpec SystemFacts.
From Verif Require Import GoStrings.

Section claims.
  Context (K : crypto) (X : jwt_ext) {O : Type} (U : unicode) (parse : str -> option (verifier K)).
  Context (cf : @sconf O) (t0 : time) (n nk nj nu : nat) (calls : nat -> list bool).
  Notation s0 := (yinit K cf t0 n nk nj nu calls).
  Notation yrun := (yrun K X U parse cf s0).
  Notation happened := (happened K X U parse cf s0).
  Notation took := (took K X U parse cf s0).
  Notation published_by := (published_by K X U parse cf s0).
  Notation downloaded := (downloaded K X U parse cf s0).
  Notation untouched := (untouched K X U parse cf s0).
  Notation key_published := (key_published K parse).
  Notation ylabel := (@ylabel K O).
  Notation now := (now K).

  (** A role token, unexpired at [t] and signed with a published ZTS key, stating [p]. *)
  Definition genuine_role (ls : list ylabel) (t : time) (q : request) (p : principal) : Prop :=
    exists fs sig v, q_tok q = token_text fs sig /\ well_formed fs /\
      t <= time_of zero_time (last_value fs (B "e")) /\
      key_published ls true (default [] (last_value fs (B "k"))) v /\
      vfy K v (signed_text fs) (default sig (last_value fs (B "s"))) = true /\
      pr_domain p = rt_domain (token_of fs sig) /\ pr_roles p = rt_roles (token_of fs sig) /\
      pr_name p = rt_principal (token_of fs sig).
  (** An access token, valid at [t] and signed with a key of a configured key set, stating [p]. *)
  Definition genuine_access (ls : list ylabel) (t : time) (q : request) (p : principal) : Prop :=
    exists c h kid url set k, claims_of X (q_tok q) c /\ dates_ok t c /\ header_of X (q_tok q) h /\
      h !! B "kid" = Some (JStr kid) /\ kid <> [] /\
      (h !! B "jku" = Some (JStr url) \/ (h !! B "jku" = None \/ h !! B "jku" = Some (JStr [])) /\ url = j_athenz (s_j cf)) /\
      (url = j_athenz (s_j cf) \/ url ∈ j_urls (s_j cf)) /\
      last_download (jwks K ls) url set /\ first_entry set kid k /\ signed_by X (q_tok q) h k /\
      pr_domain p = cl_aud c /\ pr_roles p = cl_scope c /\ pr_name p = cl_sub c.
  Definition genuine (ls : list ylabel) (t : time) (q : request) (p : principal) : Prop :=
    match q_mode q with MRole => genuine_role ls t q p | MAccess => genuine_access ls t q p end.

  Lemma process_genuine ls s q p : yrun ls s -> process K X (s_z cf) (keys_now K cf s) (now s) q = Ok p -> genuine ls (now s) q p.
  Proof.
    intros Hr H. unfold process in H. unfold genuine. destruct (q_mode q).
    - destruct (z_role (s_z cf)); [|done]. cbn [keys_now ks_pub] in H.
      destruct (parse_and_validate K _ (now s) (q_tok q)) as [t| |] eqn:E; cbn [obind] in H; try done. injection H as <-.
      apply C34_accept_iff in E as (fs & sig & v & H1 & H2 & H3 & -> & H5 & H6 & H7). exists fs, sig, v.
      split_and!; try done. by apply (known_key K X U parse cf t0 n nk nj nu calls _ _ true _ _ Hr).
    - destruct (z_access (s_z cf)); [|done]. cbn [keys_now ks_jwk] in H.
      destruct (parse_access X _ _ (now s) (q_tok q) _) as [c| |] eqn:E; cbn [obind] in H; try done. injection H as <-.
      pose proof (C37_accepted_is_signed _ _ _ _ _ _ _ E) as (Hc & Hd & _).
      apply (C42_key_from_configured_set _ _ _ _ _ _ _ _ _ _ (run_jwk K X U parse cf t0 n nk nj nu calls _ _ Hr)) in E
        as (h & kid & url & set & k & ? & ? & ? & ? & ? & ? & ? & ?).
      by exists c, h, kid, url, set, k.
  Qed.

  (** C71.  Whenever authorize accepts, there was a request with the same cache key whose token was
      genuine at the moment of validation (signature, key publication, expiry) and, if policies are
      checked, whose authorized roles are roles of the token that a downloaded, properly signed
      policy allows for the translated and prefixed request. *)
  Theorem C71_accepted_is_authorized ls s i q p : yrun ls s -> z_tasks (y_auth K s) !! i = Some (CDone q (Ok p)) ->
    exists j q' p0 l1 s1, cache_key (s_z cf) q' = cache_key (s_z cf) q /\
      happened ls (YAuth K (ZParse K j (keys_now K cf s1))) l1 s1 /\ genuine l1 (now s1) q' p0 /\
      if z_policy (s_z cf) then
        exists l2 s2 o a r acc, happened ls (YAuth K (ZPolicy K j (Ok acc))) l2 s2 /\
          z_tasks (y_auth K s2) !! j = Some (CCheck q' p0 a r) /\
          target (s_z cf) o p0 q' = Ok (a, r) /\ p = with_auth p0 acc /\ acc <> [] /\
          forall role, role ∈ acc -> role ∈ pr_roles p0 /\
            exists d sp exp doc, downloaded l2 d sp /\ content sp exp doc /\
              doc_allows U (pr_domain p0) a r doc role
      else p = p0.
  Proof.
    intros Hr Hi. pose proof (run_auth K X U parse cf t0 n nk nj nu calls _ _ Hr) as Hz.
    destruct (machine_inv _ _ _ _ _ Hz) as (_ & Ht & _).
    destruct (Ht _ _ Hi) as (_ & _ & tl & _ & (j & q' & tv & ts & Hkey & (p0 & Hval & Hpol) & _) & _).
    destruct Hval as (ks & z1 & Hocc & Htask & <- & Hproc).
    destruct (occurs_happened K X U parse cf t0 n nk nj nu calls _ _ _ _ Hr Hocc) as (l1 & s1 & Hh & <-).
    assert (ks = keys_now K cf s1) as ->.
    { destruct (happened_step K X U parse cf t0 n nk nj nu calls _ _ _ _ _ Hr Hh) as [s2 Hs]. inversion Hs; subst. done. }
    exists j, q', p0, l1, s1. split; [done|]. split; [done|]. split.
    { destruct Hh as [_ Hr1]. by apply process_genuine. }
    destruct (z_policy (s_z cf)); [|done]. destruct Hpol as (acc & (z2 & o & a & r & Hocc2 & Hcheck & Htar) & ->).
    destruct (occurs_happened K X U parse cf t0 n nk nj nu calls _ _ _ _ Hr Hocc2) as (l2 & s2 & Hh2 & <-).
    exists l2, s2, o, a, r, acc. split; [done|]. split; [done|]. split; [done|]. split; [done|].
    destruct (happened_step K X U parse cf t0 n nk nj nu calls _ _ _ _ _ Hr Hh2) as [s3 Hs].
    inversion Hs as [? ? ? _ Hok| | | | | | | | | | | |]; subst. cbn in Hok. destruct Hok as (k & Hk & Hret).
    destruct Hh2 as [_ Hr2]. destruct (checks_ok K X U parse cf t0 n nk nj nu calls _ _ Hr2 _ _ Hk) as [_ (t & Ht2 & Hpc)].
    rewrite Hcheck in Ht2. injection Ht2 as <-. destruct Hpc as [[]|(q2 & p2 & Heq & Hd & Hro)]. injection Heq as <- <- -> ->.
    destruct (check_allows K X U parse cf t0 n nk nj nu calls _ _ _ _ _ Hr2 Hk Hret) as [Hne Hall]. split; [done|].
    rewrite Hd, Hro. done.
  Qed.

  (** The documents of Update [m] as Athenz serves them: no comma in a role name or an action, no
      two policies of one document contradicting each other on the same target, no role shared
      between domains, and not expired by time [t] (or expired already when taken, which caches
      them for ever, C16). *)
  Definition tame (ls : list ylabel) (t : time) (m : nat) : Prop :=
    (forall w exp doc u, took ls m w exp doc u -> no_commas doc /\ no_cross_conflict U doc /\
       (exp <= u \/ t <= exp /\ 2 * exp <= max_int64)) /\
    (forall w w' exp exp' doc doc' u u' pol pol' r r', took ls m w exp doc u -> took ls m w' exp' doc' u' ->
       pol ∈ doc -> r ∈ pol -> pol' ∈ doc' -> r' ∈ pol' -> r_role r = r_role r' -> w = w').

  (** The call being checked has a policy check going. *)
  Lemma check_of ls s j acc l2 s2 : yrun ls s -> happened ls (YAuth K (ZPolicy K j (Ok acc))) l2 s2 -> exists k, y_chk K s2 !! j = Some (Some k).
  Proof.
    intros Hr Hh2. destruct (happened_step K X U parse cf t0 n nk nj nu calls _ _ _ _ _ Hr Hh2) as [s3 Hs].
    inversion Hs as [? ? ? _ Hok| | | | | | | | | | | |]; subst. cbn in Hok. destruct Hok as (k & Hk & _). eauto.
  Qed.
  (** When the policy check of a call accepts and no expired hook was started on the cache it loaded,
      the policies it went by are those of one successful Update: one properly signed document for
      every domain; if they are tame, none of them denies the request to any role of the token.
      Missing: caches that the hook has filled in place, where it is false (C74, C75), and documents
      that are not tame (C13, C14, C16, C18). *)
  Theorem C71_no_role_denied_partial ls s j acc l2 s2 q p a r k : yrun ls s -> 0 < t0 ->
    happened ls (YAuth K (ZPolicy K j (Ok acc))) l2 s2 -> z_tasks (y_auth K s2) !! j = Some (CCheck q p a r) ->
    y_chk K s2 !! j = Some (Some k) -> untouched l2 (k_obj k) ->
    exists m, published_by l2 m (k_obj k) /\
      (forall w, (w < length (s_f cf))%nat -> exists exp doc u sp, took l2 m w exp doc u /\ downloaded l2 w sp /\ content sp exp doc) /\
      (tame l2 (now s2) m -> forall w exp doc u role, took l2 m w exp doc u -> role ∈ pr_roles p ->
         ~ doc_denies U (pr_domain p) a r doc role).
  Proof.
    intros Hr Ht0 Hh2 Hcheck Hk Hun.
    destruct (happened_step K X U parse cf t0 n nk nj nu calls _ _ _ _ _ Hr Hh2) as [s3 Hs].
    inversion Hs as [? ? ? _ Hok| | | | | | | | | | | |]; subst. cbn in Hok. destruct Hok as (k' & Hk' & Hret).
    assert (k' = k) as -> by congruence. clear Hk'.
    destruct Hh2 as [[l3 ->] Hr2]. destruct (checks_ok K X U parse cf t0 n nk nj nu calls _ _ Hr2 _ _ Hk) as [_ (t & Ht2 & Hpc)].
    rewrite Hcheck in Ht2. injection Ht2 as <-. destruct Hpc as [[]|(q2 & p2 & Heq & Hd & Hro)]. injection Heq as <- <- -> ->.
    destruct (check_cache K X U parse cf t0 n nk nj nu calls _ _ _ _ _ Hr2 Hk Hret Hun) as (m & Hpub & Hdoms).
    exists m. split; [done|]. split; [done|]. intros [Hw Hdis] w exp doc u role Htk Hrole. rewrite Hd. rewrite Hro in Hrole.
    eapply (check_denies K X U parse cf t0 n nk nj nu calls); eauto.
  Qed.
End claims.

(** ** A complete execution
    Keys and the policies of two domains are downloaded, Update publishes, and a role token is
    authorized; then a second request is answered from the cache. *)
From Verif Require Prop_PubKey Prop_Fetcher Prop_Authorizer.
From Verif Require Import SystemExec PolicyCheckers.
From Verif Require Import GoStrings.
Section example.
  Import Prop_PubKey Prop_Fetcher Prop_Authorizer.
  Definition scf : @sconf unit := SConf cf_on pcf1 (JConf (B "https://zts/keys") []) [cf1; cf1].
  Definition pol1 (dom : str) (pols : document) (e : time) : signed_policy :=
    let zs := B "ZMSKEYpd" ++ dom in
    SignedPolicy (Some (SignedData (Some e) (B "0") zs (Some (PolicyData dom (written pols))))) (B "0") (B "ZTSKEYspd0" ++ zs).
  Definition docA : document :=
    [[Raw (B "dom:role.r1") (B "get") (B "dom:/p/*") (B "ALLOW"); Raw (B "dom:role.r2") (B "delete") (B "dom:/p/*") (B "DENY")];
     [Raw (B "dom:role.r1") (B "put") (B "dom:/p/a") (B "DENY")]].
  Definition docB : document := [[Raw (B "dom2:role.r1") (B "*") (B "dom2:*") (B "DENY")]].
  Definition t0 : time := 50 * second.
  Definition keys_cmds (i : nat) (key : str) : list (@cmd unit) :=
    map DKey [PBegin i t0; PResp i (Response 200 (B "tag") (Doc [Some (B "0", key)])) t0; PPut i (B "0"); PNext i; PVisit i (B "0"); PNext i].
  Definition call_cmds (i : nat) (q : request) : list (@cmd unit) :=
    [DCall i q; DLook i; DParse i; DTrans i tt; DLoad i] ++ map (DChk i) [LLoad; LSpawn; LSpawn; LSpawn] ++
    replicate 8 (DChk i (LWork 0)) ++ replicate 6 (DChk i (LWork 1)) ++ map (DChk i) [LClose; LMain; LMain; LMain].
  Definition cmds1 : list (@cmd unit) :=
    keys_cmds 0 (B "ZTSKEY") ++ keys_cmds 1 (B "ZMSKEY") ++
    [DSend 0 0; DSend 1 0; DReply 0 0 (Response 200 (B "a") (Doc (pol1 (B "dom") docA (200 * second))));
     DReply 1 0 (Response 200 (B "b") (Doc (pol1 (B "dom2") docB (300 * second))));
     DSpawn 0; DSpawn 0; DTake 0 1 0; DTick (60 * second); DTake 0 0 0] ++
    replicate 7 (DWork 0 0) ++ replicate 3 (DWork 0 1) ++ [DFinish 0; DTick (70 * second)] ++ call_cmds 0 (rq (B "/a") []).
  Definition cmds2 : list (@cmd unit) := [DPolicy 0; DStore 0; DTick (80 * second); DCall 1 (rq (B "/a") []); DLook 1].
  Definition sinit1 : sys K1 := yinit K1 scf t0 2 2 0 1 (fun _ => [false]).
  Notation drive1 cs := (drive K1 X0 U0 parse1 scf cs [] sinit1).
  (** What the calls answered; the call that is being checked; the end of its check. *)
  Definition answers (s : sys K1) : list (option (list str)) :=
    map (fun t => match t with CDone _ (Ok p) => Some (pr_auth p) | _ => None end) (z_tasks (y_auth K1 s)).
  Definition checking (s : sys K1) : option (list str * str * str) :=
    match z_tasks (y_auth K1 s) !! 0%nat with Some (CCheck _ p a r) => Some (pr_roles p, a, r) | _ => None end.
  Definition verdict (s : sys K1) : option (list str) :=
    match y_chk K1 s !! 0%nat with Some (Some k) => match s_main (k_st k) with MDone (Ok acc) => Some acc | _ => None end | _ => None end.
  Example C71_nonvacuous : exists ls s q p, System.yrun K1 X0 U0 parse1 scf sinit1 ls s /\
    z_tasks (y_auth K1 s) !! 1%nat = Some (CDone q (Ok p)) /\ pr_auth p = [B "r1"] /\ z_policy (s_z scf) = true.
  Proof.
    assert (option_map (fun '(tr, s) => answers s) (drive1 (cmds1 ++ cmds2)) = Some [Some [B "r1"]; Some [B "r1"]]) as Ho by (vm_compute; reflexivity).
    destruct (drive1 (cmds1 ++ cmds2)) as [[tr s]|] eqn:E; [|discriminate]. apply drive_run in E as [Hr _].
    cbn [option_map] in Ho. injection Ho as Ho. unfold answers in Ho.
    destruct (z_tasks (y_auth K1 s)) as [|? [|[| | | | | |q [p| |]] ?]] eqn:Ez; try discriminate. injection Ho as _ Hp _.
    exists (rev tr.*1), s, q, p. by rewrite Ez.
  Qed.
  (** The premises of the second theorem, with two tame documents for two domains. *)
  Example C71_no_role_denied_nonvacuous : exists ls s acc l2 s2 q p a r k, System.yrun K1 X0 U0 parse1 scf sinit1 ls s /\ 0 < t0 /\
    happened K1 X0 U0 parse1 scf sinit1 ls (YAuth K1 (ZPolicy K1 0 (Ok acc))) l2 s2 /\
    z_tasks (y_auth K1 s2) !! 0%nat = Some (CCheck q p a r) /\ pr_roles p = [B "r1"; B "r2"] /\
    y_chk K1 s2 !! 0%nat = Some (Some k) /\ SystemSpec.untouched K1 X0 U0 parse1 scf sinit1 l2 (k_obj k) /\
    tame K1 X0 U0 parse1 scf t0 2 2 0 1 (fun _ => [false]) l2 (now K1 s2) 0.
  Proof.
    assert (option_map (fun '(tr, s) => (checking s, verdict s, now K1 s, takes K1 tr, hooks K1 tr)) (drive1 cmds1) =
      Some (Some ([B "r1"; B "r2"], B "get", B "/p/a"), Some [B "r1"], 70 * second,
            [(0%nat, 0%nat, 200 * second, docA, 60 * second); (0%nat, 1%nat, 300 * second, docB, 50 * second)], false)) as Ho by (vm_compute; reflexivity).
    destruct (drive1 cmds1) as [[tr s]|] eqn:E; [|discriminate]. pose proof (drive_run _ _ _ _ _ _ _ _ _ E) as Ht. clear E.
    cbn [option_map] in Ho. injection Ho as Hc Hv Hn Htk Hh. pose proof Ht as [Hr _]. apply hooks_none in Hh.
    unfold checking in Hc. destruct (z_tasks (y_auth K1 s) !! 0%nat) as [[| | | |q p a r| |]|] eqn:Ez; try discriminate. injection Hc as Hroles Ha Hrr.
    unfold verdict in Hv. destruct (y_chk K1 s !! 0%nat) as [[k|]|] eqn:Ek; try discriminate. destruct (s_main (k_st k)) as [| |[acc| |]] eqn:Em; try discriminate.
    assert (exists z, zstep K1 X0 (s_z scf) (ZPolicy K1 0 (Ok acc)) (y_auth K1 s) = Some z) as [z Hz] by (cbn [zstep]; rewrite Ez; by eexists).
    exists (rev tr.*1 ++ [YAuth K1 (ZPolicy K1 0 (Ok acc))]), (set_auth K1 z s), acc, (rev tr.*1), s, q, p, a, r, k.
    split. { apply (Y_snoc _ _ _ _ _ _ _ _ _ _ Hr). apply S_auth; [done|]. by exists k. }
    split; [done|]. split. { by apply happened_last. }
    split; [done|]. split; [done|]. split; [done|]. split; [by apply (unhooked K1 X0 U0 parse1 scf t0 2 2 0 1 (fun _ => [false]))|]. rewrite Hn. clear - Ht Htk. split.
    - intros w exp doc u Hk. apply (took_in _ _ _ _ _ _ _ _ _ _ _ _ _ Ht) in Hk. rewrite Htk, !elem_of_cons, elem_of_nil in Hk.
      destruct Hk as [[= -> -> -> ->]|[[= -> -> -> ->]|[]]]; (split; [by apply no_commasb_spec|]); (split; [by apply no_conflictb_spec|right]); split; vm_compute; done.
    - intros w w' exp exp' doc doc' u u' pol pol' r r' Hk Hk' Hp Hr Hp' Hr' He.
      apply (took_in _ _ _ _ _ _ _ _ _ _ _ _ _ Ht) in Hk, Hk'. rewrite Htk, !elem_of_cons, elem_of_nil in Hk, Hk'.
      pose proof (elem_of_roles _ _ _ Hp Hr) as H1. pose proof (elem_of_roles _ _ _ Hp' Hr') as H2. rewrite He in H1.
      assert (Forall (fun x => x ∉ roles_of docB) (roles_of docA)) as Hd by (refine (bool_decide_unpack _ _); vm_compute; exact I).
      rewrite Forall_forall in Hd.
      destruct Hk as [[= -> -> -> ->]|[[= -> -> -> ->]|[]]], Hk' as [[= -> -> -> ->]|[[= -> -> -> ->]|[]]]; try reflexivity; exfalso;
        [exact (Hd _ H1 H2)|exact (Hd _ H2 H1)].
  Qed.
End example.
Print Assumptions C71_accepted_is_authorized.
Print Assumptions C71_no_role_denied_partial.
