(** * Property C109: nothing is granted before the policies of all domains are there *)
From Verif Require Import Hooked SystemFacts SystemExec PolicyCheckers Prop_System Prop_Window Prop_Expiry.
From Verif Require Api ApiFacts Prop_Api PolicyUpdateFacts Prop_PubKey Prop_Fetcher Prop_Authorizer Prop_Access.
From Verif Require Import GoStrings.

Section claims.
  Context (K : crypto) (X : jwt_ext) {O : Type} (U : unicode) (parse : str -> option (verifier K)).
  Context (cf : @sconf O) (doms : list str) (t0 : time) (n nk nj nu : nat) (calls : nat -> list bool).
  Notation s0 := (yinit K cf t0 n nk nj nu calls).
  Notation hrun := (hrun K X U parse cf doms (hinit K s0)).
  Notation hstep := (hstep K X U parse cf doms).
  Notation yrun := (yrun K X U parse cf s0).
  Notation happened := (happened K X U parse cf s0).
  Notation passed := (passed K X U parse cf s0).
  Notation downloaded := (downloaded K X U parse cf s0).
  Notation took := (took K X U parse cf s0).
  Notation published_by := (published_by K X U parse cf s0).
  Notation untouched := (untouched K X U parse cf s0).
  Notation hsys := (hsys K).

  (** ** Specification *)
  (** An Update has put a cache into use, having got a properly signed document for each domain. *)
  Definition updated (ls : list (@ylabel K O)) : Prop :=
    exists m o, published_by ls m o /\
      forall w, (w < length (s_f cf))%nat -> exists exp doc t sp, took ls m w exp doc t /\ downloaded ls w sp /\ content sp exp doc.

  (** ** Facts *)
  Lemma same_cache l s s' : ystep K X U parse cf l s s' -> length (y_objs K s') = length (y_objs K s) -> y_cur K s' = y_cur K s.
  Proof. destruct 1; intros Hl; try done. cbn in Hl. rewrite app_length in Hl. cbn in Hl. lia. Qed.
  (** While the cache New made is in use no goroutine waits for expired keys and no hook is pending. *)
  Lemma no_hook_yet ls s : hrun ls s ->
    (0 < length (y_objs K (h_sys K s)))%nat /\
    (y_cur K (h_sys K s) = 0%nat -> h_pend K s = [] /\ exists q, h_exp K s = [Expirer EOff q]).
  Proof.
    induction 1 as [|ls l s s' _ [IHl IH] Hs]; [cbn; split; [lia|]; intros _; split; [done|by eexists]|].
    destruct Hs as [s l y Hd Ho Hy Hl|s m y Hd Hy Hl|s o k c e x y Hd Hc He Hv Hx Hy|s o k q1 q2 Hd Hx|s o q Hd Hx|s k p1 p2 d c y Hd Hp Hf Hc Hy|s k p1 p2 Hd Hp Hf];
      cbn [h_sys h_pend h_exp].
    - split; [lia|]. rewrite (same_cache _ _ _ Hy Hl). done.
    - inversion Hy; subst; [by destruct Hl|]. cbn [publish set_upd y_objs y_cur]. rewrite app_length. cbn. split; [lia|]. intros Hz. lia.
    - inversion Hy; subst. cbn [set_obj y_objs y_cur]. rewrite insert_length. split; [done|]. intros Hz. destruct (IH Hz) as [G1 [q G2]]. split; [done|].
      rewrite G2 in Hx |- *. destruct o; [|done]. injection Hx as <-. by eexists.
    - split; [done|]. intros Hz. destruct (IH Hz) as [_ [q H2]]. rewrite H2 in Hx. destruct o; done.
    - split; [done|]. intros Hz. destruct (IH Hz) as [_ [q' H2]]. rewrite H2 in Hx. destruct o; done.
    - inversion Hy; subst. cbn [set_obj y_objs y_cur]. rewrite insert_length. split; [done|]. intros Hz. destruct (IH Hz) as [G1 _]. rewrite G1 in Hp. by destruct p1.
    - split; [done|]. intros Hz. destruct (IH Hz) as [G1 _]. rewrite G1 in Hp. by destruct p1.
  Qed.
  Lemma first_untouched ls s : hrun ls s -> untouched (hsys ls) 0%nat.
  Proof.
    induction 1 as [|ls l s s' Hr IH Hs]; [intros l1 s1 [[l2 Hl] _]; by destruct l1|].
    pose proof (C90_is_the_system K X U parse cf doms t0 n nk nj nu calls _ _ Hr) as Hy.
    rewrite hsys_snoc. destruct (hsys1 K l) as [y|] eqn:E; [|by rewrite app_nil_r]. intros l1 s1 Hh.
    destruct (happened_snoc K X U parse cf s0 _ _ _ _ _ _ Hy Hh) as [Hh'|(Hl & -> & ->)]; [by apply (IH _ _ Hh')|]. subst y.
    destruct (no_hook_yet _ _ Hr) as [_ H0]. destruct Hs as [s l y Hd Ho ? ?| | | | |s k p1 p2 d c y Hd Hp Hf Hc Hy'|]; cbn [hsys1] in E; try done.
    - injection E as ->. done.
    - intros Hz. destruct (H0 Hz) as [H1 _]. rewrite H1 in Hp. by destruct p1.
  Qed.
  (** Every cache but that of New was published by an Update, hooked or not. *)
  Lemma origin ls s o c : yrun ls s -> y_objs K s !! o = Some c -> o = 0%nat \/ exists m, published_by ls m o.
  Proof.
    intros H. revert o c. induction H as [|ls l s s' H IH Hs]; intros o c Ho.
    - left. cbn in Ho. apply list_lookup_singleton_Some in Ho as [-> _]. done.
    - destruct (y_objs K s !! o) as [c1|] eqn:Eo.
      + destruct (IH o c1 Eo) as [->|[m Hm]]; [by left|right; exists m; by apply published_mono].
      + right. destruct Hs; cbn [set_auth set_keys set_jwk set_fetch set_upd set_obj publish set_chk y_objs] in Ho; try congruence.
        * exists n0. eexists ls, s, _. split; [by apply happened_last|]. split; [by eapply S_publish|]. split; [done|]. cbn. by eexists.
        * apply list_lookup_insert_Some in Ho as [(E & _ & _)|[_ Ho]]; congruence.
        * apply list_lookup_insert_Some in Ho as [(E & _ & _)|[_ Ho]]; congruence.
        * apply list_lookup_insert_Some in Ho as [(E & _ & _)|[_ Ho]]; congruence.
  Qed.
  Lemma published_updated ls s m o : yrun ls s -> published_by ls m o -> updated ls.
  Proof.
    intros Hr Hp. exists m, o. split; [done|]. destruct Hp as (l1 & s1 & s2 & [[l2 ->] H1] & Hs & Hno & Hso). intros w Hw.
    assert (exists u, y_upd K s2 !! m = Some u /\ u_ret u = Some (Ok tt)) as (u2 & Hu2 & Hret2).
    { inversion Hs; subst.
      - exfalso. cbn [set_upd y_objs] in Hso. rewrite Hno in Hso. by destruct Hso.
      - eexists. split; [|done]. cbn [publish set_upd y_upd]. rewrite list_lookup_insert; [done|by eapply lookup_lt_Some]. }
    assert (yrun (l1 ++ [YUpd K m UFinish]) s2) as H2 by (by econstructor).
    assert (l1 ++ YUpd K m UFinish :: l2 = (l1 ++ [YUpd K m UFinish]) ++ l2) as E by (by rewrite <- app_assoc). rewrite E in Hr |- *.
    destruct (updates_ok K X U parse cf t0 n nk nj nu calls _ _ H2 _ _ Hu2) as (uls & G1 & G2 & _).
    destruct (PolicyUpdateFacts.update_all_or_nothing _ _ _ _ _ _ G1) as [_ Hok]. destruct (Hok Hret2) as [Hf _]. destruct (Hf w Hw) as [j Hj].
    destruct (G2 _ _ Hj) as (doc & Htk & _). destruct (took_downloaded K X U parse cf t0 n nk nj nu calls _ _ _ _ _ _ Htk) as (sp & Hd & Hc).
    exists (j_exp j), doc, (j_now j), sp. split; [by apply took_mono|]. split; [by apply downloaded_mono|done].
  Qed.

  (** ** Theorems *)
  (** Behind every accepted call stands a policy check that passed when an Update had been successful for
      all domains. *)
  Lemma grants_after_update ls s i q p : yrun ls s -> untouched ls 0%nat -> z_policy (s_z cf) = true ->
    z_tasks (y_auth K s) !! i = Some (CDone q (Ok p)) ->
    exists j acc l2 s2, happened ls (YAuth K (ZPolicy K j (Ok acc))) l2 s2 /\ updated l2.
  Proof.
    intros Hy H0 Hz Hi.
    pose proof (C71_accepted_is_authorized K X U parse cf t0 n nk nj nu calls _ _ i q p Hy Hi) as (j & q' & p0 & l1 & s1 & _ & _ & _ & H).
    rewrite Hz in H. destruct H as (l2 & s2 & o & a & r & acc & Hh2 & _). exists j, acc, l2, s2. split; [done|].
    destruct (happened_step K X U parse cf t0 n nk nj nu calls _ _ _ _ _ Hy Hh2) as [s3 Hs].
    inversion Hs as [? ? ? _ Hok| | | | | | | | | | | |]; subst. cbn in Hok. destruct Hok as (k & Hk & Hret).
    pose proof Hh2 as [[l3 Hl] Hr2].
    destruct (decide (k_obj k = 0%nat)) as [Ez|Hz'].
    - assert (untouched l2 (k_obj k)) as Hun by (rewrite Ez; apply (untouched_prefix K X U parse cf t0 n nk nj nu calls l2 (YAuth K (ZPolicy K j (Ok acc)) :: l3)); by rewrite <- Hl).
      destruct (check_cache K X U parse cf t0 n nk nj nu calls _ _ _ _ _ Hr2 Hk Hret Hun) as (m & Hpub & Hall). by exists m, (k_obj k).
    - destruct (checks_ok K X U parse cf t0 n nk nj nu calls _ _ Hr2 _ _ Hk) as [(c0 & kls & _ & Hv) _].
      destruct (Hv c0 ltac:(by left)) as (l4 & s4 & obj & [[l5 ->] Hr4] & Hobj & _).
      destruct (origin _ _ _ _ Hr4 Hobj) as [?|[m Hm]]; [done|]. eapply published_updated; [exact Hr2|]. by apply published_mono.
  Qed.
  Lemma updated_mono ls l : updated ls -> updated (ls ++ l).
  Proof.
    intros (m & o & Hp & Hall). exists m, o. split; [by apply published_mono|]. intros w Hw. destruct (Hall w Hw) as (exp & doc & t & sp & H1 & H2 & H3).
    exists exp, doc, t, sp. split; [by apply took_mono|]. split; [by apply downloaded_mono|done].
  Qed.
  Theorem C109_grants_after_update ls s i q p : hrun ls s -> z_policy (s_z cf) = true ->
    z_tasks (y_auth K (h_sys K s)) !! i = Some (CDone q (Ok p)) ->
    exists j acc l2 s2, happened (hsys ls) (YAuth K (ZPolicy K j (Ok acc))) l2 s2 /\ updated l2.
  Proof.
    intros Hr. apply grants_after_update; [by eapply C90_is_the_system|by eapply first_untouched].
  Qed.
  (** So until the first successful Update nobody is let in, whatever token is shown. *)
  Theorem C109_nothing_before_first_update ls s i q r : hrun ls s -> z_policy (s_z cf) = true -> ~ updated (hsys ls) ->
    z_tasks (y_auth K (h_sys K s)) !! i = Some (CDone q r) -> forall p, r <> Ok p.
  Proof.
    intros Hr Hz Hu Hi p ->. destruct (C109_grants_after_update _ _ _ _ _ Hr Hz Hi) as (j & acc & l2 & s2 & [[l3 Hl] _] & m & o & Hp & Hall).
    destruct Hu. rewrite Hl. exists m, o. split; [by apply published_mono|]. intros w Hw. destruct (Hall w Hw) as (exp & doc & t & sp & H1 & H2 & H3).
    exists exp, doc, t, sp. split; [by apply took_mono|]. split; [by apply downloaded_mono|done].
  Qed.
  (** A single domain for which Athenz has never given out a properly signed document keeps all requests
      out, those of the other domains too. *)
  Theorem C109_one_domain_missing ls s w i q r : hrun ls s -> z_policy (s_z cf) = true -> (w < length (s_f cf))%nat ->
    (forall sp, ~ downloaded (hsys ls) w sp) -> z_tasks (y_auth K (h_sys K s)) !! i = Some (CDone q r) -> forall p, r <> Ok p.
  Proof.
    intros Hr Hz Hw Hd. apply (C109_nothing_before_first_update ls s i q r Hr Hz). intros (m & o & _ & Hall).
    destruct (Hall w Hw) as (exp & doc & t & sp & _ & H & _). by eapply Hd.
  Qed.
End claims.

(** ** The public methods, VerifyRoleCert too *)
Section methods.
  Import Api.
  Context (K : crypto) (X : jwt_ext) {O : Type} (U : unicode) (parse : str -> option (verifier K)) (cf : @vconf O).
  Context (t0 : time) (n nk nj nu m : nat) (calls : nat -> list bool).
  Notation y0 := (yinit K (v_sys cf) t0 n nk nj nu calls).
  Notation arun := (arun K X U parse cf (ainit K y0 m)).
  Notation steps := (ApiFacts.sys_steps K).
  Notation updated := (updated K X U parse (v_sys cf) t0 n nk nj nu calls).
  (** No method lets anybody in before an Update has got the policies of all domains.  The cache New makes must not
      be refreshed in place; with the precise hook it never is ([first_untouched]). *)
  Theorem C109_methods_after_update ls s a c r : arun ls s -> untouched K X U parse (v_sys cf) y0 (steps ls) 0%nat ->
    z_policy (s_z (v_sys cf)) = true -> a_tasks K s !! a = Some (ARet c (Ok r)) -> updated (steps ls).
  Proof.
    intros Hr H0 Hp Ha. pose proof (Prop_Api.C92_methods_are_authorize_calls _ _ _ _ _ _ _ _ _ _ _ _ _ _ Hr) as Hy.
    assert (Prop_Api.about_tokens c -> updated (steps ls)) as Htok.
    { intros Hc. destruct (Prop_Api.C92_accepted_by_authorize _ _ _ _ _ _ _ _ _ _ _ _ _ _ _ _ _ Hr Ha Hc) as (i & q & p & _ & Hi & _).
      destruct (grants_after_update K X U parse (v_sys cf) t0 n nk nj nu calls _ _ _ _ _ Hy H0 Hp Hi) as (j & acc & l2 & s2 & [[l3 ->] _] & Hu).
      by apply updated_mono. }
    destruct c as [v tok act res|v tok act res crt|v rq act res|certs act res|certs act res]; try (by apply Htok).
    - pose proof (ApiFacts.tasks_ok _ _ _ _ _ _ _ _ _ _ _ _ _ _ Hr _ _ Ha) as [_ [?|(k & acc & Hk & Hret)]]; [congruence|].
      destruct Hk as [Hv _]. destruct (decide (k_obj k = 0%nat)) as [Ez|Hz'].
      + rewrite <- Ez in H0. destruct (view_cache _ _ _ _ _ _ _ _ _ _ _ _ _ _ _ Hy Hv Hret H0) as (u & Hpub & Hdoms). by exists u, (k_obj k).
      + destruct Hv as (c0 & kls & _ & Hv). destruct (Hv c0 ltac:(by left)) as (l4 & s4 & obj & [[l5 E] Hr4] & Hobj & _).
        destruct (origin K X U parse (v_sys cf) t0 n nk nj nu calls _ _ _ _ Hr4 Hobj) as [?|[u Hm]]; [done|].
        rewrite E in Hy |- *. eapply published_updated; [exact Hy|]. by apply published_mono.
    - by epose proof (Prop_Api.C92_authorize_role_cert_rejects _ _ _ _ _ _ _ _ _ _ _ _ _ _ _ _ _ _ _ Hr Ha).
  Qed.
End methods.

(** ** Example: the same token before and after the first Update *)
Section example.
  Import Prop_PubKey Prop_Fetcher Prop_Authorizer Prop_Access.
  Notation hrun1 := (Hooked.hrun K1 X0 U0 parse1 wcf [B "dom"] (hinit K1 winit)).
  Definition ekeys : list (@hcmd unit) := map XC (keys_cmds 0 (B "ZTSKEY") ++ keys_cmds 1 (B "ZMSKEY")).
  Definition early : list (@hcmd unit) := ekeys ++ map XC (wcall 0 3 3 2 (rq (B "/a") [])).
  Definition late : list (@hcmd unit) := early ++ map XC (
    [DSend 0 0; DReply 0 0 (Response 200 (B "a") (Doc (pol1 (B "dom") wdoc (60 * second)))); DSpawn 0; DTake 0 0 0] ++
    replicate 5 (DWork 0 0) ++ [DFinish 0] ++ wcall 1 8 3 3 (rq (B "/a") []) ++ [DStore 1]).
  Definition result_of (i : nat) (s : hst K1) : option (request * option error) :=
    match z_tasks (y_auth K1 (h_sys K1 s)) !! i with Some (CDone q (Ok _)) => Some (q, None) | Some (CDone q (Err e)) => Some (q, Some e) | _ => None end.
  Example C109_nonvacuous : (exists ls s q e, hrun1 ls s /\ z_policy (s_z wcf) = true /\
      ~ updated K1 X0 U0 parse1 wcf t0 2 2 0 1 (fun _ => [false; false]) (hsys K1 ls) /\ result_of 0 s = Some (q, Some e) /\ q = rq (B "/a") []) /\
    (exists ls s q e, hrun1 ls s /\ result_of 0 s = Some (q, Some e) /\ result_of 1 s = Some (q, None)).
  Proof.
    split.
    - assert (match xdrive1 early with Some (ls, s) => Some (result_of 0 s, length (y_objs K1 (h_sys K1 s))) | None => None end
        = Some (Some (rq (B "/a") [], Some ErrNoMatch), 1%nat)) as H by (vm_compute; reflexivity).
      destruct (xdrive1 early) as [[ls s]|] eqn:E; [|discriminate H]. apply xrun in E.
      assert (forall A C (a a' : A) (b b' : C), Some (a, b) = Some (a', b') -> a = a' /\ b = b') as Hinj by (intros ? ? ? ? ? ? Hx; by injection Hx as -> ->).
      apply Hinj in H as [H1 H2]. exists ls, s, (rq (B "/a") []), ErrNoMatch. split; [exact E|]. split; [reflexivity|]. split; [|split; [exact H1|reflexivity]].
      intros (m & o & Hp & _). apply (published_exists K1 X0 U0 parse1 wcf t0 2 2 0 1 (fun _ => [false; false]) _ (h_sys K1 s)) in Hp as [Hlt Hpos].
      + rewrite H2 in Hlt. lia.
      + by eapply C90_is_the_system.
    - assert (match xdrive1 late with Some (ls, s) => Some (result_of 0 s, result_of 1 s) | None => None end
        = Some (Some (rq (B "/a") [], Some ErrNoMatch), Some (rq (B "/a") [], None))) as H by (vm_compute; reflexivity).
      destruct (xdrive1 late) as [[ls s]|] eqn:E; [|discriminate H]. apply xrun in E.
      assert (forall A C (a a' : A) (b b' : C), Some (a, b) = Some (a', b') -> a = a' /\ b = b') as Hinj by (intros ? ? ? ? ? ? Hx; by injection Hx as -> ->).
      apply Hinj in H as [H1 H2]. exists ls, s, (rq (B "/a") []), ErrNoMatch. split; [exact E|]. split; [exact H1|exact H2].
  Qed.
End example.
(** The execution of C92: a certificate and tokens accepted, after an Update. *)
Notation K1 := Prop_Fetcher.K1.
Notation X0 := Prop_Access.X0.
Example C109_methods_nonvacuous : exists ls s p,
  Api.arun K1 X0 U0 Prop_PubKey.parse1 Prop_Api.acf (Api.ainit K1 Prop_Api.ay0 5) ls s /\
  untouched K1 X0 U0 Prop_PubKey.parse1 (Api.v_sys Prop_Api.acf) Prop_Api.ay0 (ApiFacts.sys_steps K1 ls) 0%nat /\
  z_policy (s_z (Api.v_sys Prop_Api.acf)) = true /\
  Api.a_tasks K1 s !! 0%nat = Some (Api.ARet Prop_Api.a_http (Ok (Some p))) /\
  Api.a_tasks K1 s !! 1%nat = Some (Api.ARet Prop_Api.a_cert (Ok None)) /\
  updated K1 X0 U0 Prop_PubKey.parse1 Prop_System.scf Prop_System.t0 3 2 0 1 (fun _ => [false]) (ApiFacts.sys_steps K1 ls).
Proof.
  destruct Prop_Api.C92_nonvacuous as (ls & s & p & p' & Hr & Hz & _ & H0 & _ & H1 & _ & _ & _ & _ & Hh & _).
  exists ls, s, p.
  assert (untouched K1 X0 U0 Prop_PubKey.parse1 (Api.v_sys Prop_Api.acf) Prop_Api.ay0 (ApiFacts.sys_steps K1 ls) 0%nat) as Hu.
  { apply (unhooked K1 X0 U0 Prop_PubKey.parse1 Prop_System.scf Prop_System.t0 3 2 0 1 (fun _ => [false])). exact Hh. }
  split; [exact Hr|]. split; [exact Hu|]. split; [exact Hz|]. split; [exact H0|]. split; [exact H1|].
  exact (C109_methods_after_update K1 X0 U0 Prop_PubKey.parse1 Prop_Api.acf Prop_System.t0 3 2 0 1 5 (fun _ => [false]) ls s _ _ _ Hr Hu Hz H1).
Qed.
Print Assumptions C109_grants_after_update.
Print Assumptions C109_nothing_before_first_update.
Print Assumptions C109_one_domain_missing.
Print Assumptions C109_methods_after_update.
Print Assumptions C109_nonvacuous.
