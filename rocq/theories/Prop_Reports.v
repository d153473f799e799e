(** * Property C94: every failed refresh is reported, and nothing else *)
From Verif Require Import Running Prop_Timed Prop_System Prop_Revoke Prop_KeyRevoke Prop_Latency Prop_KeyLatency Prop_Daemon SystemFacts PubKeyFacts SystemExec.
From Verif Require Import Jwk Prop_Jwk Prop_Access Prop_PubKey.
From Verif Require Import GoStrings.

Section claims.
  Context (K : crypto) (X : jwt_ext) {O : Type} (U : unicode) (parse : str -> option (verifier K)).
  Context (cf : @sconf O) (on : daemon -> bool) (c : daemon -> timing) (sb : sys K) (nx0 : per nat).
  Notation world_run := (world_run K X U parse cf on c (wstart K c sb nx0)).
  Notation world_step := (world_step K X U parse cf on c).
  Notation world_label := (@world_label K O).

  (** ** Specification *)
  (** What the errors of a daemon begin with. *)
  Definition named (d : daemon) (e : str) : str :=
    match d with
    | DPol => B "error update policy: " ++ e
    | DKeys => B "error update pubkey: " ++ e
    | DJwks => B "error update athenz json web key: " ++ e
    end.
  (** [es]: how the Updates called by the loop of [d] have ended, in order, [None] for success; the
      last one called may still be at work. *)
  Definition ended (d : daemon) (w : world K) (es : list (option str)) : Prop :=
    (pick nx0 d + length es + (if pick (w_cur K w) d then 1 else 0) = pick (w_nx K w) d)%nat /\
    forall j e, es !! j = Some e -> exists r, outcome_of K d (w_sys K w) (pick nx0 d + j) = Some r /\ Running.shown r e.
  Definition errors (es : list (option str)) : list str := omap id es.
  (** What has come out of the daemon so far. *)
  Definition reported (d : daemon) (w : world K) : list str :=
    let s := t_s (pick (w_loop K w) d) in r_got s ++ r_ech s.

  (** ** Facts *)
  Definition steps (ws : list (time * option rlabel)) : list rlabel := omap snd ws.
  Lemma trun_rrun ct k pre tr s s' : trun ct k pre tr s s' -> rrun k pre (steps tr) (t_s s) = Some (t_s s').
  Proof.
    induction 1 as [|t l tr s s1 s2 Hs _ IH]; [done|]. inversion Hs; subst; cbn [steps omap list_omap snd] in *; [done|].
    cbn [rrun]. by rewrite H0.
  Qed.
  Lemma outcome_stays d l s s' m r : ystep K X U parse cf l s s' -> outcome_of K d s m = Some r -> r <> Panic -> outcome_of K d s' m = Some r.
  Proof.
    intros Hs Ho Hr. destruct d; cbn [outcome_of] in *.
    - assert (forall k u u' l0, y_upd K s !! k = Some u -> ustep U l0 u = Some u' ->
        match <[k := u']> (y_upd K s) !! m with Some u => u_ret u | None => None end = Some r) as Hset.
      { clear Hs. intros k u u' l0 Hu Hst. destruct (decide (k = m)) as [->|Hne]; [|by rewrite list_lookup_insert_ne].
        rewrite Hu in Ho. rewrite list_lookup_insert by (by eapply lookup_lt_Some).
        destruct l0; cbn [ustep] in Hst; rewrite ?Ho in Hst; try done; [by injection Hst as <-|]. repeat case_match; try done; by injection Hst as <-. }
      destruct Hs; cbn [set_auth set_keys set_jwk set_fetch set_upd set_obj publish set_chk y_upd]; try done; by eapply Hset.
    - destruct Hs; cbn [set_auth set_keys set_jwk set_fetch set_upd set_obj publish set_chk y_keys]; try done.
      unfold update_result in *.
      assert (forall i e, p_tasks (y_keys K s) !! i = Some (PDone e) -> p_tasks k !! i = Some (PDone e)) as Hst.
      { intros i e He. eapply (done_stays _ _ [_]); [|exact He]. cbn [prun]. by rewrite H. }
      destruct (p_tasks (y_keys K s) !! (2 * m)%nat) as [[| | | |e1|]|] eqn:E1, (p_tasks (y_keys K s) !! (2 * m + 1)%nat) as [[| | | |e2|]|] eqn:E2; try done;
        try (by injection Ho as <-); try (by destruct e1); try (destruct e1; by injection Ho as <-); rewrite (Hst _ _ E1), (Hst _ _ E2); done.
    - destruct Hs; cbn [set_auth set_keys set_jwk set_fetch set_upd set_obj publish set_chk y_jwk]; try done.
      destruct (j_tasks (y_jwk K s) !! m) as [t|] eqn:E; [|done]. destruct t as [| |fl]; try done.
      assert (j_tasks j !! m = Some (JRet fl)) as ->; [|done].
      destruct l; cbn [jstep] in H; repeat case_match; try done; injection H as <-; cbn [j_tasks]; rewrite list_lookup_insert_ne; try done; intros ->; congruence.
  Qed.
  Lemma all_ended ws w d : on d = true -> world_run ws w ->
    (forall m, pick (w_cur K w) d = Some m -> S m = pick (w_nx K w) d) /\
    exists es, ended d w es /\ Prop_Daemon.failures (steps (wloopl K d ws)) = errors es.
  Proof.
    intros Hon. induction 1 as [|ws l w w' Hw [H0 (es & [H1 H2] & H3)] Hs].
    - split; [by destruct d|]. exists []. split; [|done]. split; [cbn; destruct d; cbn; lia|done].
    - assert (forall l, Prop_Daemon.failures (steps (wloopl K d (ws ++ [l]))) = errors es ++ match l with WLoop _ d' _ l => if same d d' then failure l else [] | _ => [] end) as Hf.
      { intros l0. unfold steps. rewrite wloopl_app, omap_app. unfold Prop_Daemon.failures. rewrite bind_app. fold (Prop_Daemon.failures (omap snd (wloopl K d ws))). unfold steps in H3. rewrite H3. f_equal.
        destruct l0 as [| |d' t l0]; cbn; [done|done|]. destruct (same d d'); cbn; [|done]. by rewrite app_nil_r. }
      rewrite Hf. destruct Hs as [w l s' Hy Hm|w t s' L Hy HL|w d' l a Hon' Hl Ht Hc Hcur|w d' m r e a Hon' Ht Hcur Hout Hsh|w d' l a Hon' Hl Ht].
      + split; [done|]. exists es. rewrite app_nil_r. split; [|done]. split; [done|]. intros j e He. destruct (H2 _ _ He) as (r & Hr & Hsh). exists r. split; [|done].
        eapply outcome_stays; [done|done|]. by intros ->.
      + split; [done|]. exists es. rewrite app_nil_r. split; [|done]. split; [done|]. intros j e He. destruct (H2 _ _ He) as (r & Hr & Hsh). exists r. split; [|done].
        eapply outcome_stays; [done|done|]. by intros ->.
      + split. { intros m Hm. cbn [w_cur w_nx] in *. destruct d, d'; cbn [pick place at_pol at_keys at_jwks] in *; (by apply H0) || (injection Hm as <-; done). }
        exists es. split; [|destruct Hl as [-> | ->]; destruct (same d d'); by rewrite app_nil_r]. split; [|done]. cbn [w_cur w_nx].
        destruct d, d'; cbn [pick place at_pol at_keys at_jwks same] in *; rewrite ?Hcur in H1; lia.
      + destruct (same d d') eqn:Esame.
        * assert (d' = d) as -> by (by destruct d, d'). split; [intros m' Hm'; by destruct d|]. exists (es ++ [e]). specialize (H0 _ Hcur). rewrite Hcur in H1. split.
          -- split.
             ++ cbn [w_cur w_nx]. rewrite app_length. cbn [length]. destruct d; cbn [pick place at_pol at_keys at_jwks] in *; lia.
             ++ intros j e' He. cbn [w_sys]. apply lookup_app_Some in He as [He|[Hge He]]; [by apply H2|]. apply list_lookup_singleton_Some in He as [Hj <-].
                exists r. split; [|done]. by replace (pick nx0 d + j)%nat with m by lia.
          -- unfold errors. rewrite omap_app. by destruct e.
        * split; [intros m' Hm'; cbn [w_cur w_nx] in *; destruct d, d'; cbn [pick place at_pol at_keys at_jwks same] in *; by apply H0|].
          exists es. rewrite app_nil_r. split; [|done]. split; [|done]. cbn [w_cur w_nx].
          destruct d, d'; cbn [pick place at_pol at_keys at_jwks same] in *; done.
      + split; [done|]. exists es. split; [done|]. destruct (same d d'); [|by rewrite app_nil_r]. destruct l; cbn; try done; by rewrite app_nil_r.
  Qed.
  Lemma loop_reaches ws w d : on d = true -> world_run ws w -> reaches (kind_of d) (text_of d) (steps (wloopl K d ws)) (t_s (pick (w_loop K w) d)).
  Proof.
    intros Hon Hw. destruct (world_run_loop K X U parse cf on c sb nx0 d ws w Hon Hw) as [Ht _]. by apply trun_rrun in Ht.
  Qed.
  Lemma cancel_seen d (ws : list world_label) e : cancelled (steps (wloopl K d ws)) e -> exists t, WLoop K d t (RCancel e) ∈ ws.
  Proof.
    unfold cancelled, steps, wloopl. intros ((t & o) & H & [= ->])%elem_of_list_omap. apply elem_of_list_omap in H as (l & H & Hl).
    destruct l as [| |d' t' l]; try done. destruct (same d d') eqn:E; [|done]. injection Hl as -> ->. exists t. by destruct d, d'.
  Qed.

  (** ** Theorems *)
  (** The policy daemon and the key daemon: what has come out is the errors of the failed Updates, each
      once and in order, under the name of the daemon; at most the last is still to come. *)
  Theorem C94_failures_reported ws w d : on d = true -> d <> DJwks -> world_run ws w -> r_loc (t_s (pick (w_loop K w) d)) <> LEnd ->
    exists es rest, ended d w es /\ map (named d) (errors es) = reported d w ++ rest /\ (length rest <= 1)%nat.
  Proof.
    intros Hon Hd Hw Hl. destruct (all_ended _ _ _ Hon Hw) as (_ & es & He & Hf). pose proof (loop_reaches _ _ _ Hon Hw) as Hr.
    assert (kind_of d = Sending) as Hk by (by destruct d). rewrite Hk in Hr. destruct (C62_errors_in_order _ _ _ Hr Hl) as (rest & H1 & H2 & _).
    exists es, rest. split; [done|]. split; [|done]. unfold reported. rewrite <- app_assoc, <- H1, Hf. apply map_ext. intros e. by destruct d.
  Qed.
  (** Then the context's error, and nothing after it. *)
  Theorem C94_closing ws w d : on d = true -> d <> DJwks -> world_run ws w -> r_loc (t_s (pick (w_loop K w) d)) = LEnd ->
    exists es e, ended d w es /\ reported d w = map (named d) (errors es) ++ [e] /\ exists t, WLoop K d t (RCancel e) ∈ ws.
  Proof.
    intros Hon Hd Hw Hl. destruct (all_ended _ _ _ Hon Hw) as (_ & es & He & Hf). pose proof (loop_reaches _ _ _ Hon Hw) as Hr.
    assert (kind_of d = Sending) as Hk by (by destruct d). rewrite Hk in Hr. destruct (C62_closing _ _ _ Hr Hl) as (e & H1 & H2).
    exists es, e. split; [done|]. split.
    - unfold reported. rewrite H2, Hf. f_equal. apply map_ext. intros x. by destruct d.
    - by eapply cancel_seen.
  Qed.
  (** The JWK daemon: the same, but errors in a row may come out as one text, the newest first. *)
  Theorem C94_jwk_failures_reported ws w : on DJwks = true -> world_run ws w -> r_loc (t_s (pick (w_loop K w) DJwks)) <> LEnd ->
    exists es blocks rest, ended DJwks w es /\ map (named DJwks) (errors es) = concat blocks ++ rest /\ Forall (fun b => b <> []) blocks /\
      reported DJwks w = map merged blocks.
  Proof.
    intros Hon Hw Hl. destruct (all_ended _ _ _ Hon Hw) as (_ & es & He & Hf). pose proof (loop_reaches _ _ _ Hon Hw) as Hr.
    destruct (C62_jwk_errors_in_order _ _ _ Hr Hl) as (bl & rest & H1 & H2 & H3). exists es, bl, rest. split; [done|]. split; [|done].
    rewrite <- H1, Hf. done.
  Qed.
  (** What it had kept comes out with the context's error. *)
  Theorem C94_jwk_closing ws w : on DJwks = true -> world_run ws w -> r_loc (t_s (pick (w_loop K w) DJwks)) = LEnd ->
    exists es blocks kept e, ended DJwks w es /\ map (named DJwks) (errors es) = concat blocks ++ kept /\ Forall (fun b => b <> []) blocks /\
      reported DJwks w = map merged blocks ++ [farewell kept e] /\ exists t, WLoop K DJwks t (RCancel e) ∈ ws.
  Proof.
    intros Hon Hw Hl. destruct (all_ended _ _ _ Hon Hw) as (_ & es & He & Hf). pose proof (loop_reaches _ _ _ Hon Hw) as Hr.
    destruct (C62_jwk_closing _ _ _ Hr Hl) as (bl & ke & e & H1 & H2 & H3 & H4). exists es, bl, ke, e. split; [done|]. split; [by rewrite <- H1, Hf|]. split; [done|].
    split; [done|]. by eapply cancel_seen.
  Qed.
  (** As long as all Updates succeed nothing comes out of a daemon that has not been stopped. *)
  Theorem C94_silence ws w d : on d = true -> world_run ws w -> r_loc (t_s (pick (w_loop K w) d)) <> LEnd ->
    (forall m, (pick nx0 d <= m)%nat -> forall e, outcome_of K d (w_sys K w) m <> Some (Err e)) -> reported d w = [].
  Proof.
    intros Hon Hw Hl Hok.
    assert (forall es, ended d w es -> errors es = []) as Hnone.
    { intros es [_ He]. unfold errors. destruct (omap id es) as [|x l] eqn:E; [done|exfalso]. assert (x ∈ omap id es) as Hx by (rewrite E; left).
      apply elem_of_list_omap in Hx as (o & Ho & Hx). cbn in Hx. subst o. apply elem_of_list_lookup in Ho as [j Hj]. destruct (He _ _ Hj) as (r & Hr & Hs).
      destruct r as [| e|]; try done. by eapply (Hok (pick nx0 d + j)%nat ltac:(lia)). }
    destruct d.
    - destruct (C94_failures_reported _ _ _ Hon ltac:(done) Hw Hl) as (es & rest & He & H & _). rewrite (Hnone _ He) in H. symmetry in H. by apply app_eq_nil in H as [? _].
    - destruct (C94_failures_reported _ _ _ Hon ltac:(done) Hw Hl) as (es & rest & He & H & _). rewrite (Hnone _ He) in H. symmetry in H. by apply app_eq_nil in H as [? _].
    - destruct (C94_jwk_failures_reported _ _ Hon Hw Hl) as (es & bl & rest & He & H & Hb & ->). rewrite (Hnone _ He) in H. symmetry in H. apply app_eq_nil in H as [H _].
      destruct bl as [|b bl]; [done|]. apply Forall_cons in Hb as [Hb _]. by destruct b.
  Qed.
End claims.

(** ** The cases are not empty *)
(** The run of C88_undecodable_list_keeps_the_old_key, then the daemons are stopped: the failed Update of
    the key daemon has come out, once, then the context's error; the JWK daemon has had no failure. *)
Section example.
  Import Prop_Fetcher Prop_Authorizer.
  Definition wsG : list (@wcmd unit) := wsF ++ [WL DKeys RRecv; WL DKeys (RCancel (B "context canceled")); WL DKeys RDone; WL DKeys RStep].
  Definition seen (w : world K1) (d : daemon) : list str * nat := (reported K1 d w, pick (w_nx K1 w) d).
  Notation driveV := (drive K1 X0 U0 parse1 vcf).
  Notation wdriveV := (wdrive K1 X0 U0 parse1 vcf onV cV).
  Example C94_nonvacuous : exists sb ws w, world_run K1 X0 U0 parse1 vcf onV cV (wstart K1 cV sb nxV) ws w /\
    onV DKeys = true /\ r_loc (t_s (pick (w_loop K1 w) DKeys)) = LEnd /\
    reported K1 DKeys w = [B "error update pubkey: undecodable"; B "context canceled"] /\ pick (w_nx K1 w) DKeys = 5%nat /\
    ended K1 nxV DKeys w [Some (B "undecodable"); None; None; None] /\
    onV DJwks = true /\ r_loc (t_s (pick (w_loop K1 w) DJwks)) = LSelect /\ reported K1 DJwks w = [] /\ pick (w_nx K1 w) DJwks = 4%nat.
  Proof.
    assert (match driveV ws0 [] winit with None => None | Some (tr0, sb) =>
      match wdriveV wsA [] (wstart K1 cV sb nxV) with None => None | Some (trA, wA) =>
      match wdriveV wsG trA wA with None => None | Some (trG, wG) =>
      Some (map (seen wG) [DKeys; DJwks], map (fun d => r_loc (t_s (pick (w_loop K1 wG) d))) [DKeys; DJwks], pick (w_cur K1 wG) DKeys,
        map (fun m => match outcome_of K1 DKeys (w_sys K1 wG) m with Some (Ok _) => Some true | Some (Err _) => Some false | _ => None end) [1; 2; 3; 4]%nat, tt, tt, tt, tt) end end end =
      Some ([([B "error update pubkey: undecodable"; B "context canceled"], 5%nat); ([], 4%nat)], [LEnd; LSelect], None, [Some false; Some true; Some true; Some true], tt, tt, tt, tt)) as Ho by (vm_compute; reflexivity).
    destruct (driveV ws0 [] winit) as [[tr0 sb]|] eqn:E0; [|discriminate Ho].
    destruct (wdriveV wsA [] (wstart K1 cV sb nxV)) as [[trA wA]|] eqn:EA; [|discriminate Ho].
    destruct (wdriveV wsG trA wA) as [[trG wG]|] eqn:EG; [|discriminate Ho].
    apply inj8 in Ho as (O1 & O2 & O3 & O4 & _).
    pose proof (drive_chain K1 X0 U0 parse1 vcf winit _ _ _ _ _ E0 eq_refl) as C0.
    destruct (wdrive_sound K1 X0 U0 parse1 vcf onV cV winit (wstart K1 cV sb nxV) _ _ _ _ _ tr0 EA C0 ltac:(constructor)) as (CA & WA & _).
    destruct (wdrive_sound K1 X0 U0 parse1 vcf onV cV winit (wstart K1 cV sb nxV) _ _ _ _ _ tr0 EG CA WA) as (_ & WG & _).
    clear EA EG E0 CA WA C0. cbn [map] in O1, O2, O4. unfold seen in O1. injection O1 as R1 N1 R2 N2. injection O2 as L1 L2. injection O4 as P1 P2 P3 P4.
    exists sb, (rev trG.*1), wG. do 5 (split; [assumption || reflexivity|]). split; [|by split_and!].
    split; [rewrite O3; cbn [pick]; rewrite N1; reflexivity|]. intros j e He. cbn [pick nxV at_keys].
    assert (forall m (b : bool) o, match o with Some (Ok _) => Some true | Some (Err _) => Some false | _ => None end = Some b ->
      o = outcome_of K1 DKeys (w_sys K1 wG) m -> exists r, outcome_of K1 DKeys (w_sys K1 wG) m = Some r /\ Running.shown r (if b then None else Some (B "undecodable"))) as Hx.
    { intros m b o Hb ->. destruct (outcome_of K1 DKeys (w_sys K1 wG) m) as [[]|]; try discriminate Hb; injection Hb as <-; eexists; by split. }
    destruct j as [|[|[|[|j]]]]; cbn in He; try discriminate He; injection He as <-;
      [exact (Hx _ false _ P1 eq_refl)|exact (Hx _ true _ P2 eq_refl)|exact (Hx _ true _ P3 eq_refl)|exact (Hx _ true _ P4 eq_refl)].
  Qed.
End example.
Print Assumptions C94_failures_reported.
Print Assumptions C94_closing.
Print Assumptions C94_jwk_failures_reported.
Print Assumptions C94_jwk_closing.
Print Assumptions C94_silence.
Print Assumptions C94_nonvacuous.
