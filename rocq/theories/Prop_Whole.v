(** * Property C95: what the user of Start reads *)
From Verif Require Import Whole Prop_Start Prop_Timed Prop_System Prop_Revoke Prop_KeyRevoke Prop_Latency Prop_KeyLatency Prop_Daemon SystemFacts PubKeyFacts SystemExec.
From Verif Require Import Jwk Prop_Jwk Prop_Access Prop_PubKey Prop_Reports.
From Verif Require Import GoStrings.

Section claims.
  Context (K : crypto) (X : jwt_ext) {O : Type} (U : unicode) (parse : str -> option (verifier K)).
  Context (cf : @sconf O) (on : daemon -> bool) (c : daemon -> timing) (sb : sys K) (nx0 : per nat).
  Notation world_run := (world_run K X U parse cf on c (wstart K c sb nx0)).
  Notation world_step := (world_step K X U parse cf on c).
  Notation prog_run := (prog_run K X U parse cf on c (prog_start K on c sb nx0)).
  Notation prog_label := (@prog_label K O).
  Notation world_label := (@world_label K O).
  Notation loop w d := (t_s (pick (w_loop K w) d)).
  Definition wl (gs : list prog_label) : list world_label := flat_map (to_world K on) gs.
  Definition al (gs : list prog_label) : list alabel := flat_map (to_start K) gs.

  (** ** Specification *)
  (** How what comes from a daemon reads on the channel of Start. *)
  Definition said (p : daemon * str) : str :=
    match fst p with DKeys => B "update pubkey error: " | DPol => B "update policy error: " | DJwks => B "update jwk error: " end ++ snd p.
  Definition by_daemon (d : daemon) (log : list (daemon * str)) : list str := map snd (List.filter (fun p => same d (fst p)) log).
  (** What the user has read, what is waiting for them, what is about to be sent. *)
  Definition sent (s : ast) : list str := s_got s ++ s_ech s ++ pending (s_loc s).
  Definition stopped (gs : list prog_label) (e : str) : Prop := exists t, GCancel K t e ∈ gs.

  (** ** Facts *)
  Lemma same_chan d d' : Nat.eqb (chan d') (chan d) = same d d'.
  Proof. by destruct d, d'. Qed.
  Lemma wl_app a b : wl (a ++ b) = wl a ++ wl b.
  Proof. unfold wl. by rewrite flat_map_app. Qed.
  Lemma al_app a b : al (a ++ b) = al a ++ al b.
  Proof. unfold al. by rewrite flat_map_app. Qed.
  Lemma cancel_world ws w e L : world_run ws w ->
    (forall d, if on d then tstep (c d) (kind_of d) (text_of d) (now K (w_sys K w)) (Some (RCancel e)) (pick (w_loop K w) d) (pick L d) else pick L d = pick (w_loop K w) d) ->
    world_run (ws ++ to_world K on (GCancel K (now K (w_sys K w)) e)) (World K (w_sys K w) L (w_cur K w) (w_nx K w)).
  Proof.
    intros Hw HL. destruct w as [y [p k j] cu nx], L as [p' k' j']. cbn [w_sys w_loop w_cur w_nx] in *.
    pose proof (HL DPol) as H1. pose proof (HL DKeys) as H2. pose proof (HL DJwks) as H3. clear HL. cbn [pick at_pol at_keys at_jwks to_world flat_map] in *.
    assert (forall ws a b d x x' z, world_run ws a -> b = World K (w_sys K a) (place d x' (w_loop K a)) (w_cur K a) (w_nx K a) -> pick (w_loop K a) d = x -> now K (w_sys K a) = z ->
      (if on d then tstep (c d) (kind_of d) (text_of d) z (Some (RCancel e)) x x' else x' = x) ->
      world_run (ws ++ (if on d then [WLoop K d z (RCancel e)] else [])) b) as Hone.
    { clear. intros ws a b d x x' z Ha -> <- <- Hst. destruct (on d) eqn:Hd.
      - eapply W_snoc; [done|]. by apply WS_loop.
      - rewrite app_nil_r. subst x'. destruct a as [y [p k j] cu nx]. by destruct d. }
    rewrite !app_assoc, app_nil_r.
    eapply (Hone _ (World K y (Per p' k' j) cu nx) _ DJwks j j'); [|done|done|done|done].
    eapply (Hone _ (World K y (Per p' k j) cu nx) _ DKeys k k'); [|done|done|done|done].
    eapply (Hone _ (World K y (Per p k j) cu nx) _ DPol p p'); done.
  Qed.
  Definition sync (w : world K) (s : ast) : Prop :=
    length (s_kids s) = 3%nat /\ forall d, s_kids s !! chan d = Some (if on d then Some (loop w d) else None).
  Lemma loop_step l w w' d : world_step l w w' ->
    match l with
    | WLoop _ d' _ r => on d' = true /\ rstep (kind_of d') (text_of d') r (loop w d') = Some (loop w' d') /\ (d <> d' -> loop w' d = loop w d)
    | _ => on d = true -> loop w' d = loop w d
    end.
  Proof.
    assert (forall d' l t a, tstep (c d') (kind_of d') (text_of d') t (Some l) (pick (w_loop K w) d') a ->
      rstep (kind_of d') (text_of d') l (loop w d') = Some (t_s (pick (place d' a (w_loop K w)) d')) /\ (d <> d' -> t_s (pick (place d' a (w_loop K w)) d) = loop w d)) as Hx.
    { intros d' l0 t a Ht. inversion Ht; subst. split; [rewrite H1; by destruct d'|]. intros Hne. by destruct d, d'. }
    destruct 1 as [w l s' Hy Hm|w t s' L Hy HL|w d' l a Hon' Hl Ht Hc Hcur|w d' m r e a Hon' Ht Hcur Hout Hsh|w d' l a Hon' Hl Ht]; cbn [w_loop].
    - done.
    - intros Hon. specialize (HL d). rewrite Hon in HL. by inversion HL.
    - split; [done|]. by eapply Hx.
    - split; [done|]. by eapply Hx.
    - split; [done|]. by eapply Hx.
  Qed.
  Lemma kid_of d : kid_kind (chan d) = kind_of d /\ kid_prefix (chan d) = text_of d.
  Proof. by destruct d. Qed.
  Lemma chan_inj d d' : chan d = chan d' -> d = d'.
  Proof. by destruct d, d'. Qed.
  Lemma sync_set w w' s d k s' : sync w s -> s_kids s' = <[chan d := Some k]> (s_kids s) -> on d = true -> loop w' d = k -> (forall d', d' <> d -> on d' = true -> loop w' d' = loop w d') -> sync w' s'.
  Proof.
    intros [H1 H2] Hs Hon Hk Hne. split; [by rewrite Hs, insert_length|]. intros d'. rewrite Hs. destruct (decide (chan d' = chan d)) as [E|E].
    - apply chan_inj in E as ->. rewrite list_lookup_insert by (rewrite H1; destruct d; cbn; lia). by rewrite Hon, Hk.
    - rewrite list_lookup_insert_ne by done. rewrite H2. destruct (on d') eqn:E'; [|done]. rewrite Hne; [done| |done]. by intros ->.
  Qed.
  Lemma sync_same w w' s s' : sync w s -> s_kids s' = s_kids s -> (forall d, on d = true -> loop w' d = loop w d) -> sync w' s'.
  Proof. intros [H1 H2] Hs Hl. split; [by rewrite Hs|]. intros d. rewrite Hs, H2. destruct (on d) eqn:E; [|done]. by rewrite Hl. Qed.
  Lemma parts gs w s : prog_run gs (w, s) -> world_run (wl gs) w /\ areaches (on DKeys) (on DPol) (on DJwks) (al gs) s /\ sync w s.
  Proof.
    intros H. remember (w, s) as p eqn:E. revert w s E. induction H as [|gs g p p' H IH Hs]; intros w' s' E.
    { unfold prog_start in E. injection E as <- <-. split; [constructor|]. split; [done|]. split; [done|]. intros [| |]; cbn; [destruct (on DPol)|destruct (on DKeys)|destruct (on DJwks)]; done. }
    destruct p as [w s]. destruct (IH _ _ eq_refl) as (IH1 & IH2 & IH3). clear IH H. subst p'. rewrite wl_app, al_app.
    assert (forall x s', astep x s = Some s' -> areaches (on DKeys) (on DPol) (on DJwks) (al gs ++ [x]) s') as Har.
    { intros x s1 Hx. unfold areaches in *. rewrite arun_app, IH2. cbn [arun]. by rewrite Hx. }
    assert (exists k, s_kids s = k) as [ks Eks] by (by eexists).
    inversion Hs as [l w1 w2 s1 s2 Hw Hl|e w1 s1 s2 L Ha HL|w1 y s1 s2 Ha Hy|d w1 w2 s1 s2 Hw Ha|d w1 s1 s2 Hon Hq Ha|w1 s1 s2 Ha|w1 s1 s2 Ha]; subst; unfold wl, al; cbn [flat_map to_world to_start]; rewrite ?app_nil_r.
    - split; [by eapply W_snoc|]. pose proof (fun d => loop_step _ _ _ d Hw) as Hls. destruct l as [y|t|d t r].
      + assert (s' = s) as -> by (destruct y as [z| | | | | | | | | | |]; try done; by destruct z). rewrite app_nil_r. split; [done|]. by eapply sync_same.
      + subst s'. rewrite app_nil_r. split; [done|]. by eapply sync_same.
      + split; [by apply Har|]. destruct (Hls d) as (Hon & Hr & _). destruct IH3 as [I1 I2]. cbn [astep] in Hl. rewrite I2, Hon in Hl. destruct (kid_of d) as [-> ->] in Hl. rewrite Hr in Hl.
        eapply (sync_set w w' s d); [done| |done|done|].
        * destruct r; try done; by injection Hl as <-.
        * intros d' Hne _. by apply Hls.
    - split; [|split; [by apply Har|]].
      + pose proof (cancel_world _ _ e L IH1 HL) as Hc. cbn [to_world flat_map] in Hc. rewrite app_nil_r in Hc. exact Hc.
      + destruct IH3 as [I1 I2]. cbn [astep] in Ha. destruct (s_ctx s); [done|]. injection Ha as <-. split; [cbn [s_kids]; by rewrite map_length|]. intros d. cbn [s_kids w_loop]. rewrite list_lookup_fmap, I2. cbn [fmap option_fmap option_map].
        specialize (HL d). destruct (on d); [|done]. inversion HL as [|? ? k Hin Hr]; subst. cbn [t_s]. cbn [rstep] in Hr. destruct (r_ctx (loop w d)); [done|]. by injection Hr as <-.
    - split; [|split; [by apply Har|]].
      + eapply W_snoc; [done|]. by apply WS_sys.
      + cbn [astep] in Ha. destruct (s_loc s); try done. destruct (s_ctx s); [|done]. injection Ha as <-. by eapply sync_same.
    - split; [by eapply W_snoc|]. split; [by apply Har|]. pose proof (fun d => loop_step _ _ _ d Hw) as Hls. destruct (Hls d) as (Hon & Hr & _). pose proof IH3 as [I1 I2]. cbn [astep] in Ha. rewrite I2, Hon in Ha.
      destruct (kid_of d) as [Hk Hp]. rewrite Hk, Hp, Hr in Ha. destruct (s_loc s); try done. cbn [rstep] in Hr. destruct (r_ech (loop w d)) as [|m q]; [done|]. cbn [option_map] in Ha. injection Ha as <-.
      eapply (sync_set w w' s d); [done|done|done|done|]. intros d' Hne _. by apply Hls.
    - split; [done|]. split; [by apply Har|]. pose proof IH3 as [I1 I2]. cbn [astep] in Ha. rewrite I2, Hon, Hq in Ha. destruct (s_loc s); try done. destruct (r_loc _); try done. by injection Ha as <-.
    - split; [done|]. split; [by apply Har|]. cbn [astep] in Ha. eapply sync_same; [done| |done]. destruct (s_loc s); try done; (destruct (_ <? _)%nat; [|done]); by injection Ha as <-.
    - split; [done|]. split; [by apply Har|]. cbn [astep] in Ha. eapply sync_same; [done| |done]. destruct (s_ech s); try done. by injection Ha as <-.
  Qed.
  Lemma kid_failures_of gs d : on d = true -> kid_failures (chan d) (al gs) = Prop_Daemon.failures (steps (wloopl K d (wl gs))).
  Proof.
    intros Hon. induction gs as [|g gs IH]; [done|]. change (g :: gs) with ([g] ++ gs). rewrite wl_app, al_app. unfold steps. rewrite wloopl_app, omap_app. unfold kid_failures, Prop_Daemon.failures in *. rewrite !bind_app, IH. f_equal.
    unfold wl, al. cbn [flat_map]. rewrite !app_nil_r. destruct g as [[y|t|d' t r]|t e| |d' t|d'| |]; cbn [to_world to_start flat_map]; try done.
    - cbn. rewrite same_chan. destruct (same d d'); cbn; [by rewrite !app_nil_r|done].
    - cbn. destruct (on DPol), (on DKeys), (on DJwks), d; done.
    - cbn. by destruct (same d d').
  Qed.
  Lemma cancel_in gs e : ACancel e ∈ al gs -> stopped gs e.
  Proof.
    unfold al, stopped. rewrite elem_of_list_In, in_flat_map. intros (g & Hg & Hin). apply elem_of_list_In in Hg. destruct g as [[y|t|d' t r]|t e'| |d' t|d'| |]; cbn in Hin; try (by destruct Hin as [Hin|[]]); try done.
    destruct Hin as [Hin|[]]. injection Hin as ->. by exists t.
  Qed.
  Definition whose (i : nat) : daemon := match i with 0%nat => DKeys | 1%nat => DPol | _ => DJwks end.
  (** The channels hold what the daemons reported and Start has not taken. *)
  Lemma taken_log gs w s : prog_run gs (w, s) -> exists log last,
    sent s = map said log ++ last /\ match s_loc s with AEnd => exists e, stopped gs e /\ last = [e] | _ => last = [] end /\ (forall d m, (d, m) ∈ log -> on d = true) /\ (forall d, on d = true -> by_daemon d log = r_got (loop w d)) /\ (forall e, s_ctx s = Some e -> stopped gs e) /\ (forall d, on d = true -> r_ctx (loop w d) = s_ctx s).
  Proof.
    intros H. apply parts in H as (Hw & Ha & [Hs1 Hs2]). apply start_inv in Ha as (log & H1 & H2 & H3 & H4).
    assert (forall i k, s_kids s !! i = Some (Some k) -> exists d, i = chan d /\ on d = true) as Hk.
    { intros i k Hi. pose proof (lookup_lt_Some _ _ _ Hi) as Hlt. rewrite Hs1 in Hlt. exists (whose i). assert (i = chan (whose i)) as E by (destruct i as [|[|[|i]]]; cbn; lia). split; [done|].
      rewrite E, Hs2 in Hi. by destruct (on (whose i)). }
    exists (map (fun p => (whose (fst p), snd p)) log).
    assert (map said (map (fun p => (whose (fst p), snd p)) log) = map Prop_Start.tagged log) as ->.
    { rewrite map_map. apply map_ext. intros [i m]. unfold said, Prop_Start.tagged, Prop_Start.source. cbn [fst snd]. by destruct i as [|[|i]]. }
    assert (exists last, sent s = map Prop_Start.tagged log ++ last /\ match s_loc s with AEnd => exists e, stopped gs e /\ last = [e] | _ => last = [] end) as (last & Hl1 & Hl2).
    { unfold sent. destruct (s_loc s); cbn [pending] in *.
      - exists []. by rewrite H4, app_nil_r.
      - exists []. by rewrite H4, app_nil_r.
      - exists []. rewrite !app_nil_r. by destruct H4 as (_ & _ & ->).
      - destruct H4 as (_ & e & He & H4). exists [e]. rewrite app_nil_r. split; [done|]. exists e. split; [by apply cancel_in|done]. }
    exists last. split; [done|]. split; [done|]. split; [|split; [|split]].
    - intros d m Hin. apply elem_of_list_fmap in Hin as ([i x] & [= -> ->] & Hin). destruct (H2 _ _ Hin) as [k Hki]. destruct (Hk _ _ Hki) as (d & -> & Hd). by destruct d.
    - intros d Hon. specialize (Hs2 d). rewrite Hon in Hs2. destruct (H1 _ _ Hs2) as (_ & -> & _). unfold by_daemon, from. clear -H2 Hk.
      induction log as [|[i m] log IH]; [done|]. cbn [map List.filter fst snd].
      assert (same d (whose i) = Nat.eqb i (chan d)) as ->.
      { destruct (H2 i m ltac:(left)) as [k Hki]. destruct (Hk _ _ Hki) as (d' & -> & _). by destruct d, d'. }
      assert (forall j x, (j, x) ∈ log -> exists k, s_kids s !! j = Some (Some k)) as Hr by (intros j x Hj; apply (H2 j x); by right). specialize (IH Hr).
      destruct (Nat.eqb i (chan d)); cbn [map snd]; [f_equal|]; exact IH.
    - intros e He. apply cancel_in. auto.
    - intros d Hon. specialize (Hs2 d). rewrite Hon in Hs2. by destruct (H1 _ _ Hs2) as (_ & _ & ?).
  Qed.

  (** ** Theorems *)
  (** Everything sent on the channel of Start is the report of a daemon, under the daemon's name, then, at
      the end, the error of the context; those of the policy daemon and of the key daemon are the errors
      of their failed Updates, in order, none twice, none left out in between; after them at most the
      error of the context.  For the JWK daemon the same with errors in a row as one text. *)
  Definition in_turn (gs : list prog_label) (errs got : list str) : Prop :=
    (exists later, errs = got ++ later) \/ exists e, stopped gs e /\ got = errs ++ [e].
  Definition in_turn_merged (gs : list prog_label) (errs got : list str) : Prop :=
    exists blocks later, errs = concat blocks ++ later /\ Forall (fun b => b <> []) blocks /\
      (got = map merged blocks \/ exists e, stopped gs e /\ got = map merged blocks ++ [farewell later e]).
  Lemma cancel_back d gs e t : WLoop K d t (RCancel e) ∈ wl gs -> (forall w s, prog_run gs (w, s) -> stopped gs e).
  Proof.
    intros Hin w s Hr. apply parts in Hr as (_ & Ha & _). revert Hin. unfold wl. rewrite elem_of_list_In, in_flat_map. intros (g & Hg & Hin). apply elem_of_list_In in Hg.
    destruct g as [[y|t'|d' t' r]|t' e'| |d' t'|d'| |]; cbn in Hin; try done; try (destruct Hin as [Hin|[]]; try done).
    - exfalso. injection Hin as -> -> ->. assert (AKid (chan d) (RCancel e) ∈ al gs) as Hk.
      { unfold al. apply elem_of_list_In, in_flat_map. eexists. split; [by apply elem_of_list_In|]. by left. }
      clear -Ha Hk. revert s Ha Hk. generalize (al gs). intros l. induction l as [|x l IH] using rev_ind; intros s Ha Hk; [by apply elem_of_nil in Hk|].
      unfold areaches in Ha. rewrite arun_app in Ha. destruct (arun l (ainit (on DKeys) (on DPol) (on DJwks))) as [s1|] eqn:E; [|done]. apply elem_of_app in Hk as [Hk|Hk]; [by eapply IH|].
      apply elem_of_list_singleton in Hk as <-. cbn [arun astep] in Ha. by destruct (s_kids s1 !! chan d) as [[]|].
    - exists t'. assert (e' = e) as ->; [|done]. destruct (on DPol), (on DKeys), (on DJwks); cbn in Hin; intuition congruence.
  Qed.
  Theorem C95_what_is_read gs w s : prog_run gs (w, s) -> exists log last,
    sent s = map said log ++ last /\ match s_loc s with AEnd => exists e, stopped gs e /\ last = [e] | _ => last = [] end /\
    (forall d m, (d, m) ∈ log -> on d = true) /\
    forall d, on d = true -> exists es, ended K nx0 d w es /\
      match d with
      | DJwks => in_turn_merged gs (map (named d) (errors es)) (by_daemon d log)
      | _ => in_turn gs (map (named d) (errors es)) (by_daemon d log)
      end.
  Proof.
    intros H. destruct (taken_log _ _ _ H) as (log & last & H1 & H2 & H3 & H4 & _). exists log, last. split; [done|]. split; [done|]. split; [done|]. intros d Hon. rewrite (H4 _ Hon).
    pose proof H as (Hw & _ & _)%parts.
    assert (d <> DJwks -> exists es, ended K nx0 d w es /\ in_turn gs (map (named d) (errors es)) (r_got (loop w d))) as Hsend.
    { intros Hd. destruct (decide (r_loc (loop w d) = LEnd)) as [El|El].
      - destruct (C94_closing _ _ _ _ _ _ _ _ _ _ _ _ Hon Hd Hw El) as (es & e & He & Hr & t & Ht). exists es. split; [done|]. unfold reported in Hr. pose proof (cancel_back _ _ _ _ Ht _ _ H) as Hst.
        destruct (r_ech (loop w d)) as [|m q _] eqn:Eq using rev_ind.
        + right. exists e. split; [done|]. by rewrite app_nil_r in Hr.
        + left. exists q. rewrite app_assoc in Hr. by apply app_inj_tail in Hr as [<- _].
      - destruct (C94_failures_reported _ _ _ _ _ _ _ _ _ _ _ _ Hon Hd Hw El) as (es & rest & He & Hr & _). exists es. split; [done|]. left. unfold reported in Hr. rewrite <- app_assoc in Hr. by eexists. }
    destruct d; [by apply Hsend|by apply Hsend|]. clear Hsend.
    assert (forall (g q : list str) blocks, g ++ q = map merged blocks -> Forall (fun b => b <> []) blocks -> exists b1 b2, blocks = b1 ++ b2 /\ g = map merged b1 /\ Forall (fun b => b <> []) b1) as Hsplit.
    { clear. intros g q bl H Hf. symmetry in H. apply fmap_app_inv in H as (b1 & b2 & -> & -> & ->). exists b1, b2. split_and!; [done..|]. by apply Forall_app in Hf as [? _]. }
    destruct (decide (r_loc (loop w DJwks) = LEnd)) as [El|El].
    - destruct (C94_jwk_closing _ _ _ _ _ _ _ _ _ _ _ Hon Hw El) as (es & bl & kept & e & He & Hm & Hf & Hr & t & Ht). exists es. split; [done|]. unfold reported in Hr. pose proof (cancel_back _ _ _ _ Ht _ _ H) as Hst.
      destruct (r_ech (loop w DJwks)) as [|m q _] eqn:Eq using rev_ind.
      + rewrite app_nil_r in Hr. exists bl, kept. split_and!; [done|done|]. right. by exists e.
      + rewrite app_assoc in Hr. apply app_inj_tail in Hr as [Hr _]. destruct (Hsplit _ _ _ Hr Hf) as (b1 & b2 & -> & Hg & Hf1). exists b1, (concat b2 ++ kept). split_and!; [by rewrite Hm, concat_app, <- app_assoc|done|by left].
    - destruct (C94_jwk_failures_reported _ _ _ _ _ _ _ _ _ _ _ Hon Hw El) as (es & bl & rest & He & Hm & Hf & Hr). exists es. split; [done|]. unfold reported in Hr.
      destruct (Hsplit _ _ _ Hr Hf) as (b1 & b2 & -> & Hg & Hf1). exists b1, (concat b2 ++ rest). split_and!; [by rewrite Hm, concat_app, <- app_assoc|done|by left].
  Qed.
  (** When it is running and nothing is under way, all of them have been read. *)
  Definition at_rest (w : world K) (s : ast) : Prop :=
    s_loc s = ASelect /\ s_ech s = [] /\ forall d, on d = true -> r_loc (loop w d) = LSelect /\ r_ech (loop w d) = [] /\ r_buf (loop w d) = [].
  Theorem C95_nothing_is_lost gs w s : prog_run gs (w, s) -> at_rest w s -> exists log,
    s_got s = map said log /\ (forall d m, (d, m) ∈ log -> on d = true) /\
    forall d, on d = true -> exists es, ended K nx0 d w es /\
      match d with
      | DJwks => exists blocks, map (named d) (errors es) = concat blocks /\ Forall (fun b => b <> []) blocks /\ by_daemon d log = map merged blocks
      | _ => by_daemon d log = map (named d) (errors es)
      end.
  Proof.
    intros H (Hl & He & Hd). destruct (taken_log _ _ _ H) as (log & last & H1 & H2 & H3 & H4 & _). rewrite Hl in H2. subst last. unfold sent in H1. rewrite Hl, He in H1. cbn [pending] in H1. rewrite !app_nil_r in H1.
    exists log. split; [done|]. split; [done|]. intros d Hon. rewrite (H4 _ Hon). destruct (Hd _ Hon) as (D1 & D2 & D3). pose proof H as (Hw & _ & _)%parts.
    destruct (all_ended _ _ _ _ _ _ _ _ _ _ _ _ Hon Hw) as (_ & es & Hes & Hf). exists es. split; [done|]. pose proof (loop_reaches _ _ _ _ _ _ _ _ _ _ _ _ Hon Hw) as Hr. 
    destruct d.
    - destruct (C62_errors_in_order _ _ _ Hr ltac:(by rewrite D1)) as (rest & E1 & _ & E2). rewrite E2, D2, !app_nil_r in E1 by (by rewrite D1). by rewrite <- E1, Hf.
    - destruct (C62_errors_in_order _ _ _ Hr ltac:(by rewrite D1)) as (rest & E1 & _ & E2). rewrite E2, D2, !app_nil_r in E1 by (by rewrite D1). by rewrite <- E1, Hf.
    - apply buffering_inv in Hr as [(bl & ke & E1 & E2 & E3 & E5) _]. rewrite D1 in E1, E5. cbn [held] in E1. rewrite app_nil_r in E1. rewrite D3 in E3.
      assert (ke = []) as ->. { destruct ke as [|x ke]; [done|]. symmetry in E3. by apply merged_nil in E3. }
      rewrite app_nil_r in E1. exists bl. split; [by rewrite <- E1, Hf|]. split; [done|]. unfold taken in E5. rewrite D2, app_nil_r in E5. naive_solver.
  Qed.

  (** No false alarm: as long as no Update failed and the context has not ended, nothing is sent. *)
  Theorem C95_quiet gs w s : prog_run gs (w, s) -> (forall e, ~ stopped gs e) ->
    (forall d m e, on d = true -> (pick nx0 d <= m)%nat -> outcome_of K d (w_sys K w) m <> Some (Err e)) -> sent s = [].
  Proof.
    intros H Hst Hok. destruct (C95_what_is_read _ _ _ H) as (log & last & H1 & H2 & H3 & H4).
    assert (last = []) as -> by (destruct (s_loc s); try done; destruct H2 as (e & He & _); by destruct (Hst e)). rewrite app_nil_r in H1.
    assert (forall d es, on d = true -> ended K nx0 d w es -> errors es = []) as Hnone.
    { intros d es Hon [_ He]. unfold errors. destruct (omap id es) as [|x l] eqn:E; [done|exfalso]. assert (x ∈ omap id es) as Hx by (rewrite E; left).
      apply elem_of_list_omap in Hx as (o & Ho & Hx). cbn in Hx. subst o. apply elem_of_list_lookup in Ho as [j Hj]. destruct (He _ _ Hj) as (r & Hr & Hs).
      destruct r as [| e|]; try done. by eapply (Hok d (pick nx0 d + j)%nat e Hon ltac:(lia)). }
    destruct log as [|[d m] log]; [done|exfalso]. assert (on d = true) as Hon by (apply (H3 d m); left). destruct (H4 d Hon) as (es & He & Hb). rewrite (Hnone _ _ Hon He) in Hb.
    assert (by_daemon d ((d, m) :: log) <> []) as Hne by (unfold by_daemon; cbn [List.filter fst]; destruct d; done). clear -Hb Hne Hst. destruct d.
    - destruct Hb as [[later Hb]|(e & He & _)]; [|by destruct (Hst e)]. symmetry in Hb. by apply app_eq_nil in Hb as [? _].
    - destruct Hb as [[later Hb]|(e & He & _)]; [|by destruct (Hst e)]. symmetry in Hb. by apply app_eq_nil in Hb as [? _].
    - destruct Hb as (bl & later & Hb & Hf & [Hg|(e & He & _)]); [|by destruct (Hst e)]. symmetry in Hb. apply app_eq_nil in Hb as [Hb _]. destruct bl as [|b bl]; [done|]. apply Forall_cons in Hf as [Hf _]. by destruct b.
  Qed.

  (** The result cache is emptied when the context has ended, and only then. *)
  Definition emptied (gs : list prog_label) : Prop := YAuth K (ZClear K) ∈ wsysl K (wl gs).
  Lemma emptied_flag gs w s : prog_run gs (w, s) -> emptied gs <-> s_cleared s = true.
  Proof.
    intros H. remember (w, s) as p eqn:E. revert w s E. induction H as [|gs g p p' H IH Hs]; intros w' s' E.
    { unfold prog_start in E. injection E as <- <-. unfold emptied. cbn. rewrite elem_of_nil. by split. }
    destruct p as [w s]. specialize (IH _ _ eq_refl). subst p'. unfold emptied in *. rewrite wl_app, wsysl_app, elem_of_app, IH. clear IH H.
    inversion Hs as [l w1 w2 s1 s2 Hw Hl|e w1 s1 s2 L Ha HL|w1 y s1 s2 Ha Hy|d w1 w2 s1 s2 Hw Ha|d w1 s1 s2 Hon Hq Ha|w1 s1 s2 Ha|w1 s1 s2 Ha]; subst; unfold wl; cbn [flat_map to_world]; rewrite ?app_nil_r.
    - assert (YAuth K (ZClear K) ∉ wsysl K [l] /\ s_cleared s' = s_cleared s) as [Hn ->]; [|naive_solver]. split.
      + intros Hin. destruct l as [y|t|]; cbn in Hin; [apply elem_of_list_singleton in Hin as <-; done|by apply elem_of_list_singleton in Hin|by apply elem_of_nil in Hin].
      + destruct l as [y|t|d t r]; [destruct y as [z| | | | | | | | | | |]; try destruct z; by try subst|by subst|]. cbn [astep] in Hl. destruct (s_kids s !! chan d) as [[k|]|]; [|by destruct r..].
        destruct r; try done; (destruct (rstep _ _ _ _); [|done]); by injection Hl as <-.
    - assert ((YAuth K (ZClear K) : @ylabel K O) ∉ wsysl K (to_world K on (GCancel K (now K (w_sys K w)) e)) /\ s_cleared s' = s_cleared s) as [Hn ->].
      { split; [cbn; destruct (on DPol), (on DKeys), (on DJwks); cbn; intros Hin; by apply elem_of_nil in Hin|]. cbn [astep] in Ha. destruct (s_ctx s); [done|]. by injection Ha as <-. }
      cbn [to_world flat_map] in Hn. rewrite app_nil_r in Hn. naive_solver.
    - cbn. rewrite elem_of_list_singleton. cbn [astep] in Ha. destruct (s_loc s); try done. destruct (s_ctx s); [|done]. injection Ha as <-. cbn. naive_solver.
    - assert (s_cleared s' = s_cleared s) as ->; [|cbn; rewrite elem_of_nil; naive_solver]. cbn [astep] in Ha. destruct (s_loc s); try done. destruct (s_kids s !! chan d) as [[k|]|]; try done.
      destruct (r_ech k); [destruct (r_loc k); try done; by injection Ha as <-|]. destruct (rstep _ _ _ _); [|done]. by injection Ha as <-.
    - assert (s_cleared s' = s_cleared s) as ->; [|cbn; rewrite elem_of_nil; naive_solver]. cbn [astep] in Ha. destruct (s_loc s); try done. destruct (s_kids s !! chan d) as [[k|]|]; try done.
      destruct (r_ech k); [destruct (r_loc k); try done; by injection Ha as <-|]. destruct (rstep _ _ _ _); [|done]. by injection Ha as <-.
    - assert (s_cleared s' = s_cleared s) as ->; [|cbn; rewrite elem_of_nil; naive_solver]. cbn [astep] in Ha. destruct (s_loc s); try done; (destruct (_ <? _)%nat; [|done]); by injection Ha as <-.
    - assert (s_cleared s' = s_cleared s) as ->; [|cbn; rewrite elem_of_nil; naive_solver]. cbn [astep] in Ha. destruct (s_ech s); [done|]. by injection Ha as <-.
  Qed.
  Theorem C95_cache_kept gs w s : prog_run gs (w, s) -> emptied gs -> exists e, stopped gs e.
  Proof.
    intros H He. apply (emptied_flag _ _ _ H) in He. apply parts in H as (_ & Ha & _). destruct (C65_kept_until_the_end _ _ _ _ _ Ha He) as (_ & e & Hc). exists e. by apply cancel_in.
  Qed.
  Theorem C95_cache_emptied gs w s : prog_run gs (w, s) -> s_loc s = AEnd -> emptied gs.
  Proof.
    intros H He. apply (emptied_flag _ _ _ H). apply parts in H as (_ & Ha & _). by destruct (C65_closing _ _ _ _ _ Ha He) as [? _].
  Qed.

  (** When a daemon has ended (or was never started) nothing it looks after is refreshed any more. *)
  Definition over (d : daemon) (w : world K) : Prop := on d = true -> r_loc (loop w d) = LEnd.
  Definition jwks_ready (s : sys K) : Prop := forall i todo fl, j_tasks (y_jwk K s) !! i <> Some (JRun todo fl).
  Lemma at_work ws w d m : world_run ws w -> pick (w_cur K w) d = Some m -> on d = true /\ exists r, r_loc (loop w d) = LUpdate r.
  Proof.
    intros H. revert m. induction H as [|ws l w w' _ IH Hs]; intros m; [by destruct d|]. pose proof (loop_step _ _ _ d Hs) as Hl.
    destruct Hs as [w l s' Hs Hok|w t s' L Hs Ht|w d' l a Hon' Hcl Ht _ _|w d' m' r e a Hon' Ht _ _ _|w d' l a Hon' Hcl Ht]; cbn [w_cur w_loop] in *.
    - apply IH.
    - intros Hc. destruct (IH _ Hc) as [Hon Hr]. split; [done|]. by rewrite Hl.
    - destruct Hl as (_ & Hl & Hne). destruct (same d' d) eqn:E; [|rewrite pick_place_ne by (intros ->; by destruct d); intros Hc; destruct (IH _ Hc) as [Hon Hr]; split; [done|]; rewrite Hne; [done|intros ->; by destruct d']].
      apply same_spec in E as ->. intros _. split; [done|]. destruct Hcl as [-> | ->]; cbn [rstep] in Hl; destruct (r_loc (loop w d)); try done.
      + destruct (r_retry _); [done|]. injection Hl as <-. by eexists.
      + destruct (r_tick _); [|done]. injection Hl as <-. by eexists.
    - destruct Hl as (_ & _ & Hne). destruct (same d' d) eqn:E; [apply same_spec in E as ->; by rewrite pick_place|]. rewrite pick_place_ne by (intros ->; by destruct d). intros Hc. destruct (IH _ Hc) as [Hon Hr]. split; [done|]. rewrite Hne; [done|intros ->; by destruct d'].
    - destruct Hl as (_ & Hl & Hne). intros Hc. destruct (IH _ Hc) as [Hon (r & Hr)]. split; [done|]. destruct (same d' d) eqn:E; [|rewrite Hne; [by exists r|intros ->; by destruct d']]. apply same_spec in E as ->.
      exists r. destruct l; try done; cbn [rstep] in Hl; rewrite ?Hr in Hl; try done.
      + by injection Hl as <-.
      + destruct (r_ctx _); [done|]. by injection Hl as <-.
      + destruct (r_ech _); [done|]. by injection Hl as <-.
  Qed.
  Lemma jwks_inv ws w : jwks_ready sb -> world_run ws w -> forall i todo fl, j_tasks (y_jwk K (w_sys K w)) !! i = Some (JRun todo fl) -> pick (w_cur K w) DJwks = Some i.
  Proof.
    intros H0. induction 1 as [|ws l w w' Hw IH Hs]; intros i todo fl Hi; [by destruct (H0 _ _ _ Hi)|].
    destruct Hs as [w l s' Hs Hok|w t s' L Hs Ht|w d' l a Hon' Hcl Ht _ Hcur|w d' m' r e a Hon' Ht Hcur Hout Hsh|w d' l a Hon' Hcl Ht]; cbn [w_cur w_sys] in *; try (by eapply IH).
    - destruct Hs; cbn [set_auth set_keys set_jwk set_fetch set_upd set_obj publish set_chk y_jwk] in Hi; try (by eapply IH).
      destruct l as [k|k u r|k]; cbn [jstep] in H; destruct (j_tasks (y_jwk K s) !! k) as [[|td f|]|] eqn:E; try done.
      + injection H as <-. cbn [j_tasks] in Hi. destruct (decide (i = k)) as [->|Hne]; [done|]. rewrite list_lookup_insert_ne in Hi by done. by eapply IH.
      + assert (exists tk, j_tasks j = <[k := tk]> (j_tasks (y_jwk K s))) as [tk Etk] by (destruct td; [done|]; case_match; [|done]; destruct r; injection H as <-; by eexists).
        rewrite Etk in Hi. destruct (decide (i = k)) as [->|Hne]; [by eapply IH|]. rewrite list_lookup_insert_ne in Hi by done. by eapply IH.
      + assert (exists tk, j_tasks j = <[k := tk]> (j_tasks (y_jwk K s))) as [tk Etk] by (destruct td; [|done]; injection H as <-; by eexists).
        rewrite Etk in Hi. destruct (decide (i = k)) as [->|Hne]; [by eapply IH|]. rewrite list_lookup_insert_ne in Hi by done. by eapply IH.
    - inversion Hs; subst. by eapply IH.
    - destruct (same d' DJwks) eqn:E; [|rewrite pick_place_ne by (intros ->; done); by eapply IH]. apply same_spec in E as ->. exfalso. pose proof (IH _ _ _ Hi) as Hx. by rewrite Hcur in Hx.
    - destruct (same d' DJwks) eqn:E; [|rewrite pick_place_ne by (intros ->; done); by eapply IH]. apply same_spec in E as ->. exfalso. pose proof (IH _ _ _ Hi) as Hx. rewrite Hcur in Hx. injection Hx as ->.
      cbn [outcome_of] in Hout. rewrite Hi in Hout. done.
  Qed.
  Lemma over_step ws w l w' d : world_run ws w -> world_step l w w' -> over d w ->
    over d w' /\ pick (w_nx K w') d = pick (w_nx K w) d /\
    match d with
    | DPol => y_cur K (w_sys K w') = y_cur K (w_sys K w)
    | DKeys => keys_ready K sb (pick nx0 DKeys) -> y_keys K (w_sys K w') = y_keys K (w_sys K w)
    | DJwks => jwks_ready sb -> y_jwk K (w_sys K w') = y_jwk K (w_sys K w)
    end.
  Proof.
    intros Hw Hs Ho. assert (pick (w_cur K w) d = None) as Hcur.
    { destruct (pick (w_cur K w) d) as [m|] eqn:E; [|done]. destruct (at_work _ _ _ _ Hw E) as [Hon [r Hr]]. specialize (Ho Hon). by rewrite Hr in Ho. }
    pose proof (loop_step _ _ _ d Hs) as Hl. split; [|split].
    - intros Hon. specialize (Ho Hon). destruct l as [y|t|d' t r]; [by rewrite Hl|by rewrite Hl|]. destruct Hl as (_ & Hl & Hne). destruct (same d' d) eqn:E.
      + apply same_spec in E as ->. destruct r; cbn [rstep] in Hl; rewrite ?Ho in Hl; try done; [destruct (r_ctx _); [done|]; by injection Hl as <-|]. destruct (r_ech _); [done|]. by injection Hl as <-.
      + rewrite Hne; [done|]. intros ->. by destruct d'.
    - destruct Hs as [w l s' Hs Hok|w t s' L Hs Ht|w d' l a Hon' Hcl Ht _ _|w d' m' r e a Hon' Ht _ _ _|w d' l a Hon' Hcl Ht]; cbn [w_nx]; try done.
      destruct (same d' d) eqn:E; [|apply pick_place_ne; intros ->; by destruct d]. apply same_spec in E as ->. exfalso. destruct Hl as (Hon & Hl & _). specialize (Ho Hon).
      destruct Hcl as [-> | ->]; cbn [rstep] in Hl; by rewrite Ho in Hl.
    - clear Hl. destruct d.
      + destruct Hs as [w l s' Hs Hok|w t s' L Hs Ht|w d' l a Hon' Hcl Ht _ _|w d' m' r e a Hon' Ht _ _ _|w d' l a Hon' Hcl Ht]; cbn [w_sys]; try done.
        * destruct Hs; try done. cbn [may] in Hok. by rewrite Hcur in Hok.
        * by inversion Hs.
      + intros Hready. destruct Hs as [w l s' Hs Hok|w t s' L Hs Ht|w d' l a Hon' Hcl Ht _ _|w d' m' r e a Hon' Ht _ _ _|w d' l a Hon' Hcl Ht]; cbn [w_sys]; try done; [|by inversion Hs].
        destruct l as [| l | | | | | | | | | |]; try (by apply (keys_other K X U parse cf _ _ _ Hs)). exfalso. inversion Hs as [|? ? k Hp Hkt| | | | | | | | | | |]; subst.
        pose proof Hp as Hp0. apply pstep_inv in Hp as (t1 & t2 & Ht1 & Htasks & Hm & _). destruct (keys_inv K X U parse cf 0 on c sb nx0 _ _ Hready Hw _ _ Ht1) as [I1 I2].
        destruct (decide (active t1 = true)) as [Ha|Ha]; [by rewrite (I1 Ha) in Hcur|].
        assert (exists i u, l = PBegin i u) as (i & u & ->).
        { destruct l as [j u|j r u|j k'|j k'|j]; cbn [task_of moves] in *; [by eexists _, _|exfalso..]; apply Ha.
          - by destruct Hm as (? & -> & _).
          - by destruct Hm as (? & ? & ? & -> & _).
          - by destruct Hm as (? & ? & -> & _).
          - by destruct Hm as (_ & [(? & -> & _)|(? & -> & _)]). }
        cbn [may] in Hok. by rewrite Hcur in Hok.
      + intros Hready. destruct Hs as [w l s' Hs Hok|w t s' L Hs Ht|w d' l a Hon' Hcl Ht _ _|w d' m' r e a Hon' Ht _ _ _|w d' l a Hon' Hcl Ht]; cbn [w_sys]; try done; [|by inversion Hs].
        pose proof (jwks_inv _ _ Hready Hw) as Hj. destruct Hs; try done. exfalso. destruct l as [k|k u r|k]; cbn [jstep may] in *; [by rewrite Hcur in Hok|..];
          destruct (j_tasks _ !! k) as [[|td f|]|] eqn:E; try done; specialize (Hj _ _ _ E); by rewrite Hcur in Hj.
  Qed.
  Theorem C95_no_refresh_after_the_end gs gs' w s w' s' d : prog_run gs (w, s) -> prog_run (gs ++ gs') (w', s') -> over d w ->
    over d w' /\ pick (w_nx K w') d = pick (w_nx K w) d /\
    match d with
    | DPol => y_cur K (w_sys K w') = y_cur K (w_sys K w)
    | DKeys => keys_ready K sb (pick nx0 DKeys) -> y_keys K (w_sys K w') = y_keys K (w_sys K w)
    | DJwks => jwks_ready sb -> y_jwk K (w_sys K w') = y_jwk K (w_sys K w)
    end.
  Proof.
    intros H H' Ho. apply parts in H as (Hw & _ & _). apply parts in H' as (Hw' & _ & _). rewrite wl_app in Hw'. revert w' Hw'. generalize (wl gs'). intros b.
    induction b as [|l b IH] using rev_ind; intros w' Hw'.
    - rewrite app_nil_r in Hw'. pose proof (world_run_det K X U parse cf (fun _ => []) on c sb nx0 _ _ _ Hw Hw') as <-. split; [done|]. split; [done|]. by destruct d.
    - rewrite app_assoc in Hw'. apply world_run_snoc in Hw' as (w1 & Hw1 & Hs). destruct (IH _ Hw1) as (I1 & I2 & I3). destruct (over_step _ _ _ _ _ Hw1 Hs I1) as (J1 & J2 & J3). split; [done|]. split; [congruence|].
      destruct d; [congruence|intros Hr; by rewrite (J3 Hr), (I3 Hr)..].
  Qed.
End claims.

(** ** Running the machine *)
Section exec.
  Context (K : crypto) (X : jwt_ext) {O : Type} (U : unicode) (parse : str -> option (verifier K)) (cf : @sconf O).
  Context (on : daemon -> bool) (c : daemon -> timing).
  Inductive gcmd := GW (d : @wcmd O) | GC (e : str) | GD | GT (d : daemon) | GX (d : daemon) | GS | GR.
  Definition cancelf (e : str) (w : world K) (d : daemon) : option tst :=
    if on d then tstepf (c d) (kind_of d) (text_of d) (now K (w_sys K w), Some (RCancel e)) (pick (w_loop K w) d) else Some (pick (w_loop K w) d).
  Definition gexec (g : gcmd) (p : world K * ast) : option (@prog_label K O * (world K * ast)) :=
    let '(w, s) := p in
    match g with
    | GW d =>
        match wexec K X U parse cf on c d w with
        | Some (l, w') =>
            match l with
            | WLoop _ d _ r => match astep (AKid (chan d) r) s with Some s' => Some (GWorld K l, (w', s')) | None => None end
            | WSys _ (YAuth _ (ZClear _)) => None
            | _ => Some (GWorld K l, (w', s))
            end
        | None => None
        end
    | GC e =>
        match astep (ACancel e) s, cancelf e w DPol, cancelf e w DKeys, cancelf e w DJwks with
        | Some s', Some a, Some b, Some d => Some (GCancel K (now K (w_sys K w)) e, (World K (w_sys K w) (Per a b d) (w_cur K w) (w_nx K w), s'))
        | _, _, _, _ => None
        end
    | GD =>
        match astep ADone s, zstep K X (s_z cf) (ZClear K) (y_auth K (w_sys K w)) with
        | Some s', Some z => Some (GDone K, (World K (set_auth K z (w_sys K w)) (w_loop K w) (w_cur K w) (w_nx K w), s'))
        | _, _ => None
        end
    | GT d =>
        match wexec K X U parse cf on c (WL d RRecv) w, astep (ATake (chan d)) s with
        | Some (_, w'), Some s' => Some (GTake K d (now K (w_sys K w)), (w', s'))
        | _, _ => None
        end
    | GX d =>
        match on d, r_ech (t_s (pick (w_loop K w) d)), astep (ATake (chan d)) s with
        | true, [], Some s' => Some (GClosed K d, (w, s'))
        | _, _, _ => None
        end
    | GS => match astep AStep s with Some s' => Some (GStep K, (w, s')) | None => None end
    | GR => match astep ARecv s with Some s' => Some (GRecv K, (w, s')) | None => None end
    end.
  Lemma gexec_sound g p l p' : gexec g p = Some (l, p') -> prog_step K X U parse cf on c l p p'.
  Proof.
    destruct p as [w s]. destruct g as [d|e| |d|d| |]; cbn [gexec].
    - destruct (wexec K X U parse cf on c d w) as [[l0 w']|] eqn:E; [|done]. apply wexec_sound in E. intros H. destruct l0 as [y|t|d0 t r].
      + assert (l = GWorld K (WSys K y) /\ p' = (w', s) /\ match y with YAuth _ (ZClear _) => False | _ => True end) as (-> & -> & Hy).
        { destruct y as [z| | | | | | | | | | |]; try (by injection H as <- <-). destruct z; try (by injection H as <- <-). done. }
        apply G_world; [done|]. destruct y as [z| | | | | | | | | | |]; try done. by destruct z.
      + injection H as <- <-. by apply G_world.
      + destruct (astep _ s) as [s'|] eqn:Ea; [|done]. injection H as <- <-. by apply G_world.
    - destruct (astep _ s) as [s'|] eqn:Ea; [|done]. destruct (cancelf e w DPol) as [a|] eqn:E1; [|done]. destruct (cancelf e w DKeys) as [b|] eqn:E2; [|done]. destruct (cancelf e w DJwks) as [d|] eqn:E3; [|done].
      intros H. injection H as <- <-. apply G_cancel; [done|]. unfold cancelf in *. intros [| |]; cbn [pick at_pol at_keys at_jwks] in *.
      + destruct (on DPol); [by apply tstepf_sound in E1|by injection E1 as <-].
      + destruct (on DKeys); [by apply tstepf_sound in E2|by injection E2 as <-].
      + destruct (on DJwks); [by apply tstepf_sound in E3|by injection E3 as <-].
    - destruct (astep _ s) as [s'|] eqn:Ea; [|done]. destruct (zstep _ _ _ _ _) as [z|] eqn:Ez; [|done]. intros H. injection H as <- <-. apply G_done; [done|]. by constructor.
    - destruct (wexec K X U parse cf on c (WL d RRecv) w) as [[l0 w']|] eqn:E; [|done]. destruct (astep _ s) as [s'|] eqn:Ea; [|done]. intros H. injection H as <- <-.
      apply G_take; [|done]. assert (l0 = WLoop K d (now K (w_sys K w)) RRecv) as ->; [|by apply wexec_sound in E].
      cbn [wexec] in E. destruct (on d); [|done]. destruct (tstepf _ _ _ _ _); [|done]. by injection E as <- _.
    - destruct (on d) eqn:Hon; [|done]. destruct (r_ech _) eqn:Eq; [|done]. destruct (astep _ s) as [s'|] eqn:Ea; [|done]. intros H. injection H as <- <-. by apply G_closed.
    - destruct (astep _ s) as [s'|] eqn:Ea; [|done]. intros H. injection H as <- <-. by apply G_step.
    - destruct (astep _ s) as [s'|] eqn:Ea; [|done]. intros H. injection H as <- <-. by apply G_recv.
  Qed.
  Fixpoint gdrive (cs : list gcmd) (acc : list (@prog_label K O)) (p : world K * ast) : option (list (@prog_label K O) * (world K * ast)) :=
    match cs with
    | [] => Some (acc, p)
    | g :: cs => match gexec g p with Some (l, p') => gdrive cs (l :: acc) p' | None => None end
    end.
  Lemma gdrive_sound p0 cs acc p acc' p' : gdrive cs acc p = Some (acc', p') -> prog_run K X U parse cf on c p0 (rev acc) p -> prog_run K X U parse cf on c p0 (rev acc') p' /\ exists x, acc' = x ++ acc.
  Proof.
    revert acc p. induction cs as [|g cs IH]; intros acc p H Hr; cbn [gdrive] in H; [injection H as <- <-; split; [done|by exists []]|].
    destruct (gexec g p) as [[l p1]|] eqn:E; [|done]. apply gexec_sound in E. destruct (IH _ _ H ltac:(cbn [rev]; by eapply G_snoc)) as [H1 [x ->]]. split; [done|]. exists (x ++ [l]). by rewrite <- app_assoc.
  Qed.
End exec.

(** ** The cases are not empty *)
Section example.
  Import Prop_Fetcher Prop_Authorizer.
  Notation driveV := (drive K1 X0 U0 parse1 vcf).
  Notation gdriveV := (gdrive K1 X0 U0 parse1 vcf onV cV).
  Definition gsA : list (@gcmd unit) := map GW (wsA ++ wsF) ++ [GT DKeys; GS; GR].
  Definition gsB : list (@gcmd unit) := [GC (B "context canceled"); GW (WL DKeys RDone); GD; GW (WL DKeys RStep); GS; GR; GW (WL DJwks RDone); GW (WL DJwks RStep)].
  Definition gsC : list (@gcmd unit) := map GW (map WC (vcall 2 (vr old_tok))).
  Definition locs (w : world K1) : list loc := map (fun d => r_loc (t_s (pick (w_loop K1 w) d))) [DKeys; DJwks].
  Definition quietb (w : world K1) : bool := forallb (fun d => match r_ech (t_s (pick (w_loop K1 w) d)), r_buf (t_s (pick (w_loop K1 w) d)) with [], [] => true | _, _ => false end) [DKeys; DJwks].
  Definition cached (w : world K1) : nat := size (z_cache (y_auth K1 (w_sys K1 w))).
  Definition read_once : list str := [B "update pubkey error: error update pubkey: undecodable"].
  (** The key server's list cannot be decoded once: that is read, once, and nothing else; the context ends,
      the daemons and Start end; after that a call is accepted, and its result is kept. *)
  Lemma the_prog_run : exists ls0 sb trA wA sA trB wB sB trC wC sC,
    System.yrun K1 X0 U0 parse1 vcf winit ls0 sb /\ readyb sb = true /\
    prog_run K1 X0 U0 parse1 vcf onV cV (prog_start K1 onV cV sb nxV) (rev trA) (wA, sA) /\
    prog_run K1 X0 U0 parse1 vcf onV cV (prog_start K1 onV cV sb nxV) (rev trA ++ rev trB) (wB, sB) /\
    prog_run K1 X0 U0 parse1 vcf onV cV (prog_start K1 onV cV sb nxV) ((rev trA ++ rev trB) ++ rev trC) (wC, sC) /\
    (s_loc sA, s_ech sA, s_got sA) = (ASelect, [], read_once) /\ locs wA = [LSelect; LSelect] /\ quietb wA = true /\
    (s_loc sB, s_got sB) = (AEnd, read_once ++ [B "context canceled"]) /\ locs wB = [LEnd; LEnd] /\ cached wB = 0%nat /\
    verdicts (w_sys K1 wB) = [Some true; Some true; None; None; None; None; None; None] /\ waiting (w_sys K1 wB) = repeat true 8 /\ verdicts (w_sys K1 wC) = [Some true; Some true; Some true; None; None; None; None; None] /\ cached wC = 1%nat /\
    pick (w_nx K1 wC) DKeys = 5%nat /\ forallb (fun t => match t with JRun _ _ => false | _ => true end) (j_tasks (y_jwk K1 sb)) = true.
  Proof.
    assert (match driveV ws0 [] winit with None => None | Some (tr0, sb) =>
      match gdriveV gsA [] (prog_start K1 onV cV sb nxV) with None => None | Some (trA, (wA, sA)) =>
      match gdriveV gsB trA (wA, sA) with None => None | Some (trB, (wB, sB)) =>
      match gdriveV gsC trB (wB, sB) with None => None | Some (trC, (wC, sC)) =>
       Some (readyb sb && forallb (fun t => match t with JRun _ _ => false | _ => true end) (j_tasks (y_jwk K1 sb)), ((s_loc sA, s_ech sA, s_got sA), locs wA, quietb wA), (s_loc sB, s_got sB), (locs wB, cached wB), (verdicts (w_sys K1 wB), waiting (w_sys K1 wB)), verdicts (w_sys K1 wC), cached wC, pick (w_nx K1 wC) DKeys) end end end end =
      Some (true, ((ASelect, [], read_once), [LSelect; LSelect], true), (AEnd, read_once ++ [B "context canceled"]), ([LEnd; LEnd], 0%nat),
        ([Some true; Some true; None; None; None; None; None; None], repeat true 8), [Some true; Some true; Some true; None; None; None; None; None], 1%nat, 5%nat)) as Ho by (vm_compute; reflexivity).
    destruct (driveV ws0 [] winit) as [[tr0 sb]|] eqn:E0; [|discriminate Ho].
    destruct (gdriveV gsA [] (prog_start K1 onV cV sb nxV)) as [[trA [wA sA]]|] eqn:EA; [|discriminate Ho].
    destruct (gdriveV gsB trA (wA, sA)) as [[trB [wB sB]]|] eqn:EB; [|discriminate Ho].
    destruct (gdriveV gsC trB (wB, sB)) as [[trC [wC sC]]|] eqn:EC; [|discriminate Ho].
    apply inj8 in Ho as (O1 & O2 & O3 & O4 & O5 & O6 & O7 & O8).
    pose proof (drive_chain K1 X0 U0 parse1 vcf winit _ _ _ _ _ E0 eq_refl) as C0.
    destruct (gdrive_sound K1 X0 U0 parse1 vcf onV cV (prog_start K1 onV cV sb nxV) _ _ _ _ _ EA ltac:(constructor)) as (RA & _).
    destruct (gdrive_sound K1 X0 U0 parse1 vcf onV cV (prog_start K1 onV cV sb nxV) _ _ _ _ _ EB RA) as (RB & xB & XB).
    destruct (gdrive_sound K1 X0 U0 parse1 vcf onV cV (prog_start K1 onV cV sb nxV) _ _ _ _ _ EC RB) as (RC & xC & XC).
    clear EA EB EC E0. exists (rev tr0.*1), sb, trA, wA, sA, xB, wB, sB, xC, wC, sC. rewrite <- !rev_app_distr, <- XB, <- XC.
    apply andb_true_iff in O1 as [O1 O1']. apply pair_equal_spec in O2 as [O2 O2c]. apply pair_equal_spec in O2 as [O2a O2b]. apply pair_equal_spec in O4 as [O4a O4b].
    split; [by apply chain_run|]. apply pair_equal_spec in O5 as [O5 O5b]. do 15 (split; [assumption|]). assumption.
  Qed.
  Lemma jwks_readyb s : forallb (fun t => match t with JRun _ _ => false | _ => true end) (j_tasks (y_jwk K1 s)) = true -> jwks_ready K1 s.
  Proof. intros H i todo fl Hi. rewrite forallb_forall in H. apply elem_of_list_lookup_2, elem_of_list_In in Hi. by apply H in Hi. Qed.
  Notation prog_runV sb := (prog_run K1 X0 U0 parse1 vcf onV cV (prog_start K1 onV cV sb nxV)).
  Example C95_nonvacuous : exists ls0 sb gs w s gs' w' s',
    System.yrun K1 X0 U0 parse1 vcf winit ls0 sb /\ keys_ready K1 sb (pick nxV DKeys) /\ jwks_ready K1 sb /\
    prog_runV sb gs (w, s) /\ at_rest K1 onV w s /\ s_got s = read_once /\
    prog_runV sb (gs ++ gs') (w', s') /\ s_loc s' = AEnd /\ s_got s' = read_once ++ [B "context canceled"] /\ (forall d, over K1 onV d w') /\ pick (w_nx K1 w') DKeys = 5%nat.
  Proof.
    destruct the_prog_run as (ls0 & sb & trA & wA & sA & trB & wB & sB & trC & wC & sC & H1 & H2 & H3 & H4 & H5 & H6 & H7 & H8 & H9 & H10 & H11 & H12 & H12b & H13 & H14 & H15 & H16).
    apply pair_equal_spec in H6 as [H6 G1]. apply pair_equal_spec in H6 as [L1 E1]. apply pair_equal_spec in H9 as [L2 G2].
    unfold locs in H7, H10. cbn [map] in H7, H10. apply list2 in H7 as [A1 A2]. apply list2 in H10 as [B1 B2]. unfold quietb in H8. cbn [forallb] in H8.
    assert (forall d, over K1 onV d wB) as Hov by (intros [| |] Hon; [discriminate Hon|exact B1|exact B2]).
    exists ls0, sb, (rev trA), wA, sA, (rev trB), wB, sB. split; [done|]. split; [by apply readyb_sound|]. split; [by apply jwks_readyb|]. split; [done|]. split.
    - split; [done|]. split; [done|]. intros [| |] Hon; [discriminate Hon|..].
      + split; [done|]. destruct (r_ech _) as [|]; [|discriminate H8]. destruct (r_buf _) as [|]; [done|discriminate H8].
      + split; [done|]. apply andb_true_iff in H8 as [_ H8]. destruct (r_ech _) as [|]; [|discriminate H8]. destruct (r_buf _) as [|]; [done|discriminate H8].
    - split; [done|]. split; [done|]. split; [done|]. split; [done|]. split; [done|].
      destruct (C95_no_refresh_after_the_end K1 X0 U0 parse1 vcf onV cV sb nxV _ _ _ _ _ _ DKeys H4 H5 (Hov DKeys)) as (_ & Hn & _). by rewrite <- Hn.
  Qed.
  (** Three refreshes of the keys and of the JWKs, none failing. *)
  Definition outcomes (d : daemon) (w : world K1) : list (option bool) :=
    map (fun m => match outcome_of K1 d (w_sys K1 w) m with Some (Ok _) => Some true | Some _ => Some false | None => None end) (seq 1 4).
  Example C95_quiet_nonvacuous : exists sb gs w s, prog_runV sb gs (w, s) /\ (forall e, ~ stopped K1 gs e) /\ outcomes DKeys w = [Some true; Some true; Some true; None] /\ outcomes DJwks w = [Some true; Some true; Some true; None] /\
    (forall d m e, onV d = true -> (pick nxV d <= m)%nat -> outcome_of K1 d (w_sys K1 w) m <> Some (Err e)).
  Proof.
    assert (match driveV ws0 [] winit with None => None | Some (tr0, sb) =>
      match gdriveV (map GW (wsA ++ wsC)) [] (prog_start K1 onV cV sb nxV) with None => None | Some (tr, (w, s)) =>
       Some (outcomes DKeys w, outcomes DJwks w, length (p_tasks (y_keys K1 (w_sys K1 w))), length (j_tasks (y_jwk K1 (w_sys K1 w))), forallb (fun l => match l with GCancel _ _ _ => false | _ => true end) tr, tt, tt, tt) end end =
      Some ([Some true; Some true; Some true; None], [Some true; Some true; Some true; None], 10%nat, 4%nat, true, tt, tt, tt)) as Ho by (vm_compute; reflexivity).
    destruct (driveV ws0 [] winit) as [[tr0 sb]|]; [|discriminate Ho].
    destruct (gdriveV (map GW (wsA ++ wsC)) [] (prog_start K1 onV cV sb nxV)) as [[tr [w s]]|] eqn:EA; [|discriminate Ho].
    apply inj8 in Ho as (O1 & O2 & O3 & O4 & O5 & _). destruct (gdrive_sound K1 X0 U0 parse1 vcf onV cV (prog_start K1 onV cV sb nxV) _ _ _ _ _ EA ltac:(constructor)) as (R & _). clear EA.
    exists sb, (rev tr), w, s. split; [done|]. split; [|split; [done|split; [done|]]].
    - intros e [t Ht]. rewrite forallb_forall in O5. apply elem_of_list_In, in_rev in Ht. by apply O5 in Ht.
    - intros d m e Hon Hm Ho. assert (outcomes d w = [Some true; Some true; Some true; None] /\ (m < 5)%nat /\ (1 <= m)%nat) as (Hd & Hlt & Hge).
      { destruct d; [discriminate Hon|..]; (split; [done|]); (split; [|exact Hm]); cbn [outcome_of] in Ho.
        - unfold update_result in Ho. destruct (p_tasks _ !! (2 * m)%nat) eqn:E; [apply lookup_lt_Some in E; lia|]. destruct (p_tasks _ !! (2 * m + 1)%nat) eqn:E'; [apply lookup_lt_Some in E'; lia|discriminate Ho].
        - destruct (j_tasks _ !! m) eqn:E; [|discriminate Ho]. apply lookup_lt_Some in E. lia. }
      clear -Ho Hd Hlt Hge. unfold outcomes in Hd. cbn [seq map] in Hd. injection Hd as D1 D2 D3 D4. destruct m as [|[|[|[|[|m]]]]]; try lia.
      + rewrite Ho in D1. discriminate D1.
      + rewrite Ho in D2. discriminate D2.
      + rewrite Ho in D3. discriminate D3.
      + rewrite Ho in D4. discriminate D4.
  Qed.
  (** Shutting down stops nothing but the refreshing: after Start has closed its channel and all daemons
      have ended a call is still accepted, by keys nobody refreshes, and its result is kept in the
      cache that was emptied. *)
  Theorem C95_still_accepts_after_the_end : exists sb gs w s gs' w' s' q p,
    prog_runV sb gs (w, s) /\ s_loc s = AEnd /\ (forall d, over K1 onV d w) /\ z_cache (y_auth K1 (w_sys K1 w)) = ∅ /\
    prog_runV sb (gs ++ gs') (w', s') /\ z_tasks (y_auth K1 (w_sys K1 w)) !! 2%nat = Some Authorizer.CIdle /\ z_tasks (y_auth K1 (w_sys K1 w')) !! 2%nat = Some (CDone q (Ok p)) /\
    z_cache (y_auth K1 (w_sys K1 w')) <> ∅.
  Proof.
    destruct the_prog_run as (ls0 & sb & trA & wA & sA & trB & wB & sB & trC & wC & sC & H1 & H2 & H3 & H4 & H5 & H6 & H7 & H8 & H9 & H10 & H11 & H12 & H12b & H13 & H14 & H15 & H16).
    apply pair_equal_spec in H9 as [L2 _]. unfold locs in H10. cbn [map] in H10. apply list2 in H10 as [B1 B2].
    assert (exists q p, z_tasks (y_auth K1 (w_sys K1 wC)) !! 2%nat = Some (CDone q (Ok p))) as (q & p & Hq).
    { clear -H13. unfold verdicts in H13. apply (f_equal (lookup 2%nat)) in H13. rewrite list_lookup_fmap in H13. destruct (z_tasks _ !! 2%nat) as [tk|]; [|discriminate H13]. cbn in H13.
      destruct tk as [| | | | | |q o]; try discriminate H13. destruct o as [p| |]; try discriminate H13. by exists q, p. }
    exists sb, (rev trA ++ rev trB), wB, sB, (rev trC), wC, sC, q, p. split; [done|]. split; [done|]. split; [intros [| |] Hon; [discriminate Hon|exact B1|exact B2]|]. split; [by apply map_size_empty_inv|]. split; [done|]. split; [|split; [done|]].
    - clear -H12 H12b. unfold verdicts in H12. unfold waiting in H12b. apply (f_equal (lookup 2%nat)) in H12, H12b. rewrite list_lookup_fmap in H12. rewrite list_lookup_fmap in H12b. destruct (z_tasks _ !! 2%nat) as [tk|]; [|discriminate H12]. cbn in H12, H12b.
      destruct tk as [| | | | | |q o]; try done. by destruct o.
    - intros Hc. unfold cached in H14. rewrite Hc in H14. discriminate H14.
  Qed.
End example.
Print Assumptions C95_what_is_read.
Print Assumptions C95_nothing_is_lost.
Print Assumptions C95_quiet.
Print Assumptions C95_cache_kept.
Print Assumptions C95_cache_emptied.
Print Assumptions C95_no_refresh_after_the_end.
Print Assumptions C95_nonvacuous.
Print Assumptions C95_still_accepts_after_the_end.
Print Assumptions C95_quiet_nonvacuous.
