(** * Property C103: a call waits for nobody *)
From Verif Require Import Hooked SystemFacts SystemExec PolicyCheckers Prop_System Prop_Window Prop_Expiry Prop_Revoke Prop_Entitled Prop_Crash Prop_Isolation GoStringsFacts.
From Verif Require Prop_PubKey Prop_Fetcher Prop_Role Prop_Access Prop_Authorizer PubKeyFacts.
From Verif Require Import PolicyCheckProofs GoStrings.

Section claims.
  Context (K : crypto) (X : jwt_ext) {O : Type} (U : unicode) (parse : str -> option (verifier K)).
  Context (cf : @sconf O) (doms : list str) (t0 : time) (n nk nj nu : nat) (calls : nat -> list bool).
  Notation s0 := (yinit K cf t0 n nk nj nu calls).
  Notation hrun := (hrun K X U parse cf doms (hinit K s0)).
  Notation hstep := (hstep K X U parse cf doms).
  Notation yrun := (yrun K X U parse cf s0).
  Notation ystep := (ystep K X U parse cf).
  Notation passed := (passed K X U parse cf s0).
  Notation hlabel := (@hlabel K O).
  Notation ylabel := (@ylabel K O).
  Notation hsys := (hsys K).
  Notation now := (now K).

  (** ** Specification *)
  (** The steps of call [i] after its beginning, those of the goroutines of its policy check included. *)
  Definition own_step (i : nat) (l : ylabel) : bool :=
    match l with
    | YAuth _ (ZLook _ j) | YAuth _ (ZParse _ j _) | YAuth _ (ZTrans _ j _) | YAuth _ (ZPolicy _ j _) | YAuth _ (ZStore _ j) | YLoad _ j => Nat.eqb i j
    | YChk _ j l => Nat.eqb i j && negb (is_env l)
    | _ => false
    end.
  Definition own_steps (i : nat) (ls : list ylabel) : nat := length (List.filter (own_step i) ls).
  (** Call [i] has begun and has not returned. *)
  Definition running (s : sys K) (i : nat) : Prop :=
    exists t, z_tasks (y_auth K s) !! i = Some t /\ match t with Authorizer.CIdle | CDone _ _ => False | _ => True end.
  Definition over (s : sys K) (i : nat) : Prop := exists q r, z_tasks (y_auth K s) !! i = Some (CDone q r).
  (** No list of assertions in a cache was ever longer than [m]. *)
  Definition lists_upto (ls : list ylabel) (m : nat) : Prop :=
    forall l1 s1 o c key l, passed ls l1 s1 -> y_objs K s1 !! o = Some c -> g_get (now s1) key (c_g c) = Some l -> (length l <= m)%nat.

  (** ** Facts *)
  Lemma own_steps_app i l1 l2 : own_steps i (l1 ++ l2) = (own_steps i l1 + own_steps i l2)%nat.
  Proof. unfold own_steps. by rewrite List.filter_app, app_length. Qed.
  Lemma objs_mono l s s' o : ystep l s s' -> is_Some (y_objs K s !! o) -> is_Some (y_objs K s' !! o).
  Proof.
    intros Hs Ho. rewrite lookup_lt_is_Some in *. destruct Hs; cbn; rewrite ?insert_length, ?app_length; lia.
  Qed.
  Lemma check_obj ls s i k : yrun ls s -> y_chk K s !! i = Some (Some k) -> is_Some (y_objs K s !! k_obj k).
  Proof.
    intros H. revert i k. induction H as [|ls l s s' H IH Hs]; intros i k Hk; [cbn in Hk; by apply lookup_replicate in Hk as [? _]|].
    eapply objs_mono; [exact Hs|]. destruct Hs; try (by eapply IH); cbn in Hk.
    - apply list_lookup_insert_Some in Hk as [(_ & Hk & _)|[_ Hk]]; [|by eapply IH]. injection Hk as <-. cbn. by eexists.
    - apply list_lookup_insert_Some in Hk as [(_ & Hk & _)|[_ Hk]]; [|by eapply IH]. injection Hk as <-. cbn. by eexists.
  Qed.
  Lemma step_heap domain roles action resource l s s' p : step U domain roles action resource l s = Some s' -> is_Some (s_heap s !! p) -> is_Some (s_heap s' !! p).
  Proof.
    intros Hs Hp. destruct l as [|q c|q c| | | |j|].
    2,3: destruct s as [h cu ca rp d wg wk ch cl mm pp rd]; unfold step in Hs; cbn in *; destruct pp; [done|]; destruct (h !! q); try done; injection Hs as <-; cbn;
      destruct (decide (q = p)) as [->|Hne]; [by rewrite lookup_insert|by rewrite lookup_insert_ne].
    all: destruct (step_same_heap _ _ _ _ _ _ _ _ Hs) as [-> _]; [done|done].
  Qed.
  Lemma run_heap domain roles action resource ls c0 c s : run U domain roles action resource ls (start roles c0 c) = Some s -> is_Some (s_heap s !! 0%nat).
  Proof.
    assert (is_Some (s_heap (start roles c0 c) !! 0%nat)) as H0 by (cbn; rewrite lookup_singleton; by eexists). revert H0.
    generalize (start roles c0 c). induction ls as [|l ls IH]; intros s1 H1 H; cbn [run] in H; [by injection H as <-|].
    destruct (step _ _ _ _ _ l s1) as [s2|] eqn:E; [|done]. eapply IH; [by eapply step_heap|exact H].
  Qed.
  Lemma mutate_enabled domain roles action resource ls c0 c s v : run U domain roles action resource ls (start roles c0 c) = Some s ->
    exists s', step U domain roles action resource (EnvMutate 0%nat v) s = Some s' /\ s_main s' = s_main s.
  Proof.
    intros H. pose proof (never_panics _ _ _ _ _ _ _ _ _ H) as Hp. destruct (run_heap _ _ _ _ _ _ _ _ H) as [x Hx]. unfold step. rewrite Hp.
    case_match eqn:E; [|pose proof (eq_trans (eq_sym E) Hx) as Hx2; discriminate Hx2]. eexists. split; [reflexivity|]. by destruct s.
  Qed.
  Lemma check_enabled ls s i k : yrun ls s -> y_chk K s !! i = Some (Some k) -> (forall r, ~ returned (k_st k) r) ->
    exists l s', is_env l = false /\ ystep (YChk K i l) s s'.
  Proof.
    intros H Hk Hn. destruct (checks_ok K X U parse cf t0 n nk nj nu calls _ _ H _ _ Hk) as [(c0 & kls & Hr & _) _].
    destruct (check_obj _ _ _ _ H Hk) as [c Hc]. destruct (mutate_enabled _ _ _ _ _ _ _ _ (g_view (now s) (c_g c)) Hr) as (k1 & Hm & Em).
    assert (run U (k_dom k) (k_roles k) (k_act k) (k_res k) (kls ++ [EnvMutate 0%nat (g_view (now s) (c_g c))]) (start (k_roles k) c0 false) = Some k1) as Hr1.
    { rewrite run_app, Hr. cbn [run]. by rewrite Hm. }
    destruct (run_inv _ _ _ _ _ _ _ _ _ _ _ (inv_init U (k_dom k) (k_roles k) (k_act k) (k_res k) _ _ false) Hr1) as (recvd & pend & Hinv).
    destruct (progress _ _ _ _ _ _ _ _ _ Hinv) as (l & k2 & Hl & Hst).
    { intros [[r Hq] _]. apply (Hn r). unfold returned. congruence. }
    exists l. eexists. split; [exact Hl|]. eapply S_chk; [exact Hk|by destruct l|exact Hc|]. cbn [run]. rewrite Hm. by rewrite Hst.
  Qed.

  Lemma next_step (o0 : O) ls s i : yrun ls s -> running s i -> exists l s', own_step i l = true /\ ystep l s s' /\
    ((exists j l', l = YChk K j l') -> exists q p a r, z_tasks (y_auth K s) !! i = Some (CCheck q p a r)).
  Proof.
    intros H (t & Hi & Ht). destruct t as [|q|q|q p|q p a r|q p|]; try done.
    - exists (YAuth K (ZLook K i)). eexists. split; [apply Nat.eqb_refl|]. split; [apply S_auth; [cbn; by rewrite Hi|done]|intros (? & ? & ?); done].
    - exists (YAuth K (ZParse K i (keys_now K cf s))). eexists. split; [apply Nat.eqb_refl|]. split; [apply S_auth; [cbn; by rewrite Hi|done]|intros (? & ? & ?); done].
    - exists (YAuth K (ZTrans K i o0)). eexists. split; [apply Nat.eqb_refl|]. split; [apply S_auth; [cbn; by rewrite Hi|done]|intros (? & ? & ?); done].
    - assert (is_Some (y_chk K s !! i)) as [[k|] Hk].
      { apply lookup_lt_is_Some. rewrite (chk_slots _ _ _ _ _ _ _ _ _ _ _ _ _ H). by eapply lookup_lt_Some. }
      + assert ((exists r', returned (k_st k) r') \/ forall r', ~ returned (k_st k) r') as [[r' Hr]|Hn].
        { unfold returned. destruct (s_main (k_st k)) as [| |r']; [by right|by right|left; by exists r']. }
        * exists (YAuth K (ZPolicy K i r')). eexists. split; [apply Nat.eqb_refl|]. split; [apply S_auth; [cbn; by rewrite Hi|by exists k]|intros (? & ? & ?); done].
        * destruct (check_enabled _ _ _ _ H Hk Hn) as (l & s' & Hl & Hs). exists (YChk K i l), s'. split; [cbn; by rewrite Nat.eqb_refl, Hl|]. split; [done|]. intros _. by eauto.
      + assert (is_Some (y_objs K s !! y_cur K s)) as [c Hc] by (apply lookup_lt_is_Some; by eapply cur_bound).
        exists (YLoad K i). eexists. split; [apply Nat.eqb_refl|]. split; [by eapply S_load|intros (? & ? & ?); done].
    - exists (YAuth K (ZStore K i)). eexists. split; [apply Nat.eqb_refl|]. split; [apply S_auth; [cbn; by rewrite Hi|done]|intros (? & ? & ?); done].
  Qed.

  (** ** Theorems *)
  (** A call that has begun and not returned can go on, by itself, in every state: whatever the daemons, the servers and
      the other calls are doing, or if they do nothing any more. *)
  Theorem C103_never_stuck (o0 : O) ls s i : yrun ls s -> running s i -> exists l s', own_step i l = true /\ ystep l s s'.
  Proof. intros H Hi. destruct (next_step o0 _ _ _ H Hi) as (l & s' & Ho & Hs & _). by exists l, s'. Qed.
  (** The same in the system with hooks, as long as the process has not crashed. *)
  Theorem C103_never_stuck_hooked (o0 : O) ls h i : hrun ls h -> h_down K h = false -> running (h_sys K h) i -> exists l h', own_step i l = true /\ hstep (HSys K l) h h'.
  Proof.
    intros Hr Hd Hi. destruct (C103_never_stuck o0 _ _ _ (C90_is_the_system _ _ _ _ _ _ _ _ _ _ _ _ _ _ Hr) Hi) as (l & y & Hl & Hs).
    exists l. eexists. split; [exact Hl|]. apply H_sys; [exact Hd| |exact Hs|].
    - by destruct l.
    - destruct Hs; try discriminate Hl; done.
  Qed.

  Definition zpot (t : ctask) : nat :=
    match t with Authorizer.CIdle | CLook _ => 5 | CParse _ => 4 | CTrans _ _ => 3 | CCheck _ _ _ _ => 2 | CStore _ _ => 1 | CDone _ _ => 0 end.
  Definition kpot (k : option chk) : nat := match k with Some k => pot (k_st k) | None => 0 end.
  Definition kmax (k : option chk) : nat := match k with Some k => 6 + 7 * length (k_roles k) + 2 * read_total (k_st k) | None => 0 end.
  Lemma zstep_pot l z z' i t t' : zstep K X (s_z cf) l z = Some z' -> z_tasks z !! i = Some t -> z_tasks z' !! i = Some t' ->
    ((if own_step i (YAuth K l) then 1 else 0) + zpot t' <= zpot t)%nat.
  Proof.
    intros Hst Hi Hi'. assert (forall j u v, z_tasks z !! j = Some u -> <[j := v]> (z_tasks z) !! i = Some t' -> (i = j -> (1 + zpot v <= zpot u)%nat) -> ((if Nat.eqb i j then 1 else 0) + zpot t' <= zpot t)%nat) as Hset.
    { intros j u v Hj Hx Hlt. destruct (Nat.eqb_spec i j) as [->|Hne].
      - rewrite list_lookup_insert in Hx by (by eapply lookup_lt_Some). assert (u = t) as -> by congruence. injection Hx as <-. by apply Hlt.
      - rewrite list_lookup_insert_ne in Hx by done. assert (t' = t) as -> by congruence. lia. }
    destruct l as [tt|j r|j|j ks|j o|j r|j|kk|]; cbn [zstep own_step] in *.
    - destruct (_ <=? _); [|done]. injection Hst as <-. cbn in Hi'. assert (t' = t) as -> by congruence. lia.
    - destruct (z_tasks z !! j) as [[| | | | | |]|] eqn:E; try done. injection Hst as <-. cbn in Hi'. destruct (decide (j = i)) as [->|Hne].
      + rewrite list_lookup_insert in Hi' by (by eapply lookup_lt_Some). rewrite E in Hi. injection Hi as <-. injection Hi' as <-. destruct (empty_params _ _); cbn; lia.
      + rewrite list_lookup_insert_ne in Hi' by done. assert (t' = t) as -> by congruence. lia.
    - destruct (z_tasks z !! j) as [[| | | | | |]|] eqn:E; try done. injection Hst as <-. eapply Hset; [exact E|exact Hi'|intros _; repeat case_match; cbn; lia].
    - destruct (z_tasks z !! j) as [[| | | | | |]|] eqn:E; try done. injection Hst as <-. eapply Hset; [exact E|exact Hi'|intros _; repeat case_match; cbn; lia].
    - destruct (z_tasks z !! j) as [[| | | | | |]|] eqn:E; try done. injection Hst as <-. eapply Hset; [exact E|exact Hi'|intros _; repeat case_match; cbn; lia].
    - destruct (z_tasks z !! j) as [[| | | | | |]|] eqn:E; try done. injection Hst as <-. eapply Hset; [exact E|exact Hi'|intros _; repeat case_match; cbn; lia].
    - destruct (z_tasks z !! j) as [[| | | | | |]|] eqn:E; try done. injection Hst as <-. eapply Hset; [exact E|exact Hi'|intros _; cbn; lia].
    - destruct (z_cache z !! kk); [|done]. destruct (g_valid _ _); [done|]. injection Hst as <-. cbn in Hi'. assert (t' = t) as -> by congruence. lia.
    - injection Hst as <-. cbn in Hi'. assert (t' = t) as -> by congruence. lia.
  Qed.
  Lemma zstep_len l z z' : zstep K X (s_z cf) l z = Some z' -> length (z_tasks z') = length (z_tasks z).
  Proof. intros Hz. destruct l; cbn [zstep] in Hz; repeat case_match; try done; injection Hz as <-; cbn [set_task z_tasks]; by rewrite ?insert_length. Qed.
  Lemma chk_pot ls s i l k c c' : yrun ls s -> y_chk K s !! i = Some (Some k) -> y_objs K s !! k_obj k = Some c ->
    run U (k_dom k) (k_roles k) (k_act k) (k_res k) [EnvMutate 0%nat (g_view (now s) (c_g c)); l] (k_st k) = Some c' ->
    (pot c' + (if is_env l then 0 else 1) + 2 * read_total (k_st k) <= pot (k_st k) + 2 * read_total c')%nat.
  Proof.
    intros H Hk Hc Hst. destruct (checks_ok K X U parse cf t0 n nk nj nu calls _ _ H _ _ Hk) as [(c0 & kls & Hr & _) _].
    destruct (run_inv _ _ _ _ _ _ _ _ _ _ _ (inv_init U (k_dom k) (k_roles k) (k_act k) (k_res k) _ _ false) Hr) as (recvd & pend & Hinv).
    pose proof (run_pot _ _ _ _ _ _ _ _ _ _ _ Hinv Hst) as Hp. cbn in Hp. destruct (is_env l); lia.
  Qed.
  Lemma own_inv ls s i t k : yrun ls s -> z_tasks (y_auth K s) !! i = Some t -> y_chk K s !! i = Some k ->
    (own_steps i ls + zpot t + kpot k <= 5 + kmax k)%nat.
  Proof.
    intros H. revert t k. induction H as [|ls l s s' H IH Hs]; intros t k Ht Hk.
    { cbn in Ht, Hk. apply lookup_replicate in Ht as [-> _], Hk as [-> _]. cbn. lia. }
    rewrite own_steps_app. unfold own_steps at 2. cbn [List.filter].
    destruct Hs; cbn [set_auth set_keys set_jwk set_fetch set_upd set_obj publish set_chk y_auth y_chk] in Ht, Hk;
      try (specialize (IH _ _ Ht Hk); cbn [own_step List.length]; lia).
    - assert (is_Some (z_tasks (y_auth K s) !! i)) as [t1 Ht1].
      { apply lookup_lt_is_Some. match goal with Hz : zstep _ _ _ _ _ = _ |- _ => rewrite <- (zstep_len _ _ _ Hz) end. by eapply lookup_lt_Some. }
      specialize (IH _ _ Ht1 Hk). match goal with Hz : zstep _ _ _ _ _ = _ |- _ => pose proof (zstep_pot _ _ _ _ _ _ Hz Ht1 Ht) as Hp end.
      destruct (own_step i (YAuth K l)); cbn [List.length]; lia.
    - cbn [own_step]. destruct (Nat.eqb_spec i i0) as [<-|Hne]; cbn [List.length].
      + rewrite list_lookup_insert in Hk by (by eapply lookup_lt_Some). injection Hk as <-. match goal with H2 : y_chk K s !! i = Some None |- _ => specialize (IH _ _ Ht H2) end.
        cbn [kpot kmax k_st k_roles] in *. unfold pot, start, read_total, init. cbn [s_work s_disp s_main s_chan s_reads dpot mpot List.length]. rewrite wsum_replicate, rsum_replicate. lia.
      + rewrite list_lookup_insert_ne in Hk by done. specialize (IH _ _ Ht Hk). lia.
    - cbn [own_step]. destruct (Nat.eqb_spec i i0) as [<-|Hne]; cbn [andb].
      + rewrite list_lookup_insert in Hk by (by eapply lookup_lt_Some). injection Hk as <-.
        match goal with H2 : y_chk K s !! i = Some (Some ?k), H3 : y_objs K s !! _ = Some ?c, H4 : run _ _ _ _ _ _ _ = _ |- _ => specialize (IH _ _ Ht H2); pose proof (chk_pot _ _ _ _ _ _ _ H H2 H3 H4) as Hp end.
        cbn [kpot kmax k_st k_roles] in *. destruct (is_env l); cbn [negb List.length]; lia.
      + rewrite list_lookup_insert_ne in Hk by done. specialize (IH _ _ Ht Hk). cbn [List.length]. lia.
  Qed.
  Lemma read_bound ls s i k m : yrun ls s -> y_chk K s !! i = Some (Some k) -> lists_upto ls m -> (read_total (k_st k) <= m * length (k_roles k))%nat.
  Proof.
    intros H Hk Hm. destruct (checks_ok K X U parse cf t0 n nk nj nu calls _ _ H _ _ Hk) as [(c0 & kls & Hr & Hv) _].
    assert (length (s_reads (k_st k)) = length (k_roles k)) as Hlen.
    { destruct (run_inv _ _ _ _ _ _ _ _ _ _ _ (inv_init U (k_dom k) (k_roles k) (k_act k) (k_res k) _ _ false) Hr) as (recvd & pend & Hinv).
      destruct (k_st k). by destruct Hinv as (_ & ? & _). }
    unfold read_total. rewrite <- Hlen. assert (Forall (fun o => rlen o <= m)%nat (s_reads (k_st k))) as Hf.
    { apply Forall_forall. intros o Ho. apply elem_of_list_lookup in Ho as [j Hj]. destruct o as [[l|]|]; cbn; [|lia|lia].
      destruct (lookup_lt_is_Some_2 (k_roles k) j) as [role Hrole]; [rewrite <- Hlen; by eapply lookup_lt_Some|].
      destruct (reads_version _ _ _ _ _ _ _ _ _ Hr _ _ _ Hj Hrole) as (cc & Hcc & Hl). destruct (Hv _ Hcc) as (l1 & s1 & obj & Hp & Ho & ->).
      rewrite g_view_lookup in Hl. by eapply Hm. }
    clear - Hf. induction Hf as [|o l Ho _ IH]; cbn [foldr List.length]; nia.
  Qed.
  (** It takes a bounded number of own steps in all, whatever else goes on in between: at most 5 before its policy check is
      made, then 7 for each role of the token and 2 for each assertion it reads, and 6 more. *)
  Theorem C103_bounded ls s i : yrun ls s ->
    match y_chk K s !! i with
    | Some (Some k) => (own_steps i ls <= 11 + 7 * length (k_roles k) + 2 * read_total (k_st k))%nat
    | Some None => (own_steps i ls <= 5)%nat
    | None => own_steps i ls = 0%nat
    end.
  Proof.
    intros H. destruct (y_chk K s !! i) as [k|] eqn:Hk.
    - assert (is_Some (z_tasks (y_auth K s) !! i)) as [t Ht].
      { apply lookup_lt_is_Some. rewrite <- (chk_slots _ _ _ _ _ _ _ _ _ _ _ _ _ H). by eapply lookup_lt_Some. }
      pose proof (own_inv _ _ _ _ _ H Ht Hk) as Hb. destruct k as [k|]; cbn [kmax kpot] in Hb; lia.
    - revert Hk. induction H as [|ls l s s' H IH Hs]; [done|]. intros Hk. rewrite own_steps_app.
      assert (y_chk K s !! i = None /\ own_step i l = false) as [Hk' Hl].
      { assert (forall t, z_tasks (y_auth K s) !! i = Some t -> y_chk K s !! i = None -> False) as Hno.
        { intros t Ht Hx. apply lookup_lt_Some in Ht. rewrite <- (chk_slots _ _ _ _ _ _ _ _ _ _ _ _ _ H) in Ht. apply lookup_ge_None in Hx. lia. }
        destruct Hs; cbn [set_auth set_keys set_jwk set_fetch set_upd set_obj publish set_chk y_chk] in Hk; try done.
        - split; [done|]. destruct (own_step i (YAuth K l)) eqn:El; [|done]. exfalso. destruct l; cbn [own_step] in El; try done; apply Nat.eqb_eq in El as <-;
            match goal with Hz : zstep _ _ _ _ _ = _ |- _ => cbn [zstep] in Hz end; destruct (z_tasks (y_auth K s) !! i) as [t|] eqn:Et; try done; by eapply Hno.
        - apply lookup_ge_None in Hk. rewrite insert_length in Hk. split; [by apply lookup_ge_None|]. cbn [own_step]. apply Nat.eqb_neq. intros ->.
          match goal with H2 : y_chk K s !! _ = Some None |- _ => apply lookup_lt_Some in H2; lia end.
        - apply lookup_ge_None in Hk. rewrite insert_length in Hk. split; [by apply lookup_ge_None|]. cbn [own_step]. apply andb_false_iff. left. apply Nat.eqb_neq. intros ->.
          match goal with H2 : y_chk K s !! _ = Some (Some _) |- _ => apply lookup_lt_Some in H2; lia end. }
      rewrite (IH Hk'). unfold own_steps. cbn [List.filter]. by rewrite Hl.
  Qed.
  Theorem C103_bounded_uniform ls s i k m : yrun ls s -> y_chk K s !! i = Some (Some k) -> lists_upto ls m ->
    (own_steps i ls <= 11 + (7 + 2 * m) * length (k_roles k))%nat.
  Proof.
    intros H Hk Hm. pose proof (C103_bounded _ _ i H) as Hb. rewrite Hk in Hb. pose proof (read_bound _ _ _ _ _ H Hk Hm). nia.
  Qed.

  Lemma lists_bounded ls s : yrun ls s -> exists m, lists_upto ls m.
  Proof.
    assert (forall g : gache (list assertion), exists m, forall k e, g !! k = Some e -> (length (ge_val e) <= m)%nat) as Hg.
    { intros g. induction g as [|k e g Hk [m IH]] using map_ind; [exists 0%nat; intros k e; by rewrite lookup_empty|].
      exists (Nat.max (length (ge_val e)) m). intros k' e' H. apply lookup_insert_Some in H as [[<- <-]|[_ H]]; [lia|]. specialize (IH _ _ H). lia. }
    assert (forall os : list cst, exists m, forall o c k e, os !! o = Some c -> c_g c !! k = Some e -> (length (ge_val e) <= m)%nat) as Ho.
    { induction os as [|c os [m IH]]; [by exists 0%nat|]. destruct (Hg (c_g c)) as [m' Hm]. exists (Nat.max m m'). intros [|o] c' k e Hc He.
      - injection Hc as <-. specialize (Hm _ _ He). lia.
      - specialize (IH _ _ _ _ Hc He). lia. }
    assert (forall ls s, yrun ls s -> exists m, forall l1 s1, passed ls l1 s1 -> forall o c k e, y_objs K s1 !! o = Some c -> c_g c !! k = Some e -> (length (ge_val e) <= m)%nat) as Hall.
    { clear ls s. intros ls. induction ls as [|l ls IH] using rev_ind; intros s H.
      - exists 0%nat. intros l1 s1 [[l2 Hl] H1] o c k e Hc He. symmetry in Hl. apply app_eq_nil in Hl as [-> ->]. inversion H1; subst; [|by destruct ls].
        cbn in Hc. apply list_lookup_singleton_Some in Hc as [_ <-]. cbn in He. by rewrite lookup_empty in He.
      - apply yrun_snoc in H as (s1 & H & Hs). destruct (IH _ H) as [m Hm]. destruct (Ho (y_objs K s)) as [m' Hm']. exists (Nat.max m m').
        intros l1 s2 [[l2 Hl] H2] o c k e Hc He. destruct l2 as [|x l2 _] using rev_ind.
        + rewrite app_nil_r in Hl. subst l1. apply yrun_snoc in H2 as (s1' & H1' & Hs'). assert (s1' = s1) as -> by (by eapply yrun_det).
          assert (s2 = s) as -> by (by eapply ystep_det). specialize (Hm' _ _ _ _ Hc He). lia.
        + rewrite app_assoc in Hl. apply app_inj_tail in Hl as [-> ->]. specialize (Hm _ _ (conj (ex_intro _ l2 eq_refl) H2) _ _ _ _ Hc He). lia. }
    intros H. destruct (Hall _ _ H) as [m Hm]. exists m. intros l1 s1 o c key l Hp Hc Hl. unfold g_get in Hl. destruct (c_g c !! key) as [e|] eqn:E; [|done].
    destruct (g_valid _ e); [|done]. injection Hl as <-. by eapply Hm.
  Qed.
  Lemma own_same i l s s' : own_step i l = true -> ystep l s s' -> y_objs K s' = y_objs K s /\ now s' = now s.
  Proof.
    intros Ho Hs. destruct Hs; try discriminate Ho; try done. split; [done|]. unfold System.now. cbn.
    match goal with Hz : zstep _ _ _ _ _ = _ |- _ => rename Hz into Hst end. destruct l as [| |j|j ks|j o|j r|j| |]; try discriminate Ho; cbn [zstep] in Hst;
      (destruct (z_tasks (y_auth K s) !! j) as [[| | | | | |]|]; try done; by injection Hst as <-).
  Qed.
  Lemma lists_own ls s i l s' m : yrun ls s -> own_step i l = true -> ystep l s s' -> lists_upto ls m -> lists_upto (ls ++ [l]) m.
  Proof.
    intros H Ho Hs Hm l1 s1 o c key v [[l2 Hl] H1] Hc Hv. destruct l2 as [|x l2 _] using rev_ind.
    - rewrite app_nil_r in Hl. subst l1. assert (s1 = s') as -> by (eapply yrun_det; [exact H1|by eapply Y_snoc]). destruct (own_same _ _ _ _ Ho Hs) as [E1 E2].
      rewrite E1 in Hc. rewrite E2 in Hv. eapply (Hm ls s); [|exact Hc|exact Hv]. split; [exists []; by rewrite app_nil_r|done].
    - rewrite app_assoc in Hl. apply app_inj_tail in Hl as [-> ->]. eapply (Hm l1 s1); [|exact Hc|exact Hv]. split; [by eexists|done].
  Qed.
  Lemma own_next (o0 : O) ls s i t q : yrun ls s -> z_tasks (y_auth K s) !! i = Some t -> req_of t = Some q -> (forall q r, t <> CDone q r) ->
    exists l s' t', own_step i l = true /\ ystep l s s' /\ yrun (ls ++ [l]) s' /\ z_tasks (y_auth K s') !! i = Some t' /\ req_of t' = Some q /\
      ((zpot t' < zpot t)%nat \/ (t' = t /\ (exists q p a r, t = CCheck q p a r) /\ exists k', y_chk K s' !! i = Some (Some k') /\ forall k, y_chk K s !! i = Some (Some k) -> k_roles k' = k_roles k)).
  Proof.
    intros H Ht Hq Hd. destruct (next_step o0 _ _ i H) as (l & s' & Ho & Hs & Hc).
    { exists t. split; [done|]. destruct t; try done. by eapply Hd. }
    assert (yrun (ls ++ [l]) s') as H' by (by eapply Y_snoc). exists l, s'.
    destruct Hs; try discriminate Ho.
    - match goal with Hz : zstep _ _ _ _ _ = _ |- _ => destruct (zstep_req _ _ _ _ _ _ _ _ _ Hz Ht Hq) as (t' & Ht' & Hq'); pose proof (zstep_pot _ _ _ _ _ _ Hz Ht Ht') as Hp end.
      exists t'. split; [done|]. split; [by apply S_auth|]. split; [done|]. split; [done|]. split; [done|]. left. rewrite Ho in Hp. lia.
    - cbn [own_step] in Ho. apply Nat.eqb_eq in Ho as <-. exists t. split; [apply Nat.eqb_refl|]. split; [by eapply S_load|]. split; [done|]. split; [done|]. split; [done|]. right.
      split; [done|]. split; [rewrite Ht in *; match goal with Hx : Some t = Some _ |- _ => injection Hx as -> end; by eauto|].
      cbn. rewrite list_lookup_insert by (by eapply lookup_lt_Some). eexists. split; [done|]. congruence.
    - cbn [own_step] in Ho. apply andb_true_iff in Ho as [Hj Hl]. apply Nat.eqb_eq in Hj as <-. exists t. split; [cbn; by rewrite Nat.eqb_refl|]. split; [by eapply S_chk|]. split; [done|]. split; [done|]. split; [done|]. right.
      destruct Hc as (q1 & p1 & a1 & r1 & Hc); [by eauto|]. assert (t = CCheck q1 p1 a1 r1) as -> by congruence. split; [done|]. split; [by eauto|].
      cbn. rewrite list_lookup_insert by (by eapply lookup_lt_Some). eexists. split; [done|]. cbn. congruence.
  Qed.
  Lemma finish_check (o0 : O) m b ls s i t q k : yrun ls s -> lists_upto ls m -> z_tasks (y_auth K s) !! i = Some t -> req_of t = Some q -> (exists q p a r, t = CCheck q p a r) ->
    y_chk K s !! i = Some (Some k) -> (11 + (7 + 2 * m) * length (k_roles k) - own_steps i ls <= b)%nat ->
    exists ls' s' t', yrun (ls ++ ls') s' /\ Forall (fun l => own_step i l = true) ls' /\ z_tasks (y_auth K s') !! i = Some t' /\ req_of t' = Some q /\ (zpot t' < zpot t)%nat.
  Proof.
    revert ls s k. induction b as [|b IH]; intros ls s k H Hm Ht Hq Hc Hk Hb.
    all: destruct (own_next o0 _ _ _ _ _ H Ht Hq) as (l & s1 & t1 & Ho & Hs & H1 & Ht1 & Hq1 & [Hlt|(-> & _ & k1 & Hk1 & Hr)]); [by destruct Hc as (? & ? & ? & ? & ->)| |].
    1,3: exists [l], s1, t1; split; [done|]; split; [by constructor|done].
    all: specialize (Hr _ Hk); pose proof (lists_own _ _ _ _ _ _ H Ho Hs Hm) as Hm1; pose proof (C103_bounded_uniform _ _ _ _ _ H1 Hk1 Hm1) as Hb1; rewrite own_steps_app, Hr in Hb1;
      unfold own_steps at 2 in Hb1; cbn [List.filter] in Hb1; rewrite Ho in Hb1; cbn [List.length] in Hb1.
    - lia.
    - destruct (IH _ _ _ H1 Hm1 Ht1 Hq1 Hc Hk1) as (ls' & s2 & t2 & H2 & Hf & Hx).
      { rewrite own_steps_app, Hr. unfold own_steps at 2. cbn [List.filter]. rewrite Ho. cbn [List.length]. lia. }
      exists (l :: ls'), s2, t2. rewrite <- app_assoc in H2. split; [exact H2|]. split; [by constructor|done].
  Qed.
  (** From wherever it is, a call comes to its end by its own steps alone: if from now on nobody else does anything, it
      still returns.  So no call waits for Athenz, for a refresh, or for another call. *)
  Theorem C103_finishes_alone (o0 : O) ls s i : yrun ls s -> running s i ->
    exists ls' s', yrun (ls ++ ls') s' /\ Forall (fun l => own_step i l = true) ls' /\ over s' i.
  Proof.
    intros H (t & Ht & Hrun). assert (exists q, req_of t = Some q) as [q Hq] by (destruct t; [done|by eexists..]). clear Hrun. remember (zpot t) as z eqn:Ez. revert ls s t H Ht Hq Ez.
    induction (lt_wf z) as [z _ IH]; intros ls s t H Ht Hq Ez.
    assert ((exists q r, t = CDone q r) \/ ~ exists q r, t = CDone q r) as [(q' & r & ->)|Hnd] by (destruct t; [right; by intros (? & ? & ?)..|left; by eauto]); [exists [], s; rewrite app_nil_r; split; [done|]; split; [constructor|by exists q', r]|].
    assert (forall ls1 s1 t1, yrun (ls ++ ls1) s1 -> Forall (fun l => own_step i l = true) ls1 -> z_tasks (y_auth K s1) !! i = Some t1 -> req_of t1 = Some q -> (zpot t1 < zpot t)%nat ->
      exists ls' s', yrun (ls ++ ls') s' /\ Forall (fun l => own_step i l = true) ls' /\ over s' i) as Hgo.
    { intros ls1 s1 t1 H1 Hf1 Ht1 Hq1 Hlt. destruct (IH (zpot t1) ltac:(lia) _ _ _ H1 Ht1 Hq1 eq_refl) as (ls' & s' & H' & Hf & Hov).
      exists (ls1 ++ ls'), s'. rewrite app_assoc. split; [done|]. split; [by apply Forall_app|done]. }
    destruct (own_next o0 _ _ _ _ _ H Ht Hq) as (l & s1 & t1 & Ho & Hs & H1 & Ht1 & Hq1 & [Hlt|(-> & Hc & k1 & Hk1 & _)]); [intros q' r ->; apply Hnd; by eauto| |].
    - eapply (Hgo [l]); [done|by constructor|done..].
    - destruct (lists_bounded _ _ H1) as [m Hm]. destruct (finish_check o0 m _ _ _ _ _ _ _ H1 Hm Ht1 Hq1 Hc Hk1 (le_n _)) as (ls' & s2 & t2 & H2 & Hf & Ht2 & Hq2 & Hlt).
      rewrite <- app_assoc in H2. eapply (Hgo ([l] ++ ls')); [exact H2|by constructor|done..].
  Qed.
End claims.

Section example.
  Import Prop_PubKey Prop_Fetcher Prop_Authorizer Prop_Access.
  (** A policy is loaded, a download hangs; a call has loaded the cache and started one of its goroutines. *)
  Definition fcmds : list (@cmd unit) :=
    keys_cmds 0 (B "ZTSKEY") ++ keys_cmds 1 (B "ZMSKEY") ++
    [DSend 0 0; DReply 0 0 (Response 200 (B "a") (Doc (pol1 (B "dom") wdoc (60 * second)))); SystemExec.DSpawn 0; DTake 0 0 0] ++ replicate 5 (DWork 0 0) ++ [DFinish 0; DSend 0 1] ++
    [DCall 0 (rq (B "/x") []); DLook 0; DParse 0; DTrans 0 tt; DLoad 0] ++ map (DChk 0) [LLoad; LSpawn].
  Definition hangs (s : sys K1) : bool :=
    match y_fetch K1 s !! 0%nat with Some f => match fs_calls f !! 1%nat with Some (FSent _ _ _ _) => true | _ => false end | None => false end.
  Example C103_nonvacuous : exists ls s ls' s',
    System.yrun K1 X0 U0 parse1 wcf winit ls s /\ running K1 s 0 /\ hangs s = true /\ own_steps K1 0 ls = 6%nat /\
    System.yrun K1 X0 U0 parse1 wcf winit (ls ++ ls') s' /\ Forall (fun l => own_step K1 0 l = true) ls' /\ over K1 s' 0.
  Proof.
    assert (match drive K1 X0 U0 parse1 wcf fcmds [] winit with
      | Some (tr, s) => Some (match z_tasks (y_auth K1 s) !! 0%nat with Some (CCheck _ _ _ _) => true | _ => false end, hangs s, own_steps K1 0 (rev tr.*1))
      | None => None end = Some (true, true, 6%nat)) as H by (vm_compute; reflexivity).
    destruct (drive K1 X0 U0 parse1 wcf fcmds [] winit) as [[tr s]|] eqn:E; [|discriminate H]. pose proof (drive_run _ _ _ _ _ _ _ _ _ E) as [Hr _]. clear E.
    assert (forall A C D (a a' : A) (b b' : C) (c c' : D), Some (a, b, c) = Some (a', b', c') -> a = a' /\ b = b' /\ c = c') as Hinj.
    { clear. intros. injection H as -> -> ->. done. }
    apply Hinj in H as (H0 & H1 & H2). destruct (z_tasks (y_auth K1 s) !! 0%nat) as [[| | | |q p a r| |]|] eqn:E0; try discriminate H0.
    assert (running K1 s 0) as Hrun by (eexists; split; [exact E0|exact Logic.I]).
    destruct (C103_finishes_alone _ _ _ _ _ _ _ _ _ _ _ tt _ _ _ Hr Hrun) as (ls' & s' & H' & Hf & Hov).
    exists (rev tr.*1), s, ls', s'. split; [exact Hr|]. split; [exact Hrun|]. split; [exact H1|]. split; [exact H2|]. split; [exact H'|]. split; [exact Hf|exact Hov].
  Qed.
  (** A whole call with two roles and two assertions read: 25 own steps, by the bound at most 29. *)
  Example C103_bounded_nonvacuous : exists ls s k,
    System.yrun K1 X0 U0 parse1 wcf winit ls s /\ y_chk K1 s !! 0%nat = Some (Some k) /\ over K1 s 0 /\ length (k_roles k) = 2%nat /\ read_total (k_st k) = 2%nat /\ own_steps K1 0 ls = 25%nat.
  Proof.
    assert (match drive K1 X0 U0 parse1 wcf (firstn (length fcmds - 7) fcmds ++ wcall 0 8 3 3 (rq (B "/x") []) ++ [DStore 0]) [] winit with
      | Some (tr, s) => match z_tasks (y_auth K1 s) !! 0%nat with Some (CDone _ _) => match y_chk K1 s !! 0%nat with Some (Some k) => Some (length (k_roles k), read_total (k_st k), own_steps K1 0 (rev tr.*1)) | _ => None end | _ => None end
      | None => None end = Some (2%nat, 2%nat, 25%nat)) as H by (vm_compute; reflexivity).
    destruct (drive K1 X0 U0 parse1 wcf _ [] winit) as [[tr s]|] eqn:E; [|discriminate H]. pose proof (drive_run _ _ _ _ _ _ _ _ _ E) as [Hr _]. clear E.
    assert (forall A C D (a a' : A) (b b' : C) (c c' : D), Some (a, b, c) = Some (a', b', c') -> a = a' /\ b = b' /\ c = c') as Hinj.
    { clear. intros. injection H as -> -> ->. done. }
    destruct (z_tasks (y_auth K1 s) !! 0%nat) as [[| | | | | |q r]|] eqn:E0; try discriminate H. destruct (y_chk K1 s !! 0%nat) as [[k|]|] eqn:E1; try discriminate H. apply Hinj in H as (H0 & H1 & H2).
    exists (rev tr.*1), s, k. split; [exact Hr|]. split; [exact E1|]. split; [by exists q, r|]. split; [exact H0|]. split; [exact H1|exact H2].
  Qed.
End example.

Print Assumptions C103_never_stuck.
Print Assumptions C103_never_stuck_hooked.
Print Assumptions C103_bounded.
Print Assumptions C103_bounded_uniform.
Print Assumptions C103_finishes_alone.
Print Assumptions C103_nonvacuous.
Print Assumptions C103_bounded_nonvacuous.
