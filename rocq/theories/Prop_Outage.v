(** * Property C98: an outage of Athenz takes nothing away *)
From Verif Require Import Prop_Jwk Prop_System Prop_Revoke SystemFacts PubKeyFacts Prop_Entitled Prop_KeyRevoke Prop_Grant Hooked.
From Verif Require Prop_Expiry.
From Verif Require Import GoStrings.

Section claims.
  Context (K : crypto) (X : jwt_ext) {O : Type} (U : unicode) (parse : str -> option (verifier K)).
  Context (cf : @sconf O) (t0 : time) (n nk nj nu : nat) (calls : nat -> list bool).
  Notation s0 := (yinit K cf t0 n nk nj nu calls).
  Notation yrun := (yrun K X U parse cf s0).
  Notation ystep := (ystep K X U parse cf).
  Notation happened := (happened K X U parse cf s0).
  Notation passed := (passed K X U parse cf s0).
  Notation published_by := (published_by K X U parse cf s0).
  Notation took := (took K X U parse cf s0).
  Notation served_at := (served_at K X U parse cf t0 n nk nj nu calls).
  Notation own_calls := (own_calls K X U parse cf t0 n nk nj nu calls).
  Notation valid_token := (valid_token K X cf).
  Notation ylabel := (@ylabel K O).
  Notation now := (now K).

  (** ** Specification *)
  (** What a server that is down, or something in its place, answers: nothing, an error status, or a
      page that is no JSON. *)
  Definition no_answer {A} (r : response A) : Prop :=
    match r with
    | Failed _ => True
    | Response status _ b => status <> 304 /\ (status = 200 -> b = BadBody)
    end.
  (** During [x] Athenz is down: no policy, no list of public keys and no key set is received. *)
  Definition outage (x : list ylabel) : Prop :=
    (forall d i r, YReply K d i r ∈ x -> no_answer r) /\
    (forall i r t, YKey K (PResp i r t) ∈ x -> no_answer r) /\
    (forall i u r, YJwk K (JFetch i u r) ∈ x -> r = None).
  (** No Update of the policies is under way. *)
  Definition quiet (s : sys K) : Prop := forall m u, y_upd K s !! m = Some u -> u_spawned u = 0%nat \/ u_ret u <> None.
  (** State [s] with nothing changed but the clock. *)
  Definition clock_at (t : time) (s : sys K) : sys K := set_auth K (ZSt (z_cache (y_auth K s)) t (z_tasks (y_auth K s))) s.
  (** The policies the authorizer has in state [s] satisfy [P]: those its current cache was made from,
      and the copies its fetchers keep. *)
  Definition has_policies (lr : list ylabel) (s : sys K) (P : nat -> signed_policy -> Prop) : Prop :=
    y_cur K s <> 0%nat /\
    (forall m w exp doc t, published_by lr m (y_cur K s) -> took lr m w exp doc t -> exists sp, P w sp /\ content sp exp doc) /\
    (forall d f tp, y_fetch K s !! d = Some f -> fs_cache f = Some tp -> P d (t_sp tp)).

  (** ** Keys and copies stay *)
  Lemma outage_app x y : outage (x ++ y) -> outage x /\ outage y.
  Proof. intros (H1 & H2 & H3). split; (split; [|split]); intros; [eapply H1|eapply H2|eapply H3|eapply H1|eapply H2|eapply H3]; apply elem_of_app; eauto. Qed.

  (** In an outage no run of the key daemon comes to apply anything: the keys stay as they are. *)
  Lemma keys_stay z lr sr x s : yrun lr sr -> settled K sr z -> yrun (lr ++ x) s -> outage x ->
    settled K s z /\ keys_at z (y_keys K s) = keys_at z (y_keys K sr).
  Proof.
    intros Hr Hset. revert s. induction x as [|l x IH] using rev_ind; intros s H Ho.
    - rewrite app_nil_r in H. assert (sr = s) as -> by (by eapply yrun_det). done.
    - apply outage_app in Ho as [Ho Hl]. rewrite app_assoc in H. apply yrun_snoc in H as (s2 & H2 & Hs). destruct (IH _ H2 Ho) as [IHs IHk]. clear IH.
      destruct Hs as [| s l k Hk _ | | | | | | | | | | |]; cbn [set_auth set_keys set_jwk set_fetch set_upd set_obj publish set_chk y_keys]; try done.
      rewrite <- IHk. unfold settled in *. cbn [set_keys y_keys].
      destruct Hl as (_ & Hl & _).
      assert (forall i t' g, p_tasks k = <[i := t']> (p_tasks (y_keys K s)) -> applying t' = false ->
        keys_at z k = keys_at z g -> (forall j t, Nat.even j = z -> p_tasks k !! j = Some t -> applying t = false) /\ keys_at z k = keys_at z g) as Hgo.
      { intros i t' g E Ha Eg. split; [|done]. intros j t Hj Ht. rewrite E in Ht. apply list_lookup_insert_Some in Ht as [(<- & <- & _)|[_ Ht]]; [done|by eapply IHs]. }
      assert (forall i t' m, p_tasks (y_keys K s) !! i = Some t' -> applying t' = true ->
        keys_at z (with_keys (is_zts i) m (y_keys K s)) = keys_at z (y_keys K s) /\ is_zts i <> z) as Hno.
      { intros i t' m Ht Ha. assert (is_zts i <> z) as Hz by (intros Hz; by rewrite (IHs i t') in Ha). split; [|done]. by destruct (is_zts i), z. }
      assert (forall i t', is_zts i <> z -> (forall j t, Nat.even j = z -> (<[i := t']> (p_tasks (y_keys K s))) !! j = Some t -> applying t = false)) as Hoth.
      { intros i t' Hz j t Hj Ht. apply list_lookup_insert_Some in Ht as [(<- & <- & _)|[_ Ht]]; [done|by eapply IHs]. }
      destruct l as [i t|i r t|i kk|i kk|i]; cbn [pstep] in Hk.
      + destruct (p_tasks (y_keys K s) !! i) as [[]|]; try done. injection Hk as <-. eapply Hgo; [done|by destruct (pc_url_ok _)|done].
      + destruct (p_tasks (y_keys K s) !! i) as [[| c| | | |]|]; try done.
        destruct (respond parse c r) as [t' c'] eqn:E. injection Hk as <-. eapply Hgo; [done| |by destruct c', z].
        specialize (Hl i r t ltac:(by left)). clear -E Hl. destruct r as [e|status tag b]; cbn in E; [by injection E as <- _|].
        destruct Hl as [H1 H2]. destruct (Z.eqb_spec status 304); [done|]. destruct (Z.eqb_spec status 200); cbn [negb] in E; [|by injection E as <- _].
        rewrite (H2 e) in E. by injection E as <- _.
      + destruct (p_tasks (y_keys K s) !! i) as [[| |cm todo| | |]|] eqn:Et; try done. destruct (todo !! kk) as [v|]; [|done]. injection Hk as <-.
        destruct (Hno _ _ (<[kk := v]> (keys_at (is_zts i) (y_keys K s))) Et eq_refl) as [E1 E2].
        split; [|rewrite <- E1; by destruct z]. intros j t Hj Ht. apply (Hoth i (PStore cm (delete kk todo)) E2 j t Hj). by destruct (is_zts i).
      + destruct (p_tasks (y_keys K s) !! i) as [[| | |cm todo| |]|] eqn:Et; try done. destruct (decide (kk ∈ todo)); [|done]. injection Hk as <-.
        destruct (Hno _ _ (match cm !! kk with Some _ => keys_at (is_zts i) (y_keys K s) | None => delete kk (keys_at (is_zts i) (y_keys K s)) end) Et eq_refl) as [E1 E2].
        split; [|rewrite <- E1; by destruct z]. intros j t Hj Ht. apply (Hoth i (PSweep cm (todo ∖ {[kk]})) E2 j t Hj). by destruct (is_zts i).
      + destruct (p_tasks (y_keys K s) !! i) as [[| |cm todo|cm todo| |]|] eqn:Et; try done; (destruct (decide (todo = ∅)); [|done]); injection Hk as <-;
        (destruct (Hno _ _ ∅ Et eq_refl) as [_ E2]); (split; [|by destruct z]); intros j t Hj Ht; by apply (Hoth i _ E2 j t Hj Ht).
  Qed.
  Lemma key_sets_stay lr sr x s : yrun lr sr -> yrun (lr ++ x) s -> outage x -> j_keys (y_jwk K s) = j_keys (y_jwk K sr).
  Proof.
    intros Hr. revert s. induction x as [|l x IH] using rev_ind; intros s H Ho.
    - rewrite app_nil_r in H. by assert (sr = s) as -> by (by eapply yrun_det).
    - apply outage_app in Ho as [Ho (_ & _ & Hl)]. rewrite app_assoc in H. apply yrun_snoc in H as (s2 & H2 & Hs). rewrite <- (IH _ H2 Ho). clear IH.
      destruct Hs as [| |s l j Hj| | | | | | | | | |]; try done. cbn [set_jwk y_jwk].
      destruct l as [i|i u r|i]; cbn [jstep] in Hj; [by repeat (case_match; try done); injection Hj as <-| |by repeat (case_match; try done); injection Hj as <-].
      rewrite (Hl i u r ltac:(by left)) in Hj. by repeat (case_match; try done); injection Hj as <-.
  Qed.
  Lemma copies_stay lr sr x s d f : yrun lr sr -> yrun (lr ++ x) s -> outage x -> y_fetch K s !! d = Some f ->
    exists f0, y_fetch K sr !! d = Some f0 /\ fs_cache f = fs_cache f0.
  Proof.
    intros Hr. revert s f. induction x as [|l x IH] using rev_ind; intros s f H Ho Hf.
    - rewrite app_nil_r in H. assert (sr = s) as -> by (by eapply yrun_det). eauto.
    - apply outage_app in Ho as [Ho (Hl & _)]. rewrite app_assoc in H. apply yrun_snoc in H as (s2 & H2 & Hs).
      destruct Hs as [| | |s d' i fc f1 f' Hc Hf1 Hst|s d' i r fc f1 f' Hc Hf1 Hst| | | | | | | |]; try (by eapply IH);
        cbn [set_fetch y_fetch] in Hf; (apply list_lookup_insert_Some in Hf as [(<- & <- & _)|[_ Hf]]; [|by eapply IH]).
      + destruct (IH _ _ H2 Ho Hf1) as (f0 & H0 & E0). exists f0. split; [done|]. rewrite <- E0. clear -Hst. cbn [fstep] in Hst. by repeat (case_match; try done); injection Hst as <-.
      + destruct (IH _ _ H2 Ho Hf1) as (f0 & H0 & E0). exists f0. split; [done|]. rewrite <- E0. specialize (Hl d' i r ltac:(by left)). clear -Hst Hl. cbn [fstep] in Hst.
        destruct (fs_calls f1 !! i) as [[| |retry tp inm at_| |]|]; try done.
        destruct (fetch_response K fc tp (get_pub_key (y_keys K s)) (now s) r) as [res upd] eqn:E. injection Hst as <-. cbn [fs_cache].
        assert (upd = None) as ->; [|done]. destruct r as [e|status tag b]; cbn in E; [by injection E as _ <-|].
        destruct Hl as [H1 H2]. destruct (Z.eqb_spec status 304); [done|]. destruct (Z.eqb_spec status 200); cbn [negb] in E; [|by injection E as _ <-].
        rewrite (H2 e) in E. by injection E as _ <-.
  Qed.

  (** Which tokens are valid: the same as at the start of the outage, but for the time. *)
  Theorem C98_tokens_stay_valid lr sr x s q p : yrun lr sr -> settled K sr true -> yrun (lr ++ x) s -> outage x ->
    valid_token s q p <-> valid_token (clock_at (now s) sr) q p.
  Proof.
    intros Hr Hset H Ho. destruct (keys_stay true _ _ _ _ Hr Hset H Ho) as [_ Ek]. pose proof (key_sets_stay _ _ _ _ Hr H Ho) as Ej.
    assert (forall id, get_pub_key (y_keys K s) EnvZTS id = get_pub_key (y_keys K sr) EnvZTS id) as Eg.
    { intros id. change EnvZTS with (Prop_PubKey.env_of true). by rewrite !Prop_PubKey.get_pub_key_at, Ek. }
    assert (get_key (s_j cf) (y_jwk K s) = get_key (s_j cf) (y_jwk K sr)) as Eq by (unfold get_key; by rewrite Ej).
    unfold Prop_Entitled.valid_token. destruct (q_mode q).
    - split; intros [? (fs & sig & v & H1 & H2 & H3 & H4 & H5 & H6)]; (split; [done|]); exists fs, sig, v; (do 4 (split; [done|])); (split; [|done]).
      + cbn [clock_at set_auth y_keys]. by rewrite <- Eg.
      + cbn [clock_at set_auth y_keys] in H5. by rewrite Eg.
    - unfold valid_access. change (y_jwk K (clock_at (now s) sr)) with (y_jwk K sr). rewrite Eq. done.
  Qed.
  (** What the policy fetchers return: no policy but the copy held at the start of the outage. *)
  Definition held (sr : sys K) (d : nat) (sp : signed_policy) : Prop := exists f tp, y_fetch K sr !! d = Some f /\ fs_cache f = Some tp /\ sp = t_sp tp.
  Lemma served_copies lr sr x : yrun lr sr -> outage x -> served_at (lr ++ x) lr (held sr).
  Proof.
    intros Hr Ho. assert (forall l y s', happened (lr ++ x) l (lr ++ y) s' -> l ∈ x /\ yrun (lr ++ y) s' /\ outage y) as Hin.
    { intros l y s' [[z Hz] Hy]. rewrite <- app_assoc in Hz. apply app_inv_head in Hz. subst x. apply outage_app in Ho as [Ho _]. split; [|done]. apply elem_of_app. right. by left. }
    split; [|split].
    - intros d i etag sp y s' Hh. apply Hin in Hh as (Hx & _). destruct Ho as (Ho & _). apply Ho in Hx as [_ Hx]. by specialize (Hx eq_refl).
    - intros d i etag b y s' f rt tp inm t Hh. apply Hin in Hh as (Hx & _). destruct Ho as (Ho & _). by apply Ho in Hx as [Hx _].
    - intros d i y s' s'' f sp e Hh Hs Hf Hc. apply Hin in Hh as (_ & Hy & Hoy).
      inversion Hs as [| | |? ? ? fc f1 f' Hfc Hf1 Hst| | | | | | | | |]; subst. cbn [set_fetch y_fetch] in Hf. rewrite list_lookup_insert in Hf by (by eapply lookup_lt_Some). injection Hf as <-.
      destruct (copies_stay _ _ _ _ _ _ Hr Hy Hoy Hf1) as (f0 & H0 & E0).
      cbn [fstep] in Hst. destruct (fs_calls f1 !! i) as [ca|] eqn:Ei; [|done]. apply lookup_lt_Some in Ei.
      assert (forall ca', Some (FSt (fs_cache f1) (<[i := ca']> (fs_calls f1))) = Some f' -> ca' = FRet (Some sp) (Some e)) as Hcall.
      { intros ca' Heq. injection Heq as <-. cbn [fs_calls] in Hc. rewrite list_lookup_insert in Hc by done. by injection Hc. }
      destruct ca as [[]|k last| | |]; try done.
      + by apply Hcall in Hst.
      + apply Hcall in Hst. unfold fetch_begin in Hst. by destruct (f_url_ok fc).
      + destruct (k <? f_attempts fc); apply Hcall in Hst; [unfold fetch_begin in Hst; by destruct (f_url_ok fc)|].
        rewrite E0 in Hst. destruct (fs_cache f0) as [tp|] eqn:Et; [|done]. cbn in Hst. injection Hst as <- _. by exists f0, tp.
  Qed.
  Theorem C98_fetchers_return_their_copies lr sr x s d f c sp e : yrun lr sr -> yrun (lr ++ x) s -> outage x ->
    y_fetch K s !! d = Some f -> fs_calls f !! c = Some (FRet (Some sp) e) -> unreturned K sr d c ->
    exists f0 tp, y_fetch K sr !! d = Some f0 /\ fs_cache f0 = Some tp /\ sp = t_sp tp.
  Proof.
    intros Hr H Ho Hf Hc Hun. eapply (returned_P K X U parse cf t0 n nk nj nu calls (lr ++ x) lr sr (held sr) s x); try done; [by apply served_copies|by exists []; rewrite app_nil_r].
  Qed.

  (** Nothing that happens in an outage makes a fetch or a run of the key daemon panic. *)
  Theorem C98_no_panic lr sr x s : yrun lr sr -> yrun (lr ++ x) s -> outage x ->
    (forall d f c, y_fetch K s !! d = Some f -> fs_calls f !! c = Some FPanic -> exists f0, y_fetch K sr !! d = Some f0 /\ fs_calls f0 !! c = Some FPanic) /\
    (forall i, p_tasks (y_keys K s) !! i = Some PPanic -> p_tasks (y_keys K sr) !! i = Some PPanic).
  Proof.
    intros Hr. revert s. induction x as [|l x IH] using rev_ind; intros s H Ho.
    - rewrite app_nil_r in H. assert (sr = s) as -> by (by eapply yrun_det). eauto.
    - apply outage_app in Ho as [Ho (Hl & Hk & _)]. rewrite app_assoc in H. apply yrun_snoc in H as (s2 & H2 & Hs). destruct (IH _ H2 Ho) as [IHf IHk]. clear IH.
      destruct Hs as [|s l k Hst _| |s d' i fc f1 f' Hc Hf1 Hst|s d' i r fc f1 f' Hc Hf1 Hst| | | | | | | |]; try done; cbn [set_fetch set_keys y_fetch y_keys]; split; try done.
      + intros j Hj. apply IHk. destruct l as [i t|i r t|i kk|i kk|i]; cbn [pstep] in Hst.
        * destruct (p_tasks (y_keys K s) !! i) as [[]|] eqn:Ei; try done. injection Hst as <-. cbn [with_task p_tasks] in Hj. apply list_lookup_insert_Some in Hj as [(<- & Hj & _)|[_ Hj]]; [by destruct (pc_url_ok _)|done].
        * destruct (p_tasks (y_keys K s) !! i) as [[| c| | | |]|]; try done. destruct (respond parse c r) as [t' c'] eqn:E. injection Hst as <-. cbn [with_task with_etags p_tasks] in Hj.
          apply list_lookup_insert_Some in Hj as [(<- & -> & _)|[_ Hj]]; [|done]. exfalso. specialize (Hk i r t ltac:(by left)). clear -E Hk. destruct r as [e|status tag b]; cbn in E; [done|].
          destruct Hk as [H1 H2]. destruct (Z.eqb_spec status 304); [done|]. destruct (Z.eqb_spec status 200); cbn [negb] in E; [|done]. by rewrite (H2 e) in E.
        * destruct (p_tasks (y_keys K s) !! i) as [[| |cm todo| | |]|]; try done. destruct (todo !! kk); [|done]. injection Hst as <-. cbn [with_task p_tasks] in Hj.
          apply list_lookup_insert_Some in Hj as [(_ & Hj & _)|[_ Hj]]; [done|by destruct (is_zts i)].
        * destruct (p_tasks (y_keys K s) !! i) as [[| | |cm todo| |]|]; try done. destruct (decide (kk ∈ todo)); [|done]. injection Hst as <-. cbn [with_task p_tasks] in Hj.
          apply list_lookup_insert_Some in Hj as [(_ & Hj & _)|[_ Hj]]; [done|by destruct (is_zts i)].
        * destruct (p_tasks (y_keys K s) !! i) as [[| |cm todo|cm todo| |]|]; try done; (destruct (decide (todo = ∅)); [|done]); injection Hst as <-; cbn [with_task p_tasks] in Hj;
          (apply list_lookup_insert_Some in Hj as [(_ & Hj & _)|[_ Hj]]; done).
      + intros d f c Hf Hp. apply list_lookup_insert_Some in Hf as [(<- & <- & _)|[_ Hf]]; [|by eapply IHf]. apply (IHf _ _ c Hf1). clear -Hst Hp. cbn [fstep] in Hst.
        destruct (fs_calls f1 !! i) as [[[]|k last| | |]|]; try done; [| |destruct (k <? f_attempts fc)]; injection Hst as <-; cbn [fs_calls] in Hp;
          (apply list_lookup_insert_Some in Hp as [(_ & Hp & _)|[_ Hp]]; [|done]); try done; unfold fetch_begin in Hp; by destruct (f_url_ok fc).
      + intros d f c Hf Hp. apply list_lookup_insert_Some in Hf as [(<- & <- & _)|[_ Hf]]; [|by eapply IHf]. apply (IHf _ _ c Hf1). specialize (Hl d' i r ltac:(by left)). clear -Hst Hp Hl. cbn [fstep] in Hst.
        destruct (fs_calls f1 !! i) as [[| |retry tp inm at_| |]|]; try done.
        destruct (fetch_response K fc tp (get_pub_key (y_keys K s)) (now s) r) as [res upd] eqn:E. injection Hst as <-. cbn [fs_calls] in Hp.
        apply list_lookup_insert_Some in Hp as [(_ & Hp & _)|[_ Hp]]; [|done]. exfalso.
        assert (exists e, res = Err e) as [e ->]; [|by destruct retry]. clear Hp. destruct r as [e|status tag b]; cbn in E; [injection E as <- _; by eexists|].
        destruct Hl as [H1 H2]. destruct (Z.eqb_spec status 304); [done|]. destruct (Z.eqb_spec status 200) as [e|]; cbn [negb] in E; [|injection E as <- _; by eexists].
        rewrite (H2 e) in E. injection E as <- _. by eexists.
  Qed.

  (** ** Caches *)
  Lemma cur_last ls s : yrun ls s -> length (y_objs K s) = S (y_cur K s).
  Proof.
    induction 1 as [|ls l s s' H IH Hs]; [done|].
    destruct Hs; cbn [set_auth set_keys set_jwk set_fetch set_upd set_obj publish set_chk y_objs y_cur]; rewrite ?insert_length, ?app_length; cbn [length]; lia.
  Qed.
  Lemma over_stays l1 x s1 s m u : yrun l1 s1 -> yrun (l1 ++ x) s -> y_upd K s1 !! m = Some u -> u_ret u <> None ->
    exists u', y_upd K s !! m = Some u' /\ u_ret u' <> None.
  Proof.
    intros H1. revert s. induction x as [|l x IH] using rev_ind; intros s H Hu Hn.
    - rewrite app_nil_r in H. assert (s1 = s) as -> by (by eapply yrun_det). eauto.
    - rewrite app_assoc in H. apply yrun_snoc in H as (s2 & H2 & Hs). destruct (IH _ H2 Hu Hn) as (u1 & Hu1 & Hn1).
      assert (forall l u2, ustep U l u1 = Some u2 -> u_ret u2 <> None) as Hst.
      { intros l' u2 Hx. destruct l'; cbn [ustep] in Hx; repeat (case_match; try done); injection Hx as <-; cbn; congruence. }
      destruct Hs; try (by exists u1); cbn [set_upd publish y_upd]; (destruct (decide (n0 = m)) as [->|Hne];
        [rewrite list_lookup_insert by (by eapply lookup_lt_Some); eexists; split; [done|];
         match goal with Ha : ustep U _ ?y = Some _ |- _ => assert (y = u1) as -> by congruence; by eapply Hst end
        |rewrite list_lookup_insert_ne by done; eauto]).
  Qed.
  (** Caches published in the outage are from Updates begun in it. *)
  Lemma published_later ls s lr sr m o u : yrun ls s -> passed ls lr sr -> quiet sr -> (length (y_objs K sr) <= o)%nat -> published_by ls m o ->
    y_upd K sr !! m = Some u -> u_spawned u = 0%nat.
  Proof.
    intros Hr Hpr Hq Hlen (l1 & s1 & s2 & Hh & Hs & Hno & Hso) Hu. destruct (Hq _ _ Hu) as [?|Hret]; [done|]. exfalso.
    pose proof (happened_passed K X U parse cf t0 n nk nj nu calls _ _ _ _ Hh) as Hp1.
    assert (exists y, l1 = lr ++ y) as [y ->].
    { destruct (passed_cases K X U parse cf t0 n nk nj nu calls _ _ _ _ _ Hpr Hp1) as [Hy|[y Hy]]; [done|]. destruct y as [|l y]; [exists []; by rewrite app_nil_r in Hy |- *|]. exfalso.
      assert (l = YUpd K m UFinish) as ->.
      { destruct Hpr as [[b Hb] _], Hh as [[c Hc] _]. subst lr. rewrite <- app_assoc in Hb. rewrite Hb in Hc. apply app_inv_head in Hc. by injection Hc. }
      destruct Hpr as [_ Hr0]. subst lr. pose proof (yrun_at K X U parse cf s0 _ _ _ _ Hr0) as (w1 & w2 & Hw1 & Hws & Hw2).
      destruct Hp1 as [_ H1]. assert (w1 = s1) as -> by (by eapply yrun_det). assert (w2 = s2) as -> by (by eapply ystep_det).
      replace (l1 ++ YUpd K m UFinish :: y) with ((l1 ++ [YUpd K m UFinish]) ++ y) in Hr0 by (by rewrite <- app_assoc).
      pose proof (yrun_objs K X U parse cf t0 n nk nj nu calls _ _ _ _ Hw2 Hr0). apply lookup_lt_is_Some in Hso. lia. }
    destruct Hpr as [_ Hr0], Hp1 as [_ H1]. destruct (over_stays _ _ _ _ _ _ Hr0 H1 Hu Hret) as (u1 & Hu1 & Hn1).
    assert (forall u', ustep U UFinish u1 <> Some u') as Hstuck. { intros u'. cbn [ustep]. by destruct (u_ret u1). }
    inversion Hs; subst; match goal with Ha : y_upd K s1 !! m = Some ?v, Hb : ustep U UFinish ?v = Some _ |- _ => assert (v = u1) as -> by congruence; by apply Hstuck in Hb end.
  Qed.

  (** ** C98 *)
  (** Request [q], examined by call [i], is granted by what the authorizer has in [sr]: the token is valid
      by the keys of [sr] at the time it is examined, the translator knows its path, and [P] grants what is asked. *)
  Definition granted_by (ls : list ylabel) (sr : sys K) (i : nat) (q : request) (P : nat -> signed_policy -> Prop) : Prop :=
    q_act q <> [] /\ q_res q <> [] /\
    (forall l1 s1, happened ls (YAuth K (ZParse K i (keys_now K cf s1))) l1 s1 -> z_tasks (y_auth K s1) !! i = Some (CParse q) -> exists p, valid_token (clock_at (now s1) sr) q p) /\
    (forall o t p, valid_token (clock_at t sr) q p -> exists a b, target (s_z cf) o p q = Ok (a, b)) /\
    (forall l2 s2 p a b, passed ls l2 s2 -> z_tasks (y_auth K s2) !! i = Some (CCheck q p a b) -> grants U cf P p a b).
  (** From [sr] on Athenz is down.  No Update is under way in [sr], and no list of ZTS keys is being
      applied.  A call made later is accepted if what the authorizer has in [sr] grants it and its
      policies have not expired: whatever the daemons do in vain, nothing is lost. *)
  Theorem C98_outage_takes_nothing_away lr sr x s P i q r lc sc : yrun lr sr -> yrun (lr ++ x) s -> outage x ->
    0 < t0 -> check_untouched K X U parse cf s0 (lr ++ x) i -> YChk K i EnvCancel ∉ lr ++ x -> own_calls (lr ++ x) -> quiet sr -> settled K sr true ->
    has_policies lr sr P -> usable U P (now s) ->
    happened (lr ++ x) (YAuth K (ZCall K i q)) lc sc -> passed lc lr sr ->
    granted_by (lr ++ x) sr i q P -> z_tasks (y_auth K s) !! i = Some (CDone q r) -> exists p, r = Ok p.
  Proof.
    intros Hr0 Hr Ho Ht0 Hh Hnc Hown Hq Hset (Hc0 & HPd & HPc) [Hus1 Hus2] Hcall Hprc (Ha & Hb & Hval & Htr & Hgr) Hi.
    set (ls := lr ++ x) in *. assert (passed ls lr sr) as Hpr by (split; [by exists x|done]).
    pose proof (served_copies _ _ _ Hr0 Ho) as Hsv. fold ls in Hsv. pose proof (cur_last _ _ Hr0) as Hlast.
    assert (z_tasks (y_auth K sc) !! i = Some Authorizer.CIdle) as Hidle.
    { destruct (happened_step K X U parse cf t0 n nk nj nu calls _ _ _ _ _ Hr Hcall) as [s3 Hs]. inversion Hs as [? ? ? Hz _| | | | | | | | | | | |]; subst.
      cbn [zstep] in Hz. by destruct (z_tasks (y_auth K sc) !! i) as [[]|]. }
    pose proof (happened_passed K X U parse cf t0 n nk nj nu calls _ _ _ _ Hcall) as Hpc.
    assert (y_cur K sr <= y_cur K sc)%nat as Hcur.
    { destruct Hprc as [[y ->] _], Hpc as [_ Hc]. by eapply (cur_mono K X U parse cf t0 n nk nj nu calls). }
    (* what call [i] does happens after [sc] *)
    assert (forall la sa ta, passed ls la sa -> z_tasks (y_auth K sa) !! i = Some ta -> ta <> Authorizer.CIdle -> exists z, la = lc ++ z) as Hafter.
    { intros la sa ta Hpa Hta Hna. destruct (passed_cases K X U parse cf t0 n nk nj nu calls _ _ _ _ _ Hpc Hpa) as [?|[z Hz]]; [done|]. exfalso. subst lc.
      destruct Hpc as [_ Hc], Hpa as [_ Hra]. destruct (task_forward K X U parse cf t0 n nk nj nu calls _ _ _ _ _ _ Hra Hc Hta) as (t' & Ht' & Hn & _).
      rewrite Hidle in Ht'. injection Ht' as <-. by apply Hn. }
    assert (forall l1 s1, happened ls (YAuth K (ZParse K i (keys_now K cf s1))) l1 s1 -> forall p, valid_token s1 q p <-> valid_token (clock_at (now s1) sr) q p) as Hsame.
    { intros l1 s1 Hh1 p. pose proof (happened_passed K X U parse cf t0 n nk nj nu calls _ _ _ _ Hh1) as Hp1.
      assert (exists q', z_tasks (y_auth K s1) !! i = Some (CParse q')) as [q' Hq'].
      { destruct (happened_step K X U parse cf t0 n nk nj nu calls _ _ _ _ _ Hr Hh1) as [s3 Hs]. inversion Hs as [? ? ? Hz _| | | | | | | | | | | |]; subst.
        cbn [zstep] in Hz. destruct (z_tasks (y_auth K s1) !! i) as [[]|]; try done. by eexists. }
      destruct (Hafter _ _ _ Hp1 Hq' ltac:(done)) as [z ->]. destruct Hprc as [[y ->] _]. destruct Hp1 as [[w Hw] H1]. rewrite <- app_assoc in H1.
      apply (C98_tokens_stay_valid lr sr (y ++ z) s1); try done. unfold ls in Hw. rewrite <- !app_assoc in Hw. apply app_inv_head in Hw. rewrite Hw, app_assoc in Ho. by apply outage_app in Ho as [? _]. }
    apply (C93_entitled_is_accepted K X U parse cf t0 n nk nj nu calls ls s i q r Hr Ht0 Hh Hnc); [|done].
    split; [done|]. split. { intros l1 s1 Hh1 Ht1. destruct (Hval _ _ Hh1 Ht1) as [p Hp]. exists p. by apply (Hsame _ _ Hh1). }
    intros _. split. { intros o l1 s1 p Hh1 Hv. apply (Htr o (now s1) p). by apply (Hsame _ _ Hh1). }
    split; [exists lc, sc; split; [done|]; split; [lia|done]|].
    intros l2 s2 m p a b (x2 & k & Hpo & Hk & Hpub) Hchk.
    pose proof (happened_passed K X U parse cf t0 n nk nj nu calls _ _ _ _ Hpo) as Hp2. pose proof Hp2 as [[y2 Heq] Hr2].
    destruct (loaded K X U parse cf t0 n nk nj nu calls _ _ Hr2 _ _ Hk) as (la & sa & Hla & Hob).
    assert (y_cur K sc <= y_cur K sa)%nat as Hca.
    { destruct (happened_step K X U parse cf t0 n nk nj nu calls _ _ _ _ _ Hr2 Hla) as [s3 Hs].
      assert (exists q' p' a' b', z_tasks (y_auth K sa) !! i = Some (CCheck q' p' a' b')) as (q' & p' & a' & b' & Hta) by (inversion Hs; subst; eauto).
      pose proof (happened_passed K X U parse cf t0 n nk nj nu calls _ _ _ _ (happened_prefix K X U parse cf t0 n nk nj nu calls _ _ _ _ _ _ Hp2 Hla)) as Hpa.
      destruct (Hafter _ _ _ Hpa Hta ltac:(done)) as [z ->]. destruct Hpc as [_ Hc], Hpa as [_ Hra]. by eapply (cur_mono K X U parse cf t0 n nk nj nu calls). }
    assert (published_by ls m (k_obj k)) as Hpub' by (rewrite Heq; by apply published_mono).
    assert (forall w exp doc t, took l2 m w exp doc t -> exists sp, P w sp /\ content sp exp doc) as Hdocs.
    { intros w exp doc t Htk. destruct (decide (k_obj k = y_cur K sr)) as [Ek|Hne].
      - rewrite Ek in Hpub'. assert (is_Some (y_objs K sr !! y_cur K sr)) as Hso by (apply lookup_lt_is_Some; lia).
        pose proof (passed_published K X U parse cf t0 n nk nj nu calls _ _ _ _ _ _ Hr Hpr Hso Hpub') as Hpl. destruct Hso as [ob Hso].
        assert (untouched K X U parse cf s0 lr (y_cur K sr)) as Hhl.
        { destruct (Hafter _ _ _ Hp2 Hchk ltac:(done)) as [z Hz]. destruct Hprc as [[y Hy] _]. rewrite <- Ek. apply (untouched_prefix K X U parse cf t0 n nk nj nu calls lr (y ++ z)).
          rewrite app_assoc, <- Hy, <- Hz. exact (Hh _ _ _ _ Hpo Hk). }
        destruct (objects_ok K X U parse cf t0 n nk nj nu calls _ _ _ Hr0 Hhl) as [_ Hplain]. destruct (Hplain _ _ Hso Hpl) as (u & Hu & Hret & _).
        eapply HPd; [exact Hpl|]. eapply (took_before K X U parse cf t0 n nk nj nu calls); [exact Hr0|exact Hr|exact Hu|exact Hret|]. fold ls. rewrite Heq. by apply took_mono.
      - assert (length (y_objs K sr) <= k_obj k)%nat as Hge by lia.
        destruct Htk as (cl & script & l3 & s3 & Hh3 & Hans & _). pose proof (happened_prefix K X U parse cf t0 n nk nj nu calls _ _ _ _ _ _ Hp2 Hh3) as Hh3'.
        destruct (answer_P K X U parse cf t0 n nk nj nu calls _ _ _ _ _ _ _ _ _ _ Hsv Hr0 Hpr (happened_passed K X U parse cf t0 n nk nj nu calls _ _ _ _ Hh3') Hans) as (sp & (f & tp & Hf & Hcp & ->) & Hcon); [|by eauto].
        destruct Hown as [Hou _]. destruct (Hou _ _ _ _ _ _ Hh3') as (lb & sb & u & Hpb & Hu & Hw & (f & bb & Hf & Hcb)).
        destruct (passed_cases K X U parse cf t0 n nk nj nu calls _ _ _ _ _ Hpr Hpb) as [[z ->]|[z Hz]].
        + intros f1 sp e Hf1 Hc1. destruct Hpb as [_ Hrb]. destruct (ret_stays K X U parse cf t0 n nk nj nu calls _ _ _ _ _ _ _ _ _ Hr0 Hrb Hf1 Hc1) as (f2 & Hf2 & Hc2). congruence.
        + exfalso. destruct Hpb as [_ Hrb]. pose proof Hr0 as Hr0'. rewrite Hz in Hr0'. destruct (spawned_mono K X U parse cf t0 n nk nj nu calls _ _ _ _ _ _ Hrb Hr0' Hu) as (u' & Hu' & Hle).
          pose proof (published_later _ _ _ _ _ _ _ Hr Hpr Hq Hge Hpub' Hu'). lia. }
    assert (now s2 <= now s) as Hclk by (by eapply passed_clock).
    destruct (Hgr _ _ _ _ _ Hp2 Hchk) as [(role & w & Hrole & Hw & Hal) Hnd].
    pose proof (Hh _ _ _ _ Hpo Hk) as Hh2.
    split_and!.
    + split.
      * intros w' exp doc t Htk. destruct (Hdocs _ _ _ _ Htk) as (sp & HP & Hc). destruct (Hus1 _ _ _ _ HP Hc) as (? & ? & ? & ?). split; [done|]. split; [done|]. right. lia.
      * intros w1 w2 e1 e2 d1 d2 u1 u2 pol1 pol2 r1 r2 T1 T2. destruct (Hdocs _ _ _ _ T1) as (sp1 & HP1 & Hc1), (Hdocs _ _ _ _ T2) as (sp2 & HP2 & Hc2). by apply (Hus2 _ _ _ _ _ _ _ _ pol1 pol2 r1 r2 HP1 Hc1 HP2 Hc2).
    + exists role. split; [done|]. destruct (took_all K X U parse cf t0 n nk nj nu calls _ _ _ _ Hr2 Hh2 Hpub w Hw) as (exp & doc & t & Htk). destruct (Hdocs _ _ _ _ Htk) as (sp & HP & Hc). exists w, exp, doc, t. split; [done|]. by eapply Hal.
    + intros role' Hr' (w' & exp & doc & t & Htk & Hd). destruct (Hdocs _ _ _ _ Htk) as (sp & HP & Hc). by eapply Hnd.
  Qed.
End claims.

Section hooks.
  Context (K : crypto) (X : jwt_ext) {O : Type} (U : unicode) (parse : str -> option (verifier K)).
  Context (cf : @sconf O) (doms : list str) (t0 : time) (n nk nj nu : nat) (calls : nat -> list bool).
  Notation s0 := (yinit K cf t0 n nk nj nu calls).
  Notation hrun := (hrun K X U parse cf doms (hinit K s0)).
  Notation yrun := (yrun K X U parse cf s0).
  (** The same in the system with the expired hook, if each cache is replaced before its policies
      expire. *)
  Theorem C98_outage_with_the_hook hls h lr sr x P i q r lc sc : hrun hls h -> hsys K hls = lr ++ x ->
    Prop_Expiry.replaced K X U parse cf doms t0 n nk nj nu calls hls (now K (h_sys K h)) ->
    yrun lr sr -> outage K x -> 0 < t0 -> YChk K i EnvCancel ∉ lr ++ x ->
    own_calls K X U parse cf t0 n nk nj nu calls (lr ++ x) -> quiet K sr -> settled K sr true ->
    has_policies K X U parse cf t0 n nk nj nu calls lr sr P -> usable U P (now K (h_sys K h)) ->
    happened K X U parse cf s0 (lr ++ x) (YAuth K (ZCall K i q)) lc sc -> passed K X U parse cf s0 lc lr sr ->
    granted_by K X U parse cf t0 n nk nj nu calls (lr ++ x) sr i q P -> z_tasks (y_auth K (h_sys K h)) !! i = Some (CDone q r) -> exists p, r = Ok p.
  Proof.
    intros Hr E Hrep H0 Ho Ht0 Hnc Hown Hq Hset HP Hus Hcall Hpc Hgr Hi.
    pose proof (Prop_Expiry.C90_is_the_system _ _ _ _ _ _ _ _ _ _ _ _ _ _ Hr) as Hy.
    destruct (Prop_Expiry.C90_no_hook_if_replaced _ _ _ _ _ _ _ _ _ _ _ _ _ _ Hr Ht0 Hrep) as (_ & Hh & _). rewrite E in Hy, Hh.
    apply (unhooked_checks K X U parse cf t0 n nk nj nu calls _ i) in Hh. by eapply (C98_outage_takes_nothing_away K X U parse cf t0 n nk nj nu calls lr sr x (h_sys K h) P i q r lc sc).
  Qed.
End hooks.

(** ** An execution with an outage
    The keys and a policy are loaded; then Athenz is down.  The key daemons fail; an Update of the
    policies tries three times in vain and publishes the copy the fetcher has; a request made then is accepted. *)
From Verif Require Import SystemExec PolicyCheckers Prop_Window Prop_Latency.
From Verif Require Prop_Fetcher Prop_Authorizer Prop_PubKey.
From Verif Require Import GoStrings.
Section example.
  Import Prop_PubKey Prop_Fetcher Prop_Authorizer.
  Definition ocalls : nat -> list bool := fun _ => [false; true].
  Definition oinit : sys K1 := yinit K1 rcf t0 1 3 1 2 ocalls.
  Definition ocmdsR : list (@cmd unit) := csS ++ update_cmds 0 0 rpol1 ++ [DTick (52 * second)].
  Definition down {A} : response A := Failed (ErrMsg "connection refused").
  Definition ocmdsX : list (@cmd unit) :=
    [DKey (PBegin 2 (52 * second)); DKey (PResp 2 down (52 * second)); DJwk (JBegin 0); DJwk (JFetch 0 (B "https://zts/keys") None); DJwk (JEnd 0);
     DSpawn 1; DSend 0 1; DSend 0 1; DReply 0 1 down; DSend 0 1; DReply 0 1 (Response 503 [] BadBody); DSend 0 1; DReply 0 1 (Response 200 [] BadBody); DSend 0 1; DTake 1 0 1] ++
    replicate 3 (DWork 1 0) ++ [DFinish 1; DTick (60 * second)].
  Definition ocmdsC : list (@cmd unit) := wcall 0 6 3 3 q1 ++ [DStore 0].
  Definition P1 (w : nat) (sp : signed_policy) : Prop := w = 0%nat /\ rpol1 = sp.
  Definition no_answerb {A} (r : response A) : bool :=
    match r with Failed _ => true | Response status _ b => negb (status =? 304) && (negb (status =? 200) || match b with BadBody => true | _ => false end) end.
  Definition outageb (T : list (@ylabel K1 unit * sys K1)) : bool :=
    forallb (fun '(l, _) => match l with YReply _ _ _ r => no_answerb r | YKey _ (PResp _ r _) => no_answerb r | YJwk _ (JFetch _ _ (Some _)) => false | _ => true end) T.
  Definition oplainb (sr : sys K1) (T : list (@ylabel K1 unit * sys K1)) : bool :=
    forallb (fun '(l, s) => match l with
      | YAuth _ (ZParse _ 0 _) => match process K1 X0 (s_z rcf) (keys_now K1 rcf sr) (now K1 s) q1 with Ok _ => true | _ => false end
      | YHook _ | YChk _ _ EnvCancel => false
      | _ => true end) T.
  Definition oasksb (s : sys K1) : bool :=
    match z_tasks (y_auth K1 s) !! 0%nat with
    | Some (CCheck _ p a b) => bool_decide (pr_roles p = [B "r1"; B "r2"] /\ pr_domain p = B "dom" /\ a = B "get" /\ b = B "/p/a")
    | _ => true end.
  Definition state_obs (s : sys K1) := (y_cur K1 s, calls_of s, map (fun f => option_map t_sp (fs_cache f)) (y_fetch K1 s), map applying (p_tasks (y_keys K1 s)), now K1 s).
  Notation drive1 := (drive K1 X0 U0 parse1 rcf).
  Notation orun := (System.yrun K1 X0 U0 parse1 rcf oinit).
  Notation opassed := (passed K1 X0 U0 parse1 rcf oinit).
  Notation ohappened := (happened K1 X0 U0 parse1 rcf oinit).
  Definition sr_obs := (1%nat, [(1%nat, false); (0%nat, true)], [Some rpol1], replicate 6 false, 52 * second).
  Definition sx_obs := (2%nat, [(1%nat, false); (1%nat, false)], [Some rpol1], replicate 6 false, 60 * second).
  Definition oevents : list ev := [EFinish 0 1; ETake 0 0 0 (Some (200 * second, rdoc1)); EReply (50 * second) 200 (Doc rpol1); ESend (Some false)].
  Lemma drive_grows cs acc s tr s' : drive1 cs acc s = Some (tr, s') -> exists y, tr = y ++ acc.
  Proof.
    revert acc s. induction cs as [|c cs IH]; intros acc s; cbn [drive]; [intros [= <- _]; by exists []|].
    destruct (yexec _ _ _ _ _ c s) as [[l s1]|]; [|done]. intros [y ->]%IH. exists (y ++ [(l, s)]). by rewrite <- app_assoc.
  Qed.
  Lemma the_outage : exists trR sR trX sX trC sC,
    drive1 ocmdsR [] oinit = Some (trR, sR) /\ drive1 ocmdsX trR sR = Some (trX, sX) /\ drive1 ocmdsC trX sX = Some (trC, sC) /\
    state_obs sR = sr_obs /\ state_obs sX = sx_obs /\ tasks sC = [granted_to (B "r1")] /\ now K1 sC = 60 * second /\ events trR = oevents /\
    own_okb trC = true /\ outageb (take (length trC - length trR) trC) = true /\ oplainb sR trC = true /\ forallb (fun '(_, s) => oasksb s) trC = true /\ oasksb sC = true.
  Proof.
    assert (
      match drive1 ocmdsR [] oinit with None => None | Some (trR, sR) =>
      match drive1 ocmdsX trR sR with None => None | Some (trX, sX) =>
      match drive1 ocmdsC trX sX with None => None | Some (trC, sC) =>
        Some (state_obs sR, state_obs sX, tasks sC, now K1 sC, events trR, (own_okb trC, outageb (take (length trC - length trR) trC), oplainb sR trC, forallb (fun '(_, s) => oasksb s) trC && oasksb sC))
      end end end = Some (sr_obs, sx_obs, [granted_to (B "r1")], 60 * second, oevents, (true, true, true, true))) as Ho by (vm_compute; reflexivity).
    destruct (drive1 ocmdsR [] oinit) as [[trR sR]|]; [|discriminate Ho].
    destruct (drive1 ocmdsX trR sR) as [[trX sX]|] eqn:EX; [|discriminate Ho].
    destruct (drive1 ocmdsC trX sX) as [[trC sC]|] eqn:EC; [|discriminate Ho].
    exists trR, sR, trX, sX, trC, sC.
    assert (forall A1 A2 A3 A4 A5 A6 A7 A8 A9 (a1 b1 : A1) (a2 b2 : A2) (a3 b3 : A3) (a4 b4 : A4) (a5 b5 : A5) (a6 b6 : A6) (a7 b7 : A7) (a8 b8 : A8) (a9 b9 : A9),
      Some (a1, a2, a3, a4, a5, (a6, a7, a8, a9)) = Some (b1, b2, b3, b4, b5, (b6, b7, b8, b9)) ->
      a1 = b1 /\ a2 = b2 /\ a3 = b3 /\ a4 = b4 /\ a5 = b5 /\ a6 = b6 /\ a7 = b7 /\ a8 = b8 /\ a9 = b9) as Hinj by (intros; by simplify_eq).
    apply Hinj in Ho as (H1 & H2 & H3 & H4 & H5 & H6 & H7 & H8 & H9). apply andb_true_iff in H9 as [H9 H10].
    do 3 (split; [first [assumption|reflexivity]|]). do 9 (split; [assumption|]). assumption.
  Qed.
  Lemma content_rpol1 w sp exp doc : P1 w sp -> content sp exp doc -> exp = 200 * second /\ doc = rdoc1.
  Proof. intros [_ <-] (d & p & H1 & H2 & H3 & H4). cbn in H1. injection H1 as <-. cbn in H2, H3. injection H2 as <-. injection H3 as <-. split; [done|]. apply written_inj. exact (eq_sym H4). Qed.
  Lemma no_answerb_spec {A} (r : response A) : no_answerb r = true -> no_answer r.
  Proof.
    destruct r as [e|status tag b]; [done|]. cbn. intros [H1 H2]%andb_true_iff. destruct (Z.eqb_spec status 304); [done|]. split; [done|]. intros ->. cbn in H2. by destruct b.
  Qed.
  (** In the outage an Update publishes a second cache, made from the copy. *)
  Example C98_nonvacuous : exists lr sr x s lc sc p,
    orun lr sr /\ orun (lr ++ x) s /\ outage K1 x /\ 0 < t0 /\ check_untouched K1 X0 U0 parse1 rcf oinit (lr ++ x) 0 /\ YChk K1 0 EnvCancel ∉ lr ++ x /\
    own_calls K1 X0 U0 parse1 rcf t0 1 3 1 2 ocalls (lr ++ x) /\ quiet K1 sr /\ settled K1 sr true /\
    has_policies K1 X0 U0 parse1 rcf t0 1 3 1 2 ocalls lr sr P1 /\ usable U0 P1 (now K1 s) /\
    ohappened (lr ++ x) (YAuth K1 (ZCall K1 0 q1)) lc sc /\ opassed lc lr sr /\
    granted_by K1 X0 U0 parse1 rcf t0 1 3 1 2 ocalls (lr ++ x) sr 0 q1 P1 /\
    z_tasks (y_auth K1 s) !! 0%nat = Some (CDone q1 (Ok p)) /\ pr_auth p = [B "r1"] /\
    y_cur K1 sr = 1%nat /\ y_cur K1 sc = 2%nat.
  Proof.
    destruct the_outage as (trR & sR & trX & sX & trC & sC & ER & EX & EC & OR & OX & HtC & NC & Hev & Hown & Hout & Hplain & Hasks & HaskC).
    pose proof (drive_chain K1 X0 U0 parse1 rcf oinit _ _ _ _ _ ER eq_refl) as CR.
    pose proof (drive_chain K1 X0 U0 parse1 rcf oinit _ _ _ _ _ EX CR) as CX.
    pose proof (drive_chain K1 X0 U0 parse1 rcf oinit _ _ _ _ _ EC CX) as CC.
    assert (exists y, trX = y ++ trR) as [yX XX] by (by eapply drive_grows).
    assert (exists y, trC = y ++ (YAuth K1 (ZCall K1 0 q1), sX) :: trX) as [yC XC].
    { clear -EC. change ocmdsC with (DCall 0 q1 :: tail ocmdsC) in EC. cbn [drive yexec] in EC. unfold zexec in EC. destruct (zstep K1 X0 (s_z rcf) (ZCall K1 0 q1) (y_auth K1 sX)); [|discriminate EC].
      by eapply drive_grows. }
    clear ER EX EC.
    destruct (task_obs sC 0 q1 [B "r1"] [B "r1"; B "r2"] (B "dom")) as (p & Hp & Ha & _); [by rewrite HtC|].
    set (T := yC ++ (YAuth K1 (ZCall K1 0 q1), sX) :: yX) in *.
    assert (trC = T ++ trR) as ET by (unfold T; rewrite XC, XX, <- app_assoc; done).
    assert (rev trC.*1 = rev trR.*1 ++ rev T.*1) as Erev by (rewrite ET, fmap_app, rev_app_distr; done).
    assert (take (length trC - length trR) trC = T) as Etk.
    { rewrite ET, app_length. replace (length T + length trR - length trR)%nat with (length T) by lia. apply take_app. }
    rewrite Etk in Hout. clearbody T.
    injection OR as R1 R2 R3 R4 R5. injection OX as X1 X2 X3 X4 X5.
    exists (rev trR.*1), sR, (rev T.*1), sC, (rev trX.*1), sX, p. rewrite <- Erev.
    assert (forall l l1 s1, ohappened (rev trC.*1) l l1 s1 -> (l, s1) ∈ trC) as Hin by (intros l l1 s1; by apply (chain_happened K1 X0 U0 parse1 rcf oinit _ _ _ _ _ CC)).
    assert (forall l, l ∈ rev trC.*1 -> l <> YHook K1 /\ (forall i, l <> YChk K1 i EnvCancel)) as Hcalm.
    { intros l Hl. apply elem_of_list_In in Hl. apply in_rev in Hl. apply elem_of_list_In, elem_of_list_fmap in Hl as ([l1 s1] & -> & Hl). cbn [fst].
      unfold oplainb in Hplain. rewrite forallb_forall in Hplain. apply elem_of_list_In, Hplain in Hl. clear -Hl. split; [intros ->|intros i ->]; discriminate Hl. }
    assert (forall l, l ∈ rev T.*1 -> exists s1, (l, s1) ∈ T) as HT.
    { intros l Hl. apply elem_of_list_In in Hl. apply in_rev in Hl. apply elem_of_list_In, elem_of_list_fmap in Hl as ([l1 s1] & -> & Hl). by exists s1. }
    assert (forall la sa, opassed (rev trC.*1) la sa -> oasksb sa = true) as Hasked.
    { intros la sa Hps. destruct (chain_passed K1 X0 U0 parse1 rcf oinit _ _ _ _ CC Hps) as (T2 & T1 & ET1 & -> & H1).
      pose proof (chain_run K1 X0 U0 parse1 rcf oinit _ _ H1) as RR. destruct T2 as [|[l3 s3] T3 _] using rev_ind.
      - rewrite ET1 in CC. apply chain_run in CC. by assert (sa = sC) as -> by (exact (yrun_det K1 X0 U0 parse1 rcf oinit _ _ _ RR CC)).
      - pose proof CC as CD'. rewrite ET1, <- app_assoc in CD'. apply chain_tail in CD' as (s4 & _ & CD'). apply chain_run in CD'. assert (sa = s3) as -> by (exact (yrun_det K1 X0 U0 parse1 rcf oinit _ _ _ RR CD')).
        rewrite forallb_forall in Hasks. apply (Hasks (l3, s3)). apply elem_of_list_In. rewrite ET1, !elem_of_app, elem_of_list_singleton. auto. }
    unfold outageb in Hout. rewrite forallb_forall in Hout.
    split; [by apply chain_run|]. split; [by apply chain_run|].
    split. { split; [|split].
      - intros d i r Hl. apply HT in Hl as [s1 Hl]. apply elem_of_list_In, Hout in Hl. by apply no_answerb_spec.
      - intros i r t Hl. apply HT in Hl as [s1 Hl]. apply elem_of_list_In, Hout in Hl. by apply no_answerb_spec.
      - intros i u r Hl. apply HT in Hl as [s1 Hl]. apply elem_of_list_In, Hout in Hl. clear -Hl. cbn beta iota in Hl. by destruct r. }
    split; [done|]. split; [eapply (unhooked_checks K1 X0 U0 parse1 rcf); intros Hx; by apply Hcalm in Hx as [? _]|]. split; [intros Hx; apply Hcalm in Hx as [_ Hx]; by eapply Hx|].
    split. { split.
      + intros m w k script l' s' Hh. apply Hin in Hh. unfold own_okb in Hown. rewrite forallb_forall in Hown. apply elem_of_list_In in Hh. apply Hown in Hh. cbn beta iota in Hh.
        apply existsb_exists in Hh as ([l1 sa] & H1 & H2). apply elem_of_list_In in H1. destruct (chain_in K1 X0 U0 parse1 rcf oinit _ _ _ _ CC H1) as [la Hla].
        unfold idleb in H2. destruct (y_upd K1 sa !! m) as [u|] eqn:Eu; [|discriminate H2]. destruct (y_fetch K1 sa !! w) as [f|] eqn:Ef; [|discriminate H2]. apply andb_true_iff in H2 as [H2 H3].
        exists la, sa, u. split; [done|]. split; [done|]. split; [by apply Nat.ltb_lt|]. destruct (fs_calls f !! k) as [[b| | | |]|] eqn:Ek; try discriminate H3. by exists f, b.
      + intros ob w k c script l' s' Hh. exfalso. apply Hin in Hh. unfold own_okb in Hown. rewrite forallb_forall in Hown. apply elem_of_list_In in Hh. apply Hown in Hh. discriminate Hh. }
    split. { intros m u Hu. assert (calls_of sR !! m = Some (u_spawned u, match u_ret u with None => true | _ => false end)) as Hx by (unfold calls_of; by rewrite list_lookup_fmap, Hu).
      change (calls_of sR = [(1%nat, false); (0%nat, true)]) in R2. rewrite R2 in Hx. clear -Hx. destruct m as [|[|m]]; cbn in Hx; try discriminate Hx; injection Hx as H1 H2; [right|by left]. by destruct (u_ret u). }
    split. { intros i t _ Ht. assert (replicate 6 false !! i = Some (applying t)) as Hx by (change (replicate 6 false) with [false; false; false; false; false; false]; rewrite <- R4, list_lookup_fmap; exact (f_equal (option_map applying) Ht)).
      clear -Hx. do 6 (destruct i as [|i]; [by injection Hx|]). discriminate Hx. }
    split. { split; [rewrite R1; done|]. split.
      - intros m w exp doc t _ (cl & script & l1 & s1 & Hh & Hans & _). apply (chain_happened K1 X0 U0 parse1 rcf oinit _ _ _ _ _ CR) in Hh.
        assert (ETake m w cl (answer_of K1 s1 w cl) ∈ events trR) as Hi by (unfold events; apply elem_of_list_omap; by eexists (_, _)).
        rewrite Hev, Hans in Hi. unfold oevents in Hi. rewrite !elem_of_cons, elem_of_nil in Hi. clear -Hi.
        repeat (destruct Hi as [Hi|Hi]; [try discriminate Hi|]); [|done]. injection Hi as _ -> _ -> ->. exists rpol1. split; [done|]. by do 2 eexists.
      - intros d f tp Hf Hc. assert (map (fun f => option_map t_sp (fs_cache f)) (y_fetch K1 sR) !! d = Some (option_map t_sp (fs_cache f))) as Hx by (by rewrite list_lookup_fmap, Hf).
        rewrite R3, Hc in Hx. clear -Hx. destruct d as [|d]; [|discriminate Hx]. cbn in Hx. by injection Hx. }
    split. { rewrite NC. split.
      + intros w sp exp doc HP Hc. destruct (content_rpol1 _ _ _ _ HP Hc) as [-> ->]. split; [by apply no_commasb_spec|]. split; [by apply no_conflictb_spec|]. split; vm_compute; done.
      + intros w w' sp sp' exp exp' doc doc' pol pol' r r' [-> _] _ [-> _]. done. }
    split. { rewrite XC. rewrite XC in CC. exact (chain_at K1 X0 U0 parse1 rcf oinit _ _ _ _ _ CC). }
    split. { split; [|by apply chain_run]. exists (rev yX.*1). by rewrite XX, fmap_app, rev_app_distr. }
    split. { split; [done|]. split; [done|]. split; [|split].
      + intros l1 s1 Hh _. apply Hin in Hh. unfold oplainb in Hplain. rewrite forallb_forall in Hplain. apply elem_of_list_In, Hplain in Hh. cbn beta iota in Hh.
        destruct (process K1 X0 (s_z rcf) (keys_now K1 rcf sR) (now K1 s1) q1) as [p1| |] eqn:Ep; [|discriminate Hh..]. exists p1. apply (proj2 (valid_iff K1 X0 parse1 rcf 0 0 (fun _ => []) (clock_at K1 (now K1 s1) sR) q1 p1)); exact Ep.
      + intros; by do 2 eexists.
      + intros l2 s2 p2 a b Hps Hck. apply Hasked in Hps. unfold oasksb in Hps. rewrite Hck in Hps. apply bool_decide_eq_true in Hps as (Hro & Hdo & -> & ->). split.
        * exists (B "r1"), 0%nat. rewrite Hro, Hdo. split; [left|]. split; [cbn; lia|]. intros sp exp doc HP Hc. destruct (content_rpol1 _ _ _ _ HP Hc) as [_ ->]. by apply doc_allowsb_spec.
        * intros role w sp exp doc _ HP Hc Hd. destruct (content_rpol1 _ _ _ _ HP Hc) as [_ ->]. destruct Hd as (pol & r & Hpol & Hr & _ & Hd). apply elem_of_list_singleton in Hpol as ->. apply elem_of_list_singleton in Hr as ->. discriminate Hd. }
    done.
  Qed.

  (** ** The limit: a policy that expires in an outage comes back
      The policy expires; a request is refused.  The next Update, in vain, publishes the copy the
      fetcher has, expired as it is, and the same request is accepted: an expired policy counts again,
      and its entries have no expiry. *)
  Definition epol : signed_policy := pol1 (B "dom") rdoc1 (60 * second).
  Definition einit : sys K1 := yinit K1 rcf t0 2 3 1 2 ocalls.
  Definition ecmdsR : list (@cmd unit) := csS ++ update_cmds 0 0 epol ++ [DTick (61 * second)] ++ wcall 0 3 3 2 q1.
  Definition ecmdsX : list (@cmd unit) :=
    [DSpawn 1; DSend 0 1; DSend 0 1; DReply 0 1 down; DSend 0 1; DReply 0 1 down; DSend 0 1; DReply 0 1 down; DSend 0 1; DTake 1 0 1] ++
    replicate 3 (DWork 1 0) ++ [DFinish 1; DTick (90 * second)] ++ wcall 1 6 3 3 q1 ++ [DStore 1].
  Definition repliesb (T : list (@ylabel K1 unit * sys K1)) : list (response signed_policy) := omap (fun '(l, _) => match l with YReply _ _ _ r => Some r | _ => None end) T.
  Theorem C98_expired_policy_comes_back : exists lr sr x s r0 p,
    System.yrun K1 X0 U0 parse1 rcf einit lr sr /\ System.yrun K1 X0 U0 parse1 rcf einit (lr ++ x) s /\ outage K1 x /\
    (forall d i etag sp, YReply K1 d i (Response 200 etag (Doc sp)) ∈ lr ++ x -> sp = epol) /\ (forall exp doc, content epol exp doc -> exp < now K1 sr) /\
    z_tasks (y_auth K1 sr) !! 0%nat = Some (CDone q1 r0) /\ (forall p0, r0 <> Ok p0) /\
    z_tasks (y_auth K1 sr) !! 1%nat = Some Authorizer.CIdle /\ z_tasks (y_auth K1 s) !! 1%nat = Some (CDone q1 (Ok p)) /\ now K1 s = 90 * second.
  Proof.
    assert (forall A1 A2 A3 A4 A5 A6 A7 (a1 b1 : A1) (a2 b2 : A2) (a3 b3 : A3) (a4 b4 : A4) (a5 b5 : A5) (a6 b6 : A6) (a7 b7 : A7),
      Some (a1, a2, a3, a4, a5, a6, a7) = Some (b1, b2, b3, b4, b5, b6, b7) -> a1 = b1 /\ a2 = b2 /\ a3 = b3 /\ a4 = b4 /\ a5 = b5 /\ a6 = b6 /\ a7 = b7) as Hinj by (intros; by simplify_eq).
    assert (
      match drive1 ecmdsR [] einit with None => None | Some (trR, sR) =>
      match drive1 ecmdsX trR sR with None => None | Some (trX, sX) =>
        Some (tasks sR, match z_tasks (y_auth K1 sR) !! 1%nat with Some Authorizer.CIdle => true | _ => false end, tasks sX, now K1 sR, now K1 sX, repliesb trX, outageb (take (length trX - length trR) trX))
      end end = Some ([Some (q1, None); None], true, [Some (q1, None); granted_to (B "r1")], 61 * second, 90 * second, [down; down; down; Response 200 (B "a") (Doc epol)], true)) as Ho by (vm_compute; reflexivity).
    destruct (drive1 ecmdsR [] einit) as [[trR sR]|] eqn:ER; [|discriminate Ho].
    destruct (drive1 ecmdsX trR sR) as [[trX sX]|] eqn:EX; [|discriminate Ho].
    apply Hinj in Ho as (H1 & H2 & H3 & H4 & H5 & H6 & H7).
    pose proof (drive_chain K1 X0 U0 parse1 rcf einit _ _ _ _ _ ER eq_refl) as CR.
    pose proof (drive_chain K1 X0 U0 parse1 rcf einit _ _ _ _ _ EX CR) as CX.
    apply drive_grows in EX as [T ET].
    assert (take (length trX - length trR) trX = T) as Etk.
    { rewrite ET, app_length. replace (length T + length trR - length trR)%nat with (length T) by lia. apply take_app. }
    rewrite Etk in H7. clear Etk ER.
    destruct (task_obs sX 1 q1 [B "r1"] [B "r1"; B "r2"] (B "dom")) as (p & Hp & _); [by rewrite H3|].
    assert (exists r0, z_tasks (y_auth K1 sR) !! 0%nat = Some (CDone q1 r0) /\ forall p0, r0 <> Ok p0) as (r0 & Hr0 & Hn0).
    { clear -H1. unfold tasks in H1. destruct (z_tasks (y_auth K1 sR)) as [|tk tks]; [discriminate H1|]. cbn [map] in H1. injection H1 as Htk _. cbn [lookup list_lookup].
      destruct tk as [| | | | | |q r]; try discriminate Htk. destruct r; try discriminate Htk; injection Htk as ->; by eexists. }
    assert (rev trX.*1 = rev trR.*1 ++ rev T.*1) as Erev by (rewrite ET, fmap_app, rev_app_distr; done).
    assert (forall (T : list (@ylabel K1 unit * sys K1)) l, l ∈ rev T.*1 -> exists s1, (l, s1) ∈ T) as HT.
    { intros T' l Hl. apply elem_of_list_In in Hl. apply in_rev in Hl. apply elem_of_list_In, elem_of_list_fmap in Hl as ([l1 s1] & -> & Hl). by exists s1. }
    unfold outageb in H7. rewrite forallb_forall in H7.
    exists (rev trR.*1), sR, (rev T.*1), sX, r0, p. rewrite <- Erev. split; [by apply chain_run|]. split; [by apply chain_run|].
    split. { split; [|split].
      - intros d i r Hl. apply HT in Hl as [s1 Hl]. apply elem_of_list_In, H7 in Hl. by apply no_answerb_spec.
      - intros i r t Hl. apply HT in Hl as [s1 Hl]. apply elem_of_list_In, H7 in Hl. by apply no_answerb_spec.
      - intros i u r Hl. apply HT in Hl as [s1 Hl]. apply elem_of_list_In, H7 in Hl. clear -Hl. cbn beta iota in Hl. by destruct r. }
    split. { intros d i etag sp Hl. apply HT in Hl as [s1 Hl]. assert (Response 200 etag (Doc sp) ∈ repliesb trX) as Hi by (unfold repliesb; apply elem_of_list_omap; by eexists (_, _)).
      rewrite H6 in Hi. clear -Hi. rewrite !elem_of_cons, elem_of_nil in Hi. repeat (destruct Hi as [Hi|Hi]; [try discriminate Hi; by injection Hi|]). done. }
    split. { rewrite H4. intros exp doc (d & pd & E1 & E2 & E3 & _). cbn in E1. injection E1 as <-. cbn in E2, E3. first [injection E2 as <-|injection E3 as <-]; vm_compute; done. }
    split; [done|]. split; [done|]. split; [|done]. clear -H2. destruct (z_tasks (y_auth K1 sR) !! 1%nat) as [[]|]; done.
  Qed.
End example.
Print Assumptions C98_tokens_stay_valid.
Print Assumptions C98_fetchers_return_their_copies.
Print Assumptions C98_no_panic.
Print Assumptions C98_outage_takes_nothing_away.
Print Assumptions C98_expired_policy_comes_back.
Print Assumptions C98_outage_with_the_hook.
