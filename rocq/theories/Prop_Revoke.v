(** * Property C77: revocation *)
From Verif Require Import Prop_System Prop_Window SystemFacts SystemExec PolicyCheckers.
From Verif Require Prop_PubKey Prop_Fetcher Prop_Authorizer Prop_Access.
From Verif Require Import GoStrings.

Section claims.
  Context (K : crypto) (X : jwt_ext) {O : Type} (U : unicode) (parse : str -> option (verifier K)).
  Context (cf : @sconf O) (t0 : time) (n nk nj nu : nat) (calls : nat -> list bool).
  Notation s0 := (yinit K cf t0 n nk nj nu calls).
  Notation yrun := (yrun K X U parse cf s0).
  Notation happened := (happened K X U parse cf s0).
  Notation passed := (passed K X U parse cf s0).
  Notation took := (took K X U parse cf s0).
  Notation published_by := (published_by K X U parse cf s0).
  Notation downloaded := (downloaded K X U parse cf s0).
  Notation ylabel := (@ylabel K O).
  Notation now := (now K).
  Notation ystep := (ystep K X U parse cf).

  (** ** Which documents a cache was filled from *)
  (** Document [doc] was put into the cache with index [o]: by the Update that published that cache,
      or by an in-place refresh of it. *)
  Definition fed (ls : list ylabel) (o : nat) (doc : document) : Prop :=
    (exists m w exp t, published_by ls m o /\ took ls m w exp doc t) \/
    (exists w d c script exp l1 s1, happened ls (YObjTake K o w d c script) l1 s1 /\ answer_of K s1 d c = Some (exp, doc)).
  Lemma fed_mono ls l o doc : fed ls o doc -> fed (ls ++ l) o doc.
  Proof.
    intros [(m & w & exp & t & H1 & H2)|(w & d & c & sc & exp & l1 & s1 & H1 & H2)]; [left|right].
    - exists m, w, exp, t. split; [by apply published_mono|by apply took_mono].
    - exists w, d, c, sc, exp, l1, s1. split; [by apply happened_mono|done].
  Qed.

  Definition ufed (ls : list ylabel) (m : nat) (j : job) : Prop :=
    exists w doc, took ls m w (j_exp j) doc (j_now j) /\ script_of U doc (j_script j).
  Definition ofed (ls : list ylabel) (o : nat) (j : job) : Prop :=
    exists doc, fed ls o doc /\ script_of U doc (j_script j).
  Lemma ufed_mono ls l m j : ufed ls m j -> ufed (ls ++ l) m j.
  Proof. intros (w & doc & H & ?). exists w, doc. split; [by apply took_mono|done]. Qed.
  Lemma ofed_mono ls l o j : ofed ls o j -> ofed (ls ++ l) o j.
  Proof. intros (doc & H & ?). exists doc. split; [by apply fed_mono|done]. Qed.
  Definition binv_of (F : job -> Prop) (c : cst) : Prop := binv U ∅ (fun _ => F) (fun _ _ => True) c.
  Lemma binv_of_mono (F F' : job -> Prop) c : (forall j, F j -> F' j) -> binv_of F c -> binv_of F' c.
  Proof. intros H. apply binv_mono; [|done]. intros _ j. apply H. Qed.
  Lemma binv_of_step (F : job -> Prop) l c c' : cstep U l c = Some c' -> (forall i j, l = CWork i (IFetch (Ok j)) -> F j) -> binv_of F c -> binv_of F c'.
  Proof.
    intros Hs Hl H1. eapply cstep_binv; [exact Hs| |exact H1]. destruct l as [i [[j|e|]|t]|k]; try done. by eapply Hl.
  Qed.
  Lemma binv_of_ustep (F : job -> Prop) l u u' : ustep U l u = Some u' -> (forall i j, l = UWork i (IFetch (Ok j)) -> F j) ->
    binv_of F (u_c u) -> binv_of F (u_c u').
  Proof.
    intros Hs Hl Hi. apply ustep_c in Hs. destruct l as [| |i inp|]; cbn [proj crun] in Hs; try (by injection Hs as <-).
    destruct (cstep U (CWork i inp) (u_c u)) as [c|] eqn:E; [|done]. injection Hs as <-.
    eapply binv_of_step; [exact E| |exact Hi]. intros i' j Heq. injection Heq as -> ->. by eapply Hl.
  Qed.
  Lemma fed_ok ls s : yrun ls s ->
    (forall m u, y_upd K s !! m = Some u -> binv_of (ufed ls m) (u_c u)) /\ (forall o c, y_objs K s !! o = Some c -> binv_of (ofed ls o) c).
  Proof.
    intros H. induction H as [|ls l s s' H [IHu IHo] Hs].
    - split.
      + intros m u Hm. cbn in Hm. apply lookup_replicate in Hm as [-> _]. apply cinit_binv.
      + intros o c Ho. cbn in Ho. destruct o; [|done]. injection Ho as <-. apply (cinit_binv U ∅ _ _ 0%nat).
    - assert (forall m u, y_upd K s !! m = Some u -> binv_of (ufed (ls ++ [l]) m) (u_c u)) as Hu
        by (intros; eapply binv_of_mono; [|by eapply IHu]; intros; by apply ufed_mono).
      assert (forall o c, y_objs K s !! o = Some c -> binv_of (ofed (ls ++ [l]) o) c) as Ho
        by (intros; eapply binv_of_mono; [|by eapply IHo]; intros; by apply ofed_mono).
      clear IHu IHo.
      destruct Hs; try done; (split; [try done|try done]); cbn [set_upd set_obj publish y_upd y_objs].
      + intros m u0 Hm. apply list_lookup_insert_Some in Hm as [(<- & <- & _)|[_ Hm]]; [|by eapply Hu].
        eapply binv_of_ustep; [exact H1| |by eapply Hu]. intros i j ->. by specialize (H2 _ _ eq_refl).
      + intros m u0 Hm. apply list_lookup_insert_Some in Hm as [(<- & <- & _)|[_ Hm]]; [|by eapply Hu].
        eapply binv_of_ustep; [exact H3| |by eapply Hu]. intros i j Heq. injection Heq as <- <-.
        exists w, doc. split; [|done]. exists c, script, ls, s. split; [by apply happened_last|done].
      + intros m u0 Hm. apply list_lookup_insert_Some in Hm as [(<- & <- & _)|[_ Hm]]; [|by eapply Hu].
        eapply binv_of_ustep; [exact H1| |by eapply Hu]. done.
      + intros o c Hc. apply lookup_app_Some in Hc as [Hc|[Hge Hc]]; [by eapply Ho|].
        apply list_lookup_singleton_Some in Hc as [Hz <-].
        assert (binv_of (ufed (ls ++ [YUpd K n0 UFinish]) n0) (u_c u')) as [_ Hg].
        { eapply binv_of_ustep; [exact H1| |by eapply Hu]. done. }
        assert (u_cur u' = c_g (u_c u')) as ->.
        { cbn [ustep] in H1. destruct (u_ret u); [done|]. case_decide; [|done]. destruct (forallb _ _); [|done].
          destruct (u_err u); injection H1 as <-; [done|]. done. }
        eapply (binv_of_mono (ufed (ls ++ [YUpd K n0 UFinish]) n0)); [|by split; [intros i w Hi; done|exact Hg]].
        intros j (w & doc & Htk & Hsc). exists doc. split; [|done]. left. exists n0, w, (j_exp j), (j_now j). split; [|done].
        eexists ls, s, _. split; [by apply happened_last|]. split; [by eapply S_publish|]. cbn [publish set_upd y_objs].
        cbn in Hge, Hz. split; [apply lookup_ge_None; lia|]. apply lookup_lt_is_Some. rewrite app_length. cbn. lia.
      + intros o c0 Hc. apply list_lookup_insert_Some in Hc as [(<- & <- & _)|[_ Hc]]; [|by eapply Ho].
        destruct (Ho _ _ H0) as [Hw Hg]. split; cbn; try done.
        intros i w Hi. apply lookup_app_Some in Hi as [Hi|[_ Hi]]; [by apply Hw|]. apply list_lookup_singleton_Some in Hi as [_ <-]. done.
      + intros o0 c0 Hc. apply list_lookup_insert_Some in Hc as [(<- & <- & _)|[_ Hc]]; [|by eapply Ho].
        eapply binv_of_step; [exact H1| |by eapply Ho]. intros i j ->. by specialize (H2 _ _ eq_refl).
      + intros o0 c0 Hc. apply list_lookup_insert_Some in Hc as [(<- & <- & _)|[_ Hc]]; [|by eapply Ho].
        eapply binv_of_step; [exact H3| |by eapply Ho]. intros i j Heq. injection Heq as <- <-.
        exists doc. split; [|done]. right. exists w, d, cl, script, exp, ls, s. split; [by apply happened_last|done].
  Qed.

  (** ** When a check loads the pointer *)
  Lemma loaded ls s : yrun ls s -> forall i k, y_chk K s !! i = Some (Some k) ->
    exists l1 s1, happened ls (YLoad K i) l1 s1 /\ k_obj k = y_cur K s1.
  Proof.
    intros H. induction H as [|ls l s s' H IH Hs]; intros i k Hk.
    - cbn in Hk. by apply lookup_replicate in Hk as [? _].
    - assert (forall i k, y_chk K s !! i = Some (Some k) -> exists l1 s1, happened (ls ++ [l]) (YLoad K i) l1 s1 /\ k_obj k = y_cur K s1) as IH'.
      { intros i' k' Hk'. destruct (IH _ _ Hk') as (l1 & s1 & ? & ?). exists l1, s1. split; [by apply happened_mono|done]. }
      destruct Hs; try (by apply IH'); cbn [set_chk y_chk] in Hk.
      + apply list_lookup_insert_Some in Hk as [(-> & Heq & _)|[_ Hk]]; [|by apply IH']. injection Heq as <-.
        exists ls, s. split; [by apply happened_last|done].
      + apply list_lookup_insert_Some in Hk as [(-> & Heq & _)|[_ Hk]]; [|by apply IH']. injection Heq as <-. cbn. by apply IH'.
  Qed.
  Lemma cur_bound ls s : yrun ls s -> (y_cur K s < length (y_objs K s))%nat.
  Proof.
    intros H. induction H as [|ls l s s' H IH Hs]; [cbn; lia|].
    destruct Hs; cbn [set_auth set_keys set_jwk set_fetch set_upd set_obj publish set_chk y_objs y_cur]; rewrite ?insert_length, ?app_length; cbn; lia.
  Qed.
  (** The pointer moves to newer caches only. *)
  Lemma cur_mono l1 l2 s1 s : yrun l1 s1 -> yrun (l1 ++ l2) s -> (y_cur K s1 <= y_cur K s)%nat.
  Proof.
    intros H1. revert s. induction l2 as [|l l2 IH] using rev_ind; intros s H.
    - rewrite app_nil_r in H. assert (s1 = s) as -> by (by eapply yrun_det). lia.
    - rewrite app_assoc in H. apply yrun_snoc in H as (s2 & H2 & Hs). pose proof (cur_bound _ _ H2). apply IH in H2.
      destruct Hs; cbn [set_auth set_keys set_jwk set_fetch set_upd set_obj publish set_chk y_objs y_cur] in *; lia.
  Qed.
  Lemma chk_stays l1 l2 s1 s i k : yrun l1 s1 -> yrun (l1 ++ l2) s -> y_chk K s1 !! i = Some (Some k) ->
    exists k', y_chk K s !! i = Some (Some k').
  Proof.
    intros H1. revert s. induction l2 as [|l l2 IH] using rev_ind; intros s H Hk.
    - rewrite app_nil_r in H. assert (s1 = s) as -> by (by eapply yrun_det). eauto.
    - rewrite app_assoc in H. apply yrun_snoc in H as (s2 & H2 & Hs). destruct (IH _ H2 Hk) as [k' Hk'].
      destruct Hs; cbn [set_auth set_keys set_jwk set_fetch set_upd set_obj publish set_chk y_chk]; eauto;
        (destruct (decide (i0 = i)) as [->|Hne]; [rewrite list_lookup_insert by (by eapply lookup_lt_Some); eauto|rewrite list_lookup_insert_ne by done; eauto]).
  Qed.
  (** Calls only go forward: one that has begun never becomes idle, one that has ended stays so. *)
  Lemma task_forward l1 l2 s1 s i t : yrun l1 s1 -> yrun (l1 ++ l2) s -> z_tasks (y_auth K s1) !! i = Some t ->
    exists t', z_tasks (y_auth K s) !! i = Some t' /\ (t <> Authorizer.CIdle -> t' <> Authorizer.CIdle) /\
      (forall q r, t = CDone q r -> t' = t).
  Proof.
    intros H1. revert s. induction l2 as [|l l2 IH] using rev_ind; intros s H Ht.
    - rewrite app_nil_r in H. assert (s1 = s) as -> by (by eapply yrun_det). eauto.
    - rewrite app_assoc in H. apply yrun_snoc in H as (s2 & H2 & Hs). destruct (IH _ H2 Ht) as (t' & Ht' & Hi & Hd).
      destruct Hs; try (exists t'; done). cbn [set_auth y_auth]. clear H1 H0.
      assert (forall j u, z_tasks z = <[j := u]> (z_tasks (y_auth K s)) -> u <> Authorizer.CIdle ->
        (forall q r, z_tasks (y_auth K s) !! j <> Some (CDone q r)) ->
        exists t'', z_tasks z !! i = Some t'' /\ (t <> Authorizer.CIdle -> t'' <> Authorizer.CIdle) /\ (forall q r, t = CDone q r -> t'' = t)) as Hset.
      { intros j u -> Hu Hn. destruct (decide (j = i)) as [->|Hne].
        - rewrite list_lookup_insert by (by eapply lookup_lt_Some). exists u. split; [done|]. split; [done|].
          intros q r ->. rewrite (Hd _ _ eq_refl) in Ht'. by apply Hn in Ht'.
        - rewrite list_lookup_insert_ne by done. eauto. }
      match goal with Ha : zstep _ _ _ _ _ = Some _ |- _ => rename Ha into Hz end.
      destruct l as [tt|j q|j|j ks|j o|j r|j|kk|]; cbn [zstep] in Hz.
      + destruct (z_clock _ <=? tt); [|done]. injection Hz as <-. cbn. eauto.
      + destruct (z_tasks (y_auth K s) !! j) as [[]|] eqn:Ej; try done. injection Hz as <-. eapply Hset; [done|by case_match|]. by intros ? ?; rewrite Ej.
      + destruct (z_tasks (y_auth K s) !! j) as [[]|] eqn:Ej; try done. injection Hz as <-. eapply Hset; [done|by case_match|]. by intros ? ?; rewrite Ej.
      + destruct (z_tasks (y_auth K s) !! j) as [[]|] eqn:Ej; try done. injection Hz as <-. eapply Hset; [done|by repeat case_match|]. by intros ? ?; rewrite Ej.
      + destruct (z_tasks (y_auth K s) !! j) as [[]|] eqn:Ej; try done. injection Hz as <-. eapply Hset; [done|by repeat case_match|]. by intros ? ?; rewrite Ej.
      + destruct (z_tasks (y_auth K s) !! j) as [[]|] eqn:Ej; try done. injection Hz as <-. eapply Hset; [done|by repeat case_match|]. by intros ? ?; rewrite Ej.
      + destruct (z_tasks (y_auth K s) !! j) as [[]|] eqn:Ej; try done. injection Hz as <-. cbn. eapply Hset; [done|done|]. by intros ? ?; rewrite Ej.
      + destruct (z_cache (y_auth K s) !! kk) as [e|]; [|done]. destruct (g_valid _ e); [done|]. injection Hz as <-. cbn. eauto.
      + injection Hz as <-. cbn. eauto.
  Qed.
  (** Two states of one execution: one comes first. *)
  Lemma passed_cases ls l1 s1 l2 s2 : passed ls l1 s1 -> passed ls l2 s2 -> (exists x, l2 = l1 ++ x) \/ (exists x, l1 = l2 ++ x).
  Proof.
    intros [[a ->] _] [[b Heq] _]. apply app_eq_inv in Heq as [(k & -> & _)|(k & -> & _)]; eauto.
  Qed.
  Lemma happened_passed ls l l1 s1 : happened ls l l1 s1 -> passed ls l1 s1.
  Proof. intros [[l2 ->] H]. split; [by eexists|done]. Qed.

  (** ** C77 *)
  (** A check that accepts goes by the cache that was current when it loaded the pointer: each role
      it grants is one of the token that a document put into that cache allows. *)
  Theorem C77_grants_come_from_the_loaded_cache ls s j acc l2 s2 q p a r : yrun ls s ->
    happened ls (YAuth K (ZPolicy K j (Ok acc))) l2 s2 -> z_tasks (y_auth K s2) !! j = Some (CCheck q p a r) ->
    exists l1 s1, happened l2 (YLoad K j) l1 s1 /\ acc <> [] /\ forall role, role ∈ acc -> role ∈ pr_roles p /\
      exists doc, fed l2 (y_cur K s1) doc /\ doc_allows U (pr_domain p) a r doc role.
  Proof.
    intros Hr Hh2 Hcheck.
    destruct (happened_step K X U parse cf t0 n nk nj nu calls _ _ _ _ _ Hr Hh2) as [s3 Hs].
    inversion Hs as [? ? ? _ Hok| | | | | | | | | | | |]; subst. cbn in Hok. destruct Hok as (k & Hk & Hret).
    destruct Hh2 as [_ Hr2]. destruct (checks_ok K X U parse cf t0 n nk nj nu calls _ _ Hr2 _ _ Hk) as [(c0 & kls & Hrun & Hv) (t & Ht2 & Hpc)].
    rewrite Hcheck in Ht2. injection Ht2 as <-. destruct Hpc as [[]|(q2 & p2 & Heq & Hd & Hro)]. injection Heq as <- <- -> ->.
    destruct (loaded _ _ Hr2 _ _ Hk) as (l1 & s1 & Hl & Hcur). exists l1, s1. split; [done|]. rewrite <- Hcur.
    destruct (success_refresh _ _ _ _ _ _ _ _ _ _ Hrun Hret) as [Hne Hall]. split; [done|]. intros role Hin.
    destruct (Hall _ Hin) as [Hin' (cc & Hcc & x & (l & Hlx & Hx) & Hhit & Hal)]. rewrite Hro. split; [done|].
    destruct (Hv _ Hcc) as (l3 & s3' & obj & [[l4 ->] Hp] & Hobj & ->). rewrite g_view_lookup in Hlx. apply g_get_Some in Hlx as [e He].
    destruct (fed_ok _ _ Hp) as [_ Ho]. destruct (Ho _ _ Hobj) as [_ Hg]. destruct (Hg _ _ He) as [Hsrc _].
    destruct (Hsrc x Hx) as [(e' & He' & _)|(w & jj & rr & (doc & Hf & Hsc) & Hr' & Hk' & Hconv)]; [by rewrite lookup_empty in He'|].
    exists doc. split; [by apply fed_mono|]. rewrite Hd.
    destruct (PolicySimplifyProofs.script_sound _ _ _ Hsc rr Hr') as (pol & Hpol & Hrp). exists pol, rr. split_and!; [done..| |].
    - by apply (conv_hits U _ _ _ rr x).
    - intros Hy. apply (conv_effect U rr x Hconv) in Hy. by apply Hy.
  Qed.

  (** Revocation.  [s1]: any state, [y_cur s1] its current cache; [s2]: a later state by which the
      calls for the same cache key that had loaded a cache by [s1] have returned.  A call made more
      than the cache time after [s2], if accepted, goes by that cache or a newer one: each of its
      authorized roles is allowed by a document put into such a cache, for the translated request of
      a call with the same cache key. *)
  Theorem C77_old_caches_stop_counting ls s l1 s1 l2 s2 i q p lc sc : yrun ls s ->
    z_policy (s_z cf) = true -> 0 < z_exp (s_z cf) -> 0 <= t0 -> now s + z_exp (s_z cf) <= max_int64 ->
    passed l2 l1 s1 -> passed ls l2 s2 ->
    (forall j q' k, YAuth K (ZCall K j q') ∈ ls -> cache_key (s_z cf) q' = cache_key (s_z cf) q ->
       y_chk K s1 !! j = Some (Some k) -> exists q r, z_tasks (y_auth K s2) !! j = Some (CDone q r)) ->
    happened ls (YAuth K (ZCall K i q)) lc sc -> now s2 + z_exp (s_z cf) < now sc ->
    z_tasks (y_auth K s) !! i = Some (CDone q (Ok p)) ->
    exists q' p0 o a r, cache_key (s_z cf) q' = cache_key (s_z cf) q /\ target (s_z cf) o p0 q' = Ok (a, r) /\
      pr_domain p = pr_domain p0 /\ pr_roles p = pr_roles p0 /\ pr_auth p <> [] /\
      forall role, role ∈ pr_auth p -> role ∈ pr_roles p /\
        exists ob doc, (y_cur K s1 <= ob)%nat /\ fed ls ob doc /\ doc_allows U (pr_domain p) a r doc role.
  Proof.
    intros Hr Hpol Hexp Ht0 Hmax Hp1 Hp2 Hfin Hcall Hlate Hi.
    pose proof (run_auth K X U parse cf t0 n nk nj nu calls _ _ Hr) as Hz.
    destruct (machine_inv _ _ _ _ _ Hz) as (_ & Ht & _).
    destruct (Ht _ _ Hi) as (_ & _ & tl & _ & (j & q' & tv & ts & Hkey & (p0 & _ & Hev) & Hst & Hle & Hbound) & Hans).
    rewrite Hpol in Hev. destruct Hev as (acc & (z2 & o & a & r & Hocc & Hcheck & Htar) & ->).
    (* the answer came after the call was made *)
    assert (exists la sa t, passed ls la sa /\ z_tasks (y_auth K sa) !! i = Some t /\ t <> Authorizer.CIdle /\ now sa = tl) as (la & sa & ta & Hpa & Hta & Hna & Hnow).
    { destruct Hans as [(ts' & tv' & (z1 & Ho1 & Ht1 & Hc1) & -> & _)|(z1 & Ho1 & Ht1 & Hc1)];
        destruct (occurs_happened K X U parse cf t0 n nk nj nu calls _ _ _ _ Hr Ho1) as (la & sa & Hh & <-);
        exists la, sa; eexists; (split; [by eapply happened_passed|]); (split; [exact Ht1|]); done. }
    assert (now sc <= tl) as Hafter.
    { pose proof (happened_passed _ _ _ _ Hcall) as Hpc. rewrite <- Hnow.
      destruct (passed_cases _ _ _ _ _ Hpc Hpa) as [[x ->]|[x Hx]].
      - destruct Hpc as [_ Hc1], Hpa as [_ Ha1]. by eapply yrun_clock.
      - exfalso. destruct (happened_step K X U parse cf t0 n nk nj nu calls _ _ _ _ _ Hr Hcall) as [s' Hs'].
        inversion Hs' as [? ? ? Hzs _| | | | | | | | | | | |]; subst. cbn [zstep] in Hzs.
        destruct Hpc as [_ Hc1], Hpa as [_ Ha1]. destruct (task_forward _ _ _ _ _ _ Ha1 Hc1 Hta) as (t' & Ht' & Hn' & _).
        rewrite Ht' in Hzs. specialize (Hn' Hna). by destruct t'. }
    (* so the result was stored after [s2] *)
    destruct Hst as (zs & Hos & Hts & Hcs). destruct (occurs_happened K X U parse cf t0 n nk nj nu calls _ _ _ _ Hr Hos) as (lst & sst_ & Hhs & <-).
    pose proof (happened_passed _ _ _ _ Hhs) as Hps. pose proof (passed_clock K X U parse cf s0 _ _ _ _ Hps Hr) as Hcl.
    assert (t0 <= ts) as Hts0. { rewrite <- Hcs. destruct Hps as [_ Hq]. by apply (start_clock K X U parse cf t0 n nk nj nu calls) in Hq. }
    assert (ts <= now s) as Htsn by (unfold System.now in *; lia).
    specialize (Hbound Hexp ltac:(lia) ltac:(lia)).
    assert (exists x, lst = l2 ++ x) as [x ->].
    { destruct (passed_cases _ _ _ _ _ Hp2 Hps) as [Hx|[x Hx]]; [done|]. exfalso. subst l2. destruct Hps as [_ Hq1], Hp2 as [_ Hq2].
      pose proof (yrun_clock K X U parse cf s0 _ _ _ _ Hq1 Hq2) as Hcc. unfold System.now in *. lia. }
    (* and the policy check loaded its cache after [s1] *)
    destruct (occurs_happened K X U parse cf t0 n nk nj nu calls _ _ _ _ Hr Hocc) as (lp & sp & Hhp & <-).
    destruct (C77_grants_come_from_the_loaded_cache _ _ _ _ _ _ _ _ _ _ Hr Hhp Hcheck) as (ll & sl & Hhl & Hne & Hall).
    assert (happened ls (YLoad K j) ll sl) as Hhl'.
    { destruct Hhp as [[y ->] _]. by apply happened_mono. }
    assert (passed ls l1 s1) as Hp1'. { destruct Hp2 as [[y ->] _]. by apply passed_mono. }
    assert (exists y, ll = l1 ++ y) as [y ->].
    { pose proof (happened_passed _ _ _ _ Hhl') as Hpl. destruct (passed_cases _ _ _ _ _ Hp1' Hpl) as [Hx|[y Hy]]; [done|].
      destruct y as [|y0 y]; [exists []; by rewrite app_nil_r in Hy |- *|]. exfalso.
      assert (y0 = YLoad K j) as ->.
      { destruct Hp1' as [[b Hb] _], Hhl' as [[c Hc] _]. subst l1. rewrite <- app_assoc in Hb. rewrite Hb in Hc. apply app_inv_head in Hc. by injection Hc. }
      destruct Hp1' as [_ Hq1]. subst l1. pose proof (yrun_at K X U parse cf s0 _ _ _ _ Hq1) as (w1 & w2 & Hw1 & Hws & Hw2).
      assert (exists k, y_chk K w2 !! j = Some (Some k)) as [k Hk].
      { inversion Hws; subst. cbn [set_chk y_chk]. rewrite list_lookup_insert by (by eapply lookup_lt_Some). eauto. }
      replace (ll ++ YLoad K j :: y) with ((ll ++ [YLoad K j]) ++ y) in Hq1 by (by rewrite <- app_assoc).
      destruct (chk_stays _ _ _ _ _ _ Hw2 Hq1 Hk) as [k' Hk'].
      assert (YAuth K (ZCall K j q') ∈ ls) as Hin.
      { destruct Hps as [[b Hb] Hq]. pose proof (run_auth K X U parse cf t0 n nk nj nu calls _ _ Hq) as Hz'.
        destruct (machine_inv _ _ _ _ _ Hz') as (_ & Ht' & _). destruct (Ht' _ _ Hts) as [Hin _]. rewrite Hb. apply elem_of_app. left.
        apply elem_of_list_split in Hin as (b1 & b2 & Hb12). apply auths_split in Hb12 as (L1 & L2 & -> & _). apply elem_of_app. right. left. }
      destruct (Hfin _ _ _ Hin Hkey Hk') as (q1 & r1 & Hdone). destruct Hp2 as [_ Hq2], Hps as [_ Hq].
      destruct (task_forward _ _ _ _ _ _ Hq2 Hq Hdone) as (t' & Ht' & _ & Hd'). rewrite (Hd' _ _ eq_refl) in Ht'. rewrite Hts in Ht'. discriminate Ht'. }
    assert (y_cur K s1 <= y_cur K sl)%nat as Hcur. { destruct Hp1' as [_ Hq1], Hhl' as [_ Hq]. by eapply cur_mono. }
    exists q', p0, o, a, r. split; [done|]. split; [done|]. split; [done|]. split; [done|]. split; [done|].
    intros role Hrole. destruct (Hall role Hrole) as (Hro & doc & Hf & Hd). split; [done|]. exists (y_cur K sl), doc. split; [done|]. split; [|done].
    destruct Hhp as [[y' ->] _]. by apply fed_mono.
  Qed.

  (** ** Revocation at the server *)
  (** From [lr] on the server speaks of policies satisfying [P] only, which may depend on the domain:
      those it sends, those it confirms with status 304, and the copies that calls fall back on after
      all attempts failed. *)
  Definition served_at (ls lr : list ylabel) (P : nat -> signed_policy -> Prop) : Prop :=
    (forall d i etag sp x s', happened ls (YReply K d i (Response 200 etag (Doc sp))) (lr ++ x) s' -> P d sp) /\
    (forall d i etag b x s' f rt tp inm t, happened ls (YReply K d i (Response 304 etag b)) (lr ++ x) s' ->
       y_fetch K s' !! d = Some f -> fs_calls f !! i = Some (FSent rt (Some tp) inm t) -> P d (t_sp tp)) /\
    (forall d i x s' s'' f sp e, happened ls (YSend K d i) (lr ++ x) s' -> ystep (YSend K d i) s' s'' ->
       y_fetch K s'' !! d = Some f -> fs_calls f !! i = Some (FRet (Some sp) (Some e)) -> P d sp).
  Definition served (ls lr : list ylabel) (P : signed_policy -> Prop) : Prop := served_at ls lr (fun _ => P).
  (** Call [c] on the fetcher of domain [d] had not returned in state [sr]. *)
  Definition unreturned (sr : sys K) (d c : nat) : Prop :=
    forall f sp e, y_fetch K sr !! d = Some f -> fs_calls f !! c <> Some (FRet sp e).
  (** The caches from index [o] on were filled by calls that had not returned in state [sr]. *)
  Definition filled_after (ls : list ylabel) (sr : sys K) (o : nat) : Prop :=
    (forall ob m w c script l' s', (o <= ob)%nat -> published_by ls m ob -> happened ls (YTake K m w c script) l' s' -> unreturned sr w c) /\
    (forall ob w d c script l' s', (o <= ob)%nat -> happened ls (YObjTake K ob w d c script) l' s' -> unreturned sr d c).

  Lemma returned_P ls lr sr P s x : served_at ls lr P -> yrun lr sr -> yrun (lr ++ x) s -> (exists y, ls = (lr ++ x) ++ y) ->
    forall d f c sp e, y_fetch K s !! d = Some f -> fs_calls f !! c = Some (FRet (Some sp) e) -> unreturned sr d c -> P d sp.
  Proof.
    intros (Ha & Hb & Hc) Hr0. revert s. induction x as [|l x IH] using rev_ind; intros s H [y Hy] d f c sp e Hf Hcall Hun.
    - rewrite app_nil_r in H. assert (sr = s) as -> by (by eapply yrun_det). by destruct (Hun _ (Some sp) e Hf).
    - rewrite app_assoc in H, Hy. apply yrun_snoc in H as (s2 & H2 & Hs).
      assert (happened ls l (lr ++ x) s2) as Hh. { split; [|done]. exists y. rewrite Hy. by rewrite <- app_assoc. }
      assert (forall d f c sp e, y_fetch K s2 !! d = Some f -> fs_calls f !! c = Some (FRet (Some sp) e) -> unreturned sr d c -> P d sp) as IH'.
      { apply IH; [done|]. exists (l :: y). rewrite Hy. by rewrite <- !app_assoc. }
      clear IH. pose proof Hs as Hs0.
      destruct Hs; try (by eapply IH'); cbn [set_fetch y_fetch] in Hf; apply list_lookup_insert_Some in Hf as [(<- & <- & Hlt)|[_ Hf]]; try (by eapply IH').
      + (* sent *)
        assert (fs_calls f0 !! c = Some (FRet (Some sp) e) \/ fs_calls f0 !! c <> Some (FRet (Some sp) e)) as [Hold|Hnew]; [|by eapply IH'|].
        { cbn [fstep] in H1. destruct (decide (i = c)) as [->|Hne]; [right; intros Hx; by rewrite Hx in H1|left].
          repeat (case_match; try done); injection H1 as <-; cbn [fs_calls] in Hcall; by rewrite list_lookup_insert_ne in Hcall. }
        destruct (fstep_return _ _ _ _ _ _ _ _ H1 Hcall Hnew) as [(? & ? & ? & ? & _)|[(k & last & nw & Hk & [= <- _] & _ & Hsp & He)|[? _]]]; [done| |done].
        destruct e as [e|]; [|done]. eapply (Hc d0 i x s (set_fetch K d0 f' s)); [exact Hh|exact Hs0| |exact Hcall].
        cbn [set_fetch y_fetch]. by rewrite list_lookup_insert.
      + (* answered *)
        cbn [fstep] in H1. destruct (fs_calls f0 !! i) as [[| |retry tp inm at_| |]|] eqn:Ei; try done.
        destruct (fetch_response K fc tp (get_pub_key (y_keys K s)) (now s) r) as [res upd] eqn:E. injection H1 as <-. cbn [fs_calls] in Hcall.
        apply list_lookup_insert_Some in Hcall as [(<- & Hw & _)|[_ Hcall]]; [|by eapply IH'].
        destruct res as [sp'|e'|]; [|by destruct retry|done]. injection Hw as -> <-.
        unfold fetch_response in E. destruct r as [?|status etag b]; [done|]. destruct (Z.eqb_spec status 304) as [->|].
        { destruct tp as [tp|]; [|done]. injection E as <- <-. by eapply Hb. }
        destruct (Z.eqb_spec status 200) as [->|]; [|done]. cbn [negb] in E. destruct b as [| |sp'']; [done|by destruct (sp_verify _ _ _ _)|].
        destruct (sp_verify _ _ _ _) as [[]| |]; try done. destruct (sp_data sp'') as [dd|]; [|done]. destruct (sd_expires dd); [|done].
        injection E as -> <-. by eapply Ha.
  Qed.
  (** A call that has returned stays so. *)
  Lemma ret_stays l1 x s1 s d f c sp e : yrun l1 s1 -> yrun (l1 ++ x) s -> y_fetch K s1 !! d = Some f -> fs_calls f !! c = Some (FRet sp e) ->
    exists f', y_fetch K s !! d = Some f' /\ fs_calls f' !! c = Some (FRet sp e).
  Proof.
    intros Hrun Hs Ef Ec. revert s Hs. induction x as [|l x IH] using rev_ind; intros s Hs.
    - rewrite app_nil_r in Hs. assert (s1 = s) as -> by (by eapply yrun_det). eauto.
    - rewrite app_assoc in Hs. apply yrun_snoc in Hs as (s2 & H2 & Hs). destruct (IH _ H2) as (f1 & Hf1 & Hc1).
      destruct Hs; try (by exists f1); cbn [set_fetch y_fetch]; (destruct (decide (d0 = d)) as [->|Hne];
        [rewrite list_lookup_insert by (by eapply lookup_lt_Some); eexists; split; [done|]; assert (f0 = f1) as -> by congruence
        |rewrite list_lookup_insert_ne by done; eauto]);
        match goal with Hx : fstep _ _ _ _ = Some _ |- _ => cbn [fstep] in Hx; destruct (decide (i = c)) as [->|Hic];
          [rewrite Hc1 in Hx; done|];
          repeat (case_match; try done); injection Hx as <-; cbn [fs_calls]; by rewrite list_lookup_insert_ne end.
  Qed.
  Lemma answer_P ls lr sr P l' s' d c exp doc : served_at ls lr P -> yrun lr sr -> passed ls lr sr -> passed ls l' s' ->
    answer_of K s' d c = Some (exp, doc) -> unreturned sr d c -> exists sp, P d sp /\ content sp exp doc.
  Proof.
    intros Hsv Hr0 Hpr Hp' Ha Hun. unfold answer_of in Ha. destruct (y_fetch K s' !! d) as [f|] eqn:Ef; [|done].
    destruct (fs_calls f !! c) as [[| | |sp e|]|] eqn:Ec; try done. destruct (fetched_policy sp e) as [rr| |] eqn:Er; [|done..].
    injection Ha as ->. apply fetched_content in Er as (sp' & -> & Hcon). exists sp'. split; [|done].
    destruct (passed_cases _ _ _ _ _ Hpr Hp') as [[x ->]|[x Hx]].
    - destruct Hp' as [Hy Hrun]. by eapply (returned_P ls lr sr P s' x).
    - (* a call that returned before [sr] still has in [sr] *)
      exfalso. subst lr. destruct Hp' as [_ Hrun].
      destruct (ret_stays _ _ _ _ _ _ _ _ _ Hrun Hr0 Ef Ec) as (f1 & Hf1 & Hc1). exact (Hun _ _ _ Hf1 Hc1).
  Qed.

  (** Revocation, end to end: from state [sr] on the server speaks of policies satisfying [P] only;
      the cache current in [s1] and the later ones were filled by calls that returned after [sr];
      by [s2] the calls that had loaded an older one have returned.  Every authorized role of a call
      made more than the cache time later is allowed by a policy satisfying [P]. *)
  Theorem C77_revoked_policies_stop_counting ls s lr sr P l1 s1 l2 s2 i q p lc sc : yrun ls s ->
    z_policy (s_z cf) = true -> 0 < z_exp (s_z cf) -> 0 <= t0 -> now s + z_exp (s_z cf) <= max_int64 ->
    passed ls lr sr -> served ls lr P -> filled_after ls sr (y_cur K s1) ->
    passed l2 l1 s1 -> passed ls l2 s2 ->
    (forall j q' k, YAuth K (ZCall K j q') ∈ ls -> cache_key (s_z cf) q' = cache_key (s_z cf) q ->
       y_chk K s1 !! j = Some (Some k) -> exists q r, z_tasks (y_auth K s2) !! j = Some (CDone q r)) ->
    happened ls (YAuth K (ZCall K i q)) lc sc -> now s2 + z_exp (s_z cf) < now sc ->
    z_tasks (y_auth K s) !! i = Some (CDone q (Ok p)) ->
    exists q' p0 o a r, cache_key (s_z cf) q' = cache_key (s_z cf) q /\ target (s_z cf) o p0 q' = Ok (a, r) /\
      pr_domain p = pr_domain p0 /\ pr_roles p = pr_roles p0 /\ pr_auth p <> [] /\
      forall role, role ∈ pr_auth p -> role ∈ pr_roles p /\
        exists sp exp doc, P sp /\ content sp exp doc /\ doc_allows U (pr_domain p) a r doc role.
  Proof.
    intros Hr Hpol Hexp Ht0 Hmax Hpr Hsv [Hfu Hfo] Hp1 Hp2 Hfin Hcall Hlate Hi.
    destruct (C77_old_caches_stop_counting _ _ _ _ _ _ _ _ _ _ _ Hr Hpol Hexp Ht0 Hmax Hp1 Hp2 Hfin Hcall Hlate Hi)
      as (q' & p0 & o & a & r & H1 & H2 & H3 & H4 & H5 & Hall).
    exists q', p0, o, a, r. do 5 (split; [done|]). intros role Hrole. destruct (Hall _ Hrole) as (Hro & ob & doc & Hob & Hf & Hal). split; [done|].
    pose proof Hpr as [_ Hr0].
    destruct Hf as [(m & w & exp & t & Hpub & c & sc' & l' & s' & Hh & Ha & _)|(w & d & c & sc' & exp & l' & s' & Hh & Ha)].
    - destruct (answer_P _ _ _ _ _ _ _ _ _ _ Hsv Hr0 Hpr (happened_passed _ _ _ _ Hh) Ha) as (sp & HP & Hcon); [by eapply Hfu|]. by exists sp, exp, doc.
    - destruct (answer_P _ _ _ _ _ _ _ _ _ _ Hsv Hr0 Hpr (happened_passed _ _ _ _ Hh) Ha) as (sp & HP & Hcon); [by eapply Hfo|]. by exists sp, exp, doc.
  Qed.
  (** Each goroutine uses the answer of a call that began when the goroutine was already running
      (policy/daemon.go:163-170, :299: it makes the call itself). *)
  Definition idle_call (s : sys K) (d c : nat) : Prop :=
    exists f b, y_fetch K s !! d = Some f /\ fs_calls f !! c = Some (FIdle b).
  Definition own_calls (ls : list ylabel) : Prop :=
    (forall m w c script l' s', happened ls (YTake K m w c script) l' s' ->
       exists la sa u, passed ls la sa /\ y_upd K sa !! m = Some u /\ (w < u_spawned u)%nat /\ idle_call sa w c) /\
    (forall o w d c script l' s', happened ls (YObjTake K o w d c script) l' s' ->
       exists la sa, passed ls la sa /\ is_Some (y_objs K sa !! o) /\ idle_call sa d c).
  Lemma spawned_mono l1 x s1 s m u : yrun l1 s1 -> yrun (l1 ++ x) s -> y_upd K s1 !! m = Some u ->
    exists u', y_upd K s !! m = Some u' /\ (u_spawned u <= u_spawned u')%nat.
  Proof.
    intros H1. revert s. induction x as [|l x IH] using rev_ind; intros s H Hu.
    - rewrite app_nil_r in H. assert (s1 = s) as -> by (by eapply yrun_det). eauto.
    - rewrite app_assoc in H. apply yrun_snoc in H as (s2 & H2 & Hs). destruct (IH _ H2 Hu) as (u1 & Hu1 & Hle).
      assert (forall l u2, ustep U l u1 = Some u2 -> (u_spawned u <= u_spawned u2)%nat) as Hst.
      { intros l' u2 Hx. destruct l'; cbn [ustep] in Hx; repeat (case_match; try done); injection Hx as <-; cbn; lia. }
      destruct Hs; try (by exists u1); cbn [set_upd publish y_upd]; (destruct (decide (n0 = m)) as [->|Hne];
        [rewrite list_lookup_insert by (by eapply lookup_lt_Some); eexists; split; [done|];
         match goal with Ha : ustep U _ ?y = Some _ |- _ => assert (y = u1) as -> by congruence; by eapply Hst end
        |rewrite list_lookup_insert_ne by done; eauto]).
  Qed.
  (** [s1] has a cache published after [sr], and every Update that published that cache or a newer
      one started after [sr]. *)
  Definition updated_since (ls : list ylabel) (sr s1 : sys K) : Prop :=
    (length (y_objs K sr) <= y_cur K s1)%nat /\
    forall ob m u, (y_cur K s1 <= ob)%nat -> published_by ls m ob -> y_upd K sr !! m = Some u -> u_spawned u = 0%nat.
  Lemma filled_since ls s lr sr s1 : yrun ls s -> passed ls lr sr -> own_calls ls -> updated_since ls sr s1 -> filled_after ls sr (y_cur K s1).
  Proof.
    intros Hr Hpr [Hou Hoo] [Hlen Hup].
    assert (forall la sa d c, passed ls la sa -> idle_call sa d c -> (exists x, la = lr ++ x) -> unreturned sr d c) as Hlater.
    { intros la sa d c [_ Hra] (f & b & Hf & Hc) [x ->] f1 sp e Hf1 Hc1. destruct Hpr as [_ Hr0].
      destruct (ret_stays _ _ _ _ _ _ _ _ _ Hr0 Hra Hf1 Hc1) as (f2 & Hf2 & Hc2). congruence. }
    split.
    - intros ob m w c script l' s' Hob Hpub Hh. destruct (Hou _ _ _ _ _ _ Hh) as (la & sa & u & Hpa & Hu & Hw & Hidle).
      destruct (passed_cases _ _ _ _ _ Hpr Hpa) as [Hx|[x Hx]]; [by eapply Hlater|]. exfalso. subst lr. destruct Hpr as [_ Hr0], Hpa as [_ Hra].
      destruct (spawned_mono _ _ _ _ _ _ Hra Hr0 Hu) as (u' & Hu' & Hle). pose proof (Hup _ _ _ Hob Hpub Hu'). lia.
    - intros ob w d c script l' s' Hob Hh. destruct (Hoo _ _ _ _ _ _ _ Hh) as (la & sa & Hpa & Ho & Hidle).
      destruct (passed_cases _ _ _ _ _ Hpr Hpa) as [Hx|[x Hx]]; [by eapply Hlater|]. exfalso. subst lr. destruct Hpr as [_ Hr0], Hpa as [_ Hra].
      pose proof (yrun_objs K X U parse cf t0 n nk nj nu calls _ _ _ _ Hra Hr0). apply lookup_lt_is_Some in Ho. lia.
  Qed.
  (** The same with the goroutines making their own calls. *)
  Theorem C77_revocation ls s lr sr P l1 s1 l2 s2 i q p lc sc : yrun ls s -> own_calls ls ->
    z_policy (s_z cf) = true -> 0 < z_exp (s_z cf) -> 0 <= t0 -> now s + z_exp (s_z cf) <= max_int64 ->
    passed ls lr sr -> served ls lr P -> updated_since ls sr s1 ->
    passed l2 l1 s1 -> passed ls l2 s2 ->
    (forall j q' k, YAuth K (ZCall K j q') ∈ ls -> cache_key (s_z cf) q' = cache_key (s_z cf) q ->
       y_chk K s1 !! j = Some (Some k) -> exists q r, z_tasks (y_auth K s2) !! j = Some (CDone q r)) ->
    happened ls (YAuth K (ZCall K i q)) lc sc -> now s2 + z_exp (s_z cf) < now sc ->
    z_tasks (y_auth K s) !! i = Some (CDone q (Ok p)) ->
    exists q' p0 o a r, cache_key (s_z cf) q' = cache_key (s_z cf) q /\ target (s_z cf) o p0 q' = Ok (a, r) /\
      pr_domain p = pr_domain p0 /\ pr_roles p = pr_roles p0 /\ pr_auth p <> [] /\
      forall role, role ∈ pr_auth p -> role ∈ pr_roles p /\
        exists sp exp doc, P sp /\ content sp exp doc /\ doc_allows U (pr_domain p) a r doc role.
  Proof.
    intros Hr Hown Hpol Hexp Ht0 Hmax Hpr Hsv Hup Hp1 Hp2 Hfin Hcall Hlate Hi.
    apply (C77_revoked_policies_stop_counting ls s lr sr P l1 s1 l2 s2 i q p lc sc); try done. by eapply filled_since.
  Qed.
End claims.

(** ** An execution with a revocation
    A policy allowing role r1 is loaded and used; then the server serves one that allows role r2
    instead, and a second Update loads it.  The next request is still answered from the cache of
    results; after the cache time the request is granted to r2 only. *)
Section drive.
  Context (K : crypto) (X : jwt_ext) {O : Type} (U : unicode) (parse : str -> option (verifier K)) (cf : @sconf O).
  Notation drive := (drive K X U parse cf).
  Lemma drive_app cs cs' tr s : drive (cs ++ cs') tr s = match drive cs tr s with Some (tr', s') => drive cs' tr' s' | None => None end.
  Proof. revert tr s. induction cs as [|c cs IH]; intros tr s; cbn [app SystemExec.drive]; [done|]. destruct (yexec _ _ _ _ _ c s) as [[l s']|]; [apply IH|done]. Qed.
  Lemma drive_suffix cs tr s tr' s' : drive cs tr s = Some (tr', s') -> exists x, rev tr'.*1 = rev tr.*1 ++ x.
  Proof.
    revert tr s. induction cs as [|c cs IH]; intros tr s; cbn [SystemExec.drive]; [intros [= <- <-]; exists []; by rewrite app_nil_r|].
    destruct (yexec _ _ _ _ _ c s) as [[l s1]|]; [|done]. intros [x Hx]%IH. exists (l :: x). rewrite Hx. cbn. by rewrite <- app_assoc.
  Qed.
  Lemma drive_first c cs tr s tr' s' : drive (c :: cs) tr s = Some (tr', s') ->
    exists l s1 x, yexec K X U parse cf c s = Some (l, s1) /\ rev tr'.*1 = rev tr.*1 ++ l :: x.
  Proof.
    cbn [SystemExec.drive]. destruct (yexec _ _ _ _ _ c s) as [[l s1]|]; [|done]. intros [x Hx]%drive_suffix.
    exists l, s1, x. split; [done|]. rewrite Hx. cbn. by rewrite <- app_assoc.
  Qed.
End drive.

Section example.
  Import Prop_PubKey Prop_Fetcher Prop_Authorizer Prop_Access.
  Definition rcf : @sconf unit := SConf (cfz true (5 * second) (AConf false 0 0 false ∅)) pcf1 (JConf (B "https://zts/keys") []) [cf1].
  Definition rdoc1 : document := [[Raw (B "dom:role.r1") (B "get") (B "dom:/p/*") (B "ALLOW")]].
  Definition rdoc2 : document := [[Raw (B "dom:role.r2") (B "get") (B "dom:/p/*") (B "ALLOW")]].
  Definition rpol1 := pol1 (B "dom") rdoc1 (200 * second).
  Definition rpol2 := pol1 (B "dom") rdoc2 (200 * second).
  Definition update_cmds (m c : nat) (sp : signed_policy) : list (@cmd unit) :=
    [DSend 0 c; DReply 0 c (Response 200 (B "a") (Doc sp)); DTake m 0 c] ++ replicate 3 (DWork m 0) ++ [DFinish m].
  Definition rcall (i w0 w1 ms : nat) (q : request) : list (@cmd unit) := wcall i w0 w1 ms q ++ [DStore i].
  Definition csS : list (@cmd unit) := keys_cmds 0 (B "ZTSKEY") ++ keys_cmds 1 (B "ZMSKEY") ++ [DSpawn 0].
  Definition csA : list (@cmd unit) := update_cmds 0 0 rpol1 ++
    [DTick (52 * second)] ++ rcall 0 6 3 3 (rq (B "/a") []).
  Definition csT : list (@cmd unit) := [DSpawn 1].
  Definition csB := update_cmds 1 1 rpol2.
  Definition csC : list (@cmd unit) := [DTick (53 * second)].
  Definition csD : list (@cmd unit) := [DCall 1 (rq (B "/a") []); DLook 1; DTick (58 * second)].
  Definition csE := rcall 2 3 6 3 (rq (B "/a") []).
  Definition rinit : sys K1 := yinit K1 rcf t0 3 2 0 2 (fun _ => [false; false]).
  Notation drive1 := (drive K1 X0 U0 parse1 rcf).
  (** Observations: what the states and the traces show. *)
  Definition fetch_calls (s : sys K1) : list (list (option bool)) :=
    map (fun f => map (fun c => match c with FIdle b => Some b | _ => None end) (fs_calls f)) (y_fetch K1 s).
  Definition checked (s : sys K1) : list bool := map (fun k => match k with Some _ => true | None => false end) (y_chk K1 s).
  Definition tasks (s : sys K1) : list (option (request * option (list str * list str * str))) :=
    map (fun t => match t with CDone q (Ok p) => Some (q, Some (pr_auth p, pr_roles p, pr_domain p)) | CDone q _ => Some (q, None) | _ => None end) (z_tasks (y_auth K1 s)).
  Definition obs (s : sys K1) := (fetch_calls s, checked s, tasks s, (y_cur K1 s, length (y_objs K1 s), map u_spawned (y_upd K1 s)), now K1 s).
  Inductive ev :=
  | EReply (t : time) (st : Z) (b : body signed_policy) | EFailed | ESend (k : option bool)
  | ETake (m w c : nat) (a : option (time * document)) | EObjTake | EFinish (m : nat) (objs : nat).
  Definition events (tr : list (@ylabel K1 unit * sys K1)) : list ev :=
    omap (fun '(l, s) => match l with
      | YReply _ _ _ (Response st _ b) => Some (EReply (now K1 s) st b)
      | YReply _ _ _ (Failed _) => Some EFailed
      | YSend _ d i => Some (ESend (mjoin (fetch_calls s !! d ≫= fun f => f !! i)))
      | YTake _ m w c _ => Some (ETake m w c (answer_of K1 s w c))
      | YObjTake _ _ _ _ _ _ => Some EObjTake
      | YUpd _ m UFinish => Some (EFinish m (length (y_objs K1 s)))
      | _ => None
      end) tr.
  Notation yrun1 := (System.yrun K1 X0 U0 parse1 rcf rinit).
  Notation happened1 := (happened K1 X0 U0 parse1 rcf rinit).
  Notation passed1 := (passed K1 X0 U0 parse1 rcf rinit).
  Definition q1 : request := rq (B "/a") [].
  Definition granted_to (role : str) : option (request * option (list str * list str * str)) :=
    Some (q1, Some ([role], [B "r1"; B "r2"], B "dom")).
  Definition all_events : list ev :=
    [EFinish 1 2; ETake 1 0 1 (Some (200 * second, rdoc2)); EReply (52 * second) 200 (Doc rpol2); ESend (Some false);
     EFinish 0 1; ETake 0 0 0 (Some (200 * second, rdoc1)); EReply (50 * second) 200 (Doc rpol1); ESend (Some false)].
  (** The run: the keys and the start of an Update; a request, up to the change at the server; the
      start of the second Update; its end; a tick; a request and ticks; the last request. *)
  Lemma the_run : exists lS sS lA sA lT sT lB sB lC sC lD sD lE sE,
    yrun1 lS sS /\ yrun1 lT sT /\ (exists x, lE = lS ++ x) /\ (exists x, lE = lT ++ x) /\
    yrun1 lA sA /\ yrun1 lB sB /\ yrun1 lC sC /\ yrun1 lD sD /\ yrun1 lE sE /\
    (exists x, lE = lA ++ x) /\ (exists x, lE = lB ++ x) /\ (exists x, lD = lB ++ x) /\ (exists x, lC = lB ++ x) /\
    happened1 lE (YAuth K1 (ZCall K1 1 q1)) lC sC /\ happened1 lE (YAuth K1 (ZCall K1 2 q1)) lD sD /\
    (forall l l1 s1, happened1 lE l l1 s1 -> forall e, e ∈ events [(l, s1)] -> e ∈ all_events) /\
    obs sS = ([[Some false; Some false]], [false; false; false], [None; None; None], (0%nat, 1%nat, [1%nat; 0%nat]), 50 * second) /\
    obs sT = ([[None; Some false]], [true; false; false], [granted_to (B "r1"); None; None], (1%nat, 2%nat, [1%nat; 1%nat]), 52 * second) /\
    obs sA = ([[None; Some false]], [true; false; false], [granted_to (B "r1"); None; None], (1%nat, 2%nat, [1%nat; 0%nat]), 52 * second) /\
    obs sB = ([[None; None]], [true; false; false], [granted_to (B "r1"); None; None], (2%nat, 3%nat, [1%nat; 1%nat]), 52 * second) /\
    obs sC = ([[None; None]], [true; false; false], [granted_to (B "r1"); None; None], (2%nat, 3%nat, [1%nat; 1%nat]), 53 * second) /\
    obs sD = ([[None; None]], [true; false; false], [granted_to (B "r1"); granted_to (B "r1"); None], (2%nat, 3%nat, [1%nat; 1%nat]), 58 * second) /\
    obs sE = ([[None; None]], [true; false; true], [granted_to (B "r1"); granted_to (B "r1"); granted_to (B "r2")], (2%nat, 3%nat, [1%nat; 1%nat]), 58 * second).
  Proof.
    assert (
      match drive1 csS [] rinit with None => None | Some (trS, sS) =>
        match drive1 csA trS sS with None => None | Some (trA, sA) =>
          match drive1 csT trA sA with None => None | Some (trT, sT) =>
            match drive1 csB trT sT with None => None | Some (trB, sB) =>
              match drive1 csC trB sB with None => None | Some (trC, sC) =>
                match drive1 csD trC sC with None => None | Some (trD, sD) =>
                  match drive1 csE trD sD with None => None | Some (trE, sE) =>
      Some (obs sS, obs sA, obs sT, obs sB, obs sC, obs sD, obs sE, events trE)
       end end end end end end end
      = Some (([[Some false; Some false]], [false; false; false], [None; None; None], (0%nat, 1%nat, [1%nat; 0%nat]), 50 * second),
        ([[None; Some false]], [true; false; false], [granted_to (B "r1"); None; None], (1%nat, 2%nat, [1%nat; 0%nat]), 52 * second),
        ([[None; Some false]], [true; false; false], [granted_to (B "r1"); None; None], (1%nat, 2%nat, [1%nat; 1%nat]), 52 * second),
        ([[None; None]], [true; false; false], [granted_to (B "r1"); None; None], (2%nat, 3%nat, [1%nat; 1%nat]), 52 * second),
        ([[None; None]], [true; false; false], [granted_to (B "r1"); None; None], (2%nat, 3%nat, [1%nat; 1%nat]), 53 * second),
        ([[None; None]], [true; false; false], [granted_to (B "r1"); granted_to (B "r1"); None], (2%nat, 3%nat, [1%nat; 1%nat]), 58 * second),
        ([[None; None]], [true; false; true], [granted_to (B "r1"); granted_to (B "r1"); granted_to (B "r2")], (2%nat, 3%nat, [1%nat; 1%nat]), 58 * second), all_events)) as Ho
      by (vm_compute; reflexivity).
    destruct (drive1 csS [] rinit) as [[trS sS]|] eqn:ES; [|discriminate Ho].
    destruct (drive1 csA trS sS) as [[trA sA]|] eqn:EA; [|discriminate Ho].
    destruct (drive1 csT trA sA) as [[trT sT]|] eqn:ET; [|discriminate Ho].
    destruct (drive1 csB trT sT) as [[trB sB]|] eqn:EB; [|discriminate Ho].
    destruct (drive1 csC trB sB) as [[trC sC]|] eqn:EC; [|discriminate Ho].
    destruct (drive1 csD trC sC) as [[trD sD]|] eqn:ED; [|discriminate Ho].
    destruct (drive1 csE trD sD) as [[trE sE]|] eqn:EE; [|discriminate Ho].
    pose proof (drive_run _ _ _ _ _ _ _ _ _ ES) as TS.
    pose proof (drive_traced _ _ _ _ _ _ _ _ _ _ _ EA TS) as TA. destruct (drive_suffix _ _ _ _ _ _ _ _ _ _ EA) as [xA HA].
    pose proof (drive_traced _ _ _ _ _ _ _ _ _ _ _ ET TA) as TT. destruct (drive_suffix _ _ _ _ _ _ _ _ _ _ ET) as [xT HT].
    pose proof (drive_traced _ _ _ _ _ _ _ _ _ _ _ EB TT) as TB. destruct (drive_suffix _ _ _ _ _ _ _ _ _ _ EB) as [xB HB].
    pose proof (drive_traced _ _ _ _ _ _ _ _ _ _ _ EC TB) as TC. destruct (drive_suffix _ _ _ _ _ _ _ _ _ _ EC) as [xC HC].
    pose proof (drive_traced _ _ _ _ _ _ _ _ _ _ _ ED TC) as TD. destruct (drive_suffix _ _ _ _ _ _ _ _ _ _ ED) as [xD HD].
    pose proof (drive_traced _ _ _ _ _ _ _ _ _ _ _ EE TD) as TE. destruct (drive_suffix _ _ _ _ _ _ _ _ _ _ EE) as [xE HE].
    unfold csD in ED. apply drive_first in ED as (dl & ds & dx & Hd & Hdx). apply drive_first in EE as (el & es & ex & He & Hex).
    cbn [yexec zexec] in Hd, He. unfold zexec in Hd, He.
    destruct (zstep _ _ _ _ (y_auth K1 sC)); [|discriminate Hd]. destruct (zstep _ _ _ _ (y_auth K1 sD)); [|discriminate He].
    assert (dl = YAuth K1 (ZCall K1 1 q1)) as -> by (injection Hd; done). assert (el = YAuth K1 (ZCall K1 2 q1)) as -> by (injection He; done). clear Hd He ES EA ET EB EC.
    assert (forall A1 A2 A3 A4 A5 A6 A7 A8 (a1 b1 : A1) (a2 b2 : A2) (a3 b3 : A3) (a4 b4 : A4) (a5 b5 : A5) (a6 b6 : A6) (a7 b7 : A7) (a8 b8 : A8),
      Some (a1, a2, a3, a4, a5, a6, a7, a8) = Some (b1, b2, b3, b4, b5, b6, b7, b8) ->
      a1 = b1 /\ a2 = b2 /\ a3 = b3 /\ a4 = b4 /\ a5 = b5 /\ a6 = b6 /\ a7 = b7 /\ a8 = b8) as Hinj by (intros; by simplify_eq).
    apply Hinj in Ho as (OS & OA & OT & OB & OC & OD & OE & OEv). clear Hinj.
    exists (rev trS.*1), sS, (rev trA.*1), sA, (rev trT.*1), sT, (rev trB.*1), sB, (rev trC.*1), sC, (rev trD.*1), sD, (rev trE.*1), sE.
    pose proof TS as [RS _]. pose proof TT as [RT _].
    pose proof TA as [RA _]. pose proof TB as [RB _]. pose proof TC as [RC _]. pose proof TD as [RD _]. pose proof TE as [RE HTE].
    do 2 (split; [done|]).
    split; [rewrite HE, HD, HC, HB, HT, HA, <- !app_assoc; by eexists|]. split; [rewrite HE, HD, HC, HB, <- !app_assoc; by eexists|].
    do 5 (split; [done|]).
    split; [rewrite HE, HD, HC, HB, HT, <- !app_assoc; by eexists|]. split; [rewrite HE, HD, HC, <- !app_assoc; by eexists|].
    split; [rewrite HD, HC, <- !app_assoc; by eexists|]. split; [by eexists|].
    split. { split; [|done]. rewrite HE, Hdx, <- app_assoc. by eexists. }
    split. { split; [|done]. by eexists. }
    split; [|by rewrite OS, OT, OA, OB, OC, OD, OE].
    intros l l1 s1 Hh e He. apply HTE in Hh. rewrite <- OEv. unfold events in *.
    apply elem_of_list_omap. exists (l, s1). split; [done|]. apply elem_of_list_omap in He as (x & ->%elem_of_list_singleton & Hx). done.
  Qed.
  Lemma obs_task s i q r : z_tasks (y_auth K1 s) !! i = Some (CDone q r) ->
    tasks s !! i = Some (Some (q, match r with Ok p => Some (pr_auth p, pr_roles p, pr_domain p) | _ => None end)).
  Proof. intros H. unfold tasks. rewrite list_lookup_fmap, H. by destruct r. Qed.
  Lemma task_obs s i q a ro d : tasks s !! i = Some (Some (q, Some (a, ro, d))) ->
    exists p, z_tasks (y_auth K1 s) !! i = Some (CDone q (Ok p)) /\ pr_auth p = a /\ pr_roles p = ro /\ pr_domain p = d.
  Proof.
    unfold tasks. rewrite list_lookup_fmap. destruct (z_tasks (y_auth K1 s) !! i) as [[| | | | | |q' [p| |]]|]; cbn; try done.
    intros [= -> <- <- <-]. by exists p.
  Qed.
  Lemma obs_check s i k : y_chk K1 s !! i = Some (Some k) -> checked s !! i = Some true.
  Proof. intros H. unfold checked. by rewrite list_lookup_fmap, H. Qed.
  Lemma in_events l (s : sys K1) e : (match events [(l, s)] with [e'] => Some e' | _ => None end) = Some e -> e ∈ events [(l, s)].
  Proof. destruct (events [(l, s)]) as [|e' [|]]; try done. intros [= ->]. left. Qed.

  Example C77_nonvacuous : exists ls s lr sr l1 s1 l2 s2 q p lc sc,
    yrun1 ls s /\ own_calls K1 X0 U0 parse1 rcf t0 3 2 0 2 (fun _ => [false; false]) ls /\ z_policy (s_z rcf) = true /\ 0 < z_exp (s_z rcf) /\ 0 <= t0 /\ now K1 s + z_exp (s_z rcf) <= max_int64 /\
    passed1 ls lr sr /\ served K1 X0 U0 parse1 rcf t0 3 2 0 2 (fun _ => [false; false]) ls lr (eq rpol2) /\
    updated_since K1 X0 U0 parse1 rcf t0 3 2 0 2 (fun _ => [false; false]) ls sr s1 /\
    passed1 l2 l1 s1 /\ passed1 ls l2 s2 /\
    (forall j q' k, YAuth K1 (ZCall K1 j q') ∈ ls -> cache_key (s_z rcf) q' = cache_key (s_z rcf) q ->
       y_chk K1 s1 !! j = Some (Some k) -> exists q r, z_tasks (y_auth K1 s2) !! j = Some (CDone q r)) /\
    happened1 ls (YAuth K1 (ZCall K1 2 q)) lc sc /\ now K1 s2 + z_exp (s_z rcf) < now K1 sc /\
    z_tasks (y_auth K1 s) !! 2%nat = Some (CDone q (Ok p)) /\ pr_auth p = [B "r2"] /\
    (* the same request was granted to the other role before *)
    exists p0, z_tasks (y_auth K1 sr) !! 0%nat = Some (CDone q (Ok p0)) /\ pr_auth p0 = [B "r1"].
  Proof.
    destruct the_run as (lS & sS & lA & sA & lT & sT & lB & sB & lC & sC & lD & sD & lE & sE & RS & RT & XS & XT & RA & RB & RC & RD & RE & XA & XB & XD & XC & HC & HD & Hev & OS & OT & OA & OB & OC & OD & OE).
    unfold obs in OA, OB, OD, OE. clear OC HC XC RC.
    assert (forall A C D E F (a a' : A) (b b' : C) (c c' : D) (d d' : E) (e e' : F), (a, b, c, d, e) = (a', b', c', d', e') ->
      a = a' /\ b = b' /\ c = c' /\ d = d' /\ e = e') as Hinj by (intros; by simplify_eq).
    apply Hinj in OA as (OA1 & OA2 & OA3 & OA4 & OA5), OB as (OB1 & OB2 & OB3 & OB4 & OB5), OD as (_ & _ & OD3 & _ & OD5), OE as (_ & _ & OE3 & _ & OE5). clear Hinj.
    destruct (task_obs sE 2 q1 [B "r2"] [B "r1"; B "r2"] (B "dom")) as (p & Hp & Ha & _); [by rewrite OE3|].
    destruct (task_obs sA 0 q1 [B "r1"] [B "r1"; B "r2"] (B "dom")) as (p0 & Hp0 & Ha0 & _); [by rewrite OA3|].
    destruct (task_obs sB 0 q1 [B "r1"] [B "r1"; B "r2"] (B "dom")) as (pB & HpB & _); [by rewrite OB3|].
    exists lE, sE, lA, sA, lB, sB, lB, sB, q1, p, lD, sD.
    split; [done|]. split.
    { split.
      - intros m w c script l' s' Hh. pose proof (Hev _ _ _ Hh _ ltac:(by apply in_events)) as Hin. unfold all_events in Hin. rewrite !elem_of_cons, elem_of_nil in Hin.
        assert (forall la sa f1, yrun1 la sa -> (exists x, lE = la ++ x) -> fetch_calls sa = [f1] -> f1 !! c = Some (Some false) ->
          map u_spawned (y_upd K1 sa) !! m = Some 1%nat -> w = 0%nat ->
          exists la sa u, passed1 lE la sa /\ y_upd K1 sa !! m = Some u /\ (w < u_spawned u)%nat /\ idle_call K1 sa w c) as Hx.
        { intros la sa f1 Hra Hxa Hf Hc Hm ->. rewrite list_lookup_fmap in Hm. destruct (y_upd K1 sa !! m) as [u|] eqn:Eu; [|discriminate Hm].
          exists la, sa, u. split; [done|]. split; [done|]. injection Hm as Hm. split; [lia|]. unfold fetch_calls in Hf.
          destruct (y_fetch K1 sa) as [|f [|]] eqn:Ef; try discriminate Hf. injection Hf as <-. rewrite list_lookup_fmap in Hc.
          destruct (fs_calls f !! c) as [[b| | | |]|] eqn:Ec; try discriminate Hc. exists f, b. by rewrite Ef. }
        destruct Hin as [H|[H|[H|[H|[H|[H|[H|[H|[]]]]]]]]]; try discriminate H; injection H as -> -> -> _.
        + apply (Hx lT sT [None; Some false]); try done; [exact (f_equal (fun x => x.1.1.1.1) OT)|by rewrite (f_equal (fun x => x.1.2.2) OT : map u_spawned (y_upd K1 sT) = _)].
        + apply (Hx lS sS [Some false; Some false]); try done; [exact (f_equal (fun x => x.1.1.1.1) OS)|by rewrite (f_equal (fun x => x.1.2.2) OS : map u_spawned (y_upd K1 sS) = _)].
      - intros ob w d c script l' s' Hh. exfalso. pose proof (Hev _ _ _ Hh EObjTake ltac:(by apply in_events)) as Hin.
        unfold all_events in Hin. rewrite !elem_of_cons, elem_of_nil in Hin. by destruct Hin as [H|[H|[H|[H|[H|[H|[H|[H|[]]]]]]]]]. }
    split; [done|]. split; [done|]. split; [done|]. split; [by rewrite OE5|]. split; [done|].
    assert (forall l x s', happened1 lE l (lA ++ x) s' -> 52 * second <= now K1 s') as Hclk.
    { intros l x s' [_ Hr]. rewrite <- OA5. by eapply yrun_clock. }
    split.
    { split; [|split].
      - intros d i etag sp x s' Hh. pose proof (Hclk _ _ _ Hh) as Hc. pose proof (Hev _ _ _ Hh (EReply (now K1 s') 200 (Doc sp)) ltac:(by apply in_events)) as Hin.
        unfold all_events in Hin. rewrite !elem_of_cons, elem_of_nil in Hin.
        destruct Hin as [H|[H|[H|[H|[H|[H|[H|[H|[]]]]]]]]]; try discriminate H; injection H as H1 H2; [done|]. rewrite H1 in Hc. by exfalso.
      - intros d i etag b x s' f rt tp inm t Hh. pose proof (Hev _ _ _ Hh (EReply (now K1 s') 304 b) ltac:(by apply in_events)) as Hin.
        unfold all_events in Hin. rewrite !elem_of_cons, elem_of_nil in Hin. by destruct Hin as [H|[H|[H|[H|[H|[H|[H|[H|[]]]]]]]]].
      - intros d i x s' s'' f sp e Hh Hs Hf Hc. exfalso.
        pose proof (Hev _ _ _ Hh _ ltac:(by apply in_events)) as Hin. unfold all_events in Hin. rewrite !elem_of_cons, elem_of_nil in Hin.
        inversion Hs as [| | |? ? ? fc f0 f' Hfc Hf0 Hst| | | | | | | | |]; subst. cbn [set_fetch y_fetch] in Hf.
        rewrite list_lookup_insert in Hf by (by eapply lookup_lt_Some). injection Hf as ->.
        unfold fetch_calls in Hin. rewrite list_lookup_fmap, Hf0 in Hin. cbn [fmap option_fmap option_map mbind option_bind] in Hin.
        rewrite list_lookup_fmap in Hin. cbn [fstep] in Hst.
        assert (fs_calls f0 !! i = Some (FIdle false)) as Hi.
        { destruct (fs_calls f0 !! i) as [[[]| | | |]|]; cbn in Hin; [exfalso|done|exfalso..]; by destruct Hin as [H|[H|[H|[H|[H|[H|[H|[H|[]]]]]]]]]. }
        rewrite Hi in Hst. injection Hst as <-. cbn [fs_calls] in Hc. rewrite list_lookup_insert in Hc by (by eapply lookup_lt_Some).
        destruct d as [|d]; [|done]. injection Hfc as <-. discriminate Hc. }
    split.
    { assert (forall A C D (a a' : A) (b b' : C) (c c' : D), (a, b, c) = (a', b', c') -> a = a' /\ b = b' /\ c = c') as Hinj by (intros; by simplify_eq).
      apply Hinj in OA4 as (_ & OA4 & OA4'), OB4 as (OB4 & _ & _). split; [by rewrite OA4, OB4|]. rewrite OB4.
      intros ob m u Hob (lp & sp & sp2 & Hhp & Hsp & Hn & Hy) Hu.
      pose proof (Hev _ _ _ Hhp (EFinish m (length (y_objs K1 sp))) ltac:(by apply in_events)) as Hin1.
      unfold all_events in Hin1. rewrite !elem_of_cons, elem_of_nil in Hin1.
      assert (m = 1%nat) as ->.
      { destruct Hin1 as [H|[H|[H|[H|[H|[H|[H|[H|[]]]]]]]]]; try discriminate H; injection H as -> Hl; [done|exfalso].
        inversion Hsp; subst; cbn [set_upd publish y_objs] in Hy; [rewrite Hn in Hy; by destruct Hy|].
        apply lookup_lt_is_Some in Hy. rewrite app_length in Hy. cbn in Hy. lia. }
      assert (map u_spawned (y_upd K1 sA) !! 1%nat = Some (u_spawned u)) as H1 by (by rewrite list_lookup_fmap, Hu).
      rewrite OA4' in H1. by injection H1. }
    split; [by apply passed_last|]. split; [done|]. split.
    { intros j q' k _ _ Hk. apply obs_check in Hk. rewrite OB2 in Hk. destruct j as [|[|[|]]]; try discriminate Hk. eauto. }
    split; [done|]. split; [by rewrite OB5, OD5|]. split; [done|]. split; [done|]. by exists p0.
  Qed.

  (** Not at once: a call made after a newer cache is in place, with no check going by an older one,
      is granted to a role that no policy put into that or a later cache allows. *)
  Theorem C77_not_at_once : exists ls s l1 s1 lc sc q p,
    yrun1 ls s /\ passed1 lc l1 s1 /\ happened1 ls (YAuth K1 (ZCall K1 1 q)) lc sc /\
    (forall j k, y_chk K1 s1 !! j = Some (Some k) -> exists q r, z_tasks (y_auth K1 s1) !! j = Some (CDone q r)) /\
    z_tasks (y_auth K1 s) !! 1%nat = Some (CDone q (Ok p)) /\ B "r1" ∈ pr_auth p /\
    exists a r, target (s_z rcf) tt p q = Ok (a, r) /\
      forall ob doc, (y_cur K1 s1 <= ob)%nat -> fed K1 X0 U0 parse1 rcf t0 3 2 0 2 (fun _ => [false; false]) ls ob doc ->
        ~ doc_allows U0 (pr_domain p) a r doc (B "r1").
  Proof.
    destruct the_run as (lS & sS & lA & sA & lT & sT & lB & sB & lC & sC & lD & sD & lE & sE & RS & RT & XS & XT & RA & RB & RC & RD & RE & XA & XB & XD & XC & HC & HD & Hev & OS & OT & OA & OB & OC & OD & OE).
    unfold obs in OB, OE. clear OA OC OD HD RD.
    assert (forall A C D E F (a a' : A) (b b' : C) (c c' : D) (d d' : E) (e e' : F), (a, b, c, d, e) = (a', b', c', d', e') ->
      a = a' /\ b = b' /\ c = c' /\ d = d' /\ e = e') as Hinj by (intros; by simplify_eq).
    apply Hinj in OB as (OB1 & OB2 & OB3 & OB4 & OB5), OE as (_ & _ & OE3 & _ & OE5). clear Hinj.
    destruct (task_obs sE 1 q1 [B "r1"] [B "r1"; B "r2"] (B "dom")) as (p & Hp & Ha & _ & Hd); [by rewrite OE3|].
    destruct (task_obs sB 0 q1 [B "r1"] [B "r1"; B "r2"] (B "dom")) as (pB & HpB & _); [by rewrite OB3|].
    exists lE, sE, lB, sB, lC, sC, q1, p. split; [done|]. split; [done|]. split; [done|]. split.
    { intros j k Hk. apply obs_check in Hk. rewrite OB2 in Hk. destruct j as [|[|[|]]]; try discriminate Hk. eauto. }
    split; [done|]. split; [rewrite Ha; left|]. exists (B "get"), (B "/p/a").
    split. { unfold target. rewrite Hd. vm_compute. reflexivity. }
    intros ob doc Hob Hf. apply (f_equal (fun x => x.1.1)) in OB4. cbn [fst] in OB4. rewrite OB4 in Hob. rewrite Hd. rewrite <- doc_allowsb_spec.
    destruct Hf as [(m & w & exp & t & (lp & sp & sp2 & Hhp & Hsp & Hn & Hy) & c & sc & l' & s' & Hh & Han & _)|(w & d & c & sc & exp & l' & s' & Hh & _)].
    - pose proof (Hev _ _ _ Hhp (EFinish m (length (y_objs K1 sp))) ltac:(by apply in_events)) as Hin1.
      pose proof (Hev _ _ _ Hh _ ltac:(by apply in_events)) as Hin2. rewrite Han in Hin2.
      unfold all_events in Hin1, Hin2. rewrite !elem_of_cons, elem_of_nil in Hin1, Hin2.
      assert (m = 1%nat) as ->.
      { destruct Hin1 as [H|[H|[H|[H|[H|[H|[H|[H|[]]]]]]]]]; try discriminate H; injection H as -> Hl; [done|exfalso].
        inversion Hsp; subst; cbn [set_upd publish y_objs] in Hy; [rewrite Hn in Hy; by destruct Hy|].
        apply lookup_lt_is_Some in Hy. rewrite app_length in Hy. cbn in Hy. lia. }
      assert (doc = rdoc2) as ->. { destruct Hin2 as [H|[H|[H|[H|[H|[H|[H|[H|[]]]]]]]]]; try discriminate H. congruence. }
      vm_compute. discriminate.
    - exfalso. pose proof (Hev _ _ _ Hh EObjTake ltac:(by apply in_events)) as Hin.
      unfold all_events in Hin. rewrite !elem_of_cons, elem_of_nil in Hin. by destruct Hin as [H|[H|[H|[H|[H|[H|[H|[H|[]]]]]]]]].
  Qed.
End example.
Print Assumptions C77_grants_come_from_the_loaded_cache.
Print Assumptions C77_old_caches_stop_counting.
Print Assumptions C77_revoked_policies_stop_counting.
Print Assumptions C77_revocation.
Print Assumptions C77_not_at_once.
