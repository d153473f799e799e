(** * Property C91: grants go by policies that have not expired *)
From Verif Require Import Prop_Expiry Hooked SystemFacts SystemExec PolicyCheckers Prop_System Prop_Window.
From Verif Require PolicyCacheProofs Prop_PubKey Prop_Fetcher Prop_Authorizer.
From Verif Require Import GoStrings.

Section claims.
  Context (K : crypto) (X : jwt_ext) {O : Type} (U : unicode) (parse : str -> option (verifier K)).
  Context (cf : @sconf O) (t0 : time) (n nk nj nu : nat) (calls : nat -> list bool).
  Notation s0 := (yinit K cf t0 n nk nj nu calls).
  Notation yrun := (yrun K X U parse cf s0).
  Notation ystep := (ystep K X U parse cf).
  Notation passed := (passed K X U parse cf s0).
  Notation happened := (happened K X U parse cf s0).
  Notation downloaded := (downloaded K X U parse cf s0).
  Notation took := (took K X U parse cf s0).
  Notation published_by := (published_by K X U parse cf s0).
  Notation ylabel := (@ylabel K O).
  Notation sys := (sys K).
  Notation now := (now K).

  (** ** Specification *)
  (** Update [m] published cache [o] in state [sp]. *)
  Definition published_at (ls : list ylabel) (m o : nat) (sp : sys) : Prop :=
    exists lp s', happened ls (YUpd K m UFinish) lp sp /\ ystep (YUpd K m UFinish) sp s' /\ y_objs K sp !! o = None /\ is_Some (y_objs K s' !! o).
  (** No role is in the documents of two domains. *)
  Definition roles_apart (ls : list ylabel) (m : nat) : Prop :=
    forall w w' exp exp' doc doc' u u' pol pol' r r', took ls m w exp doc u -> took ls m w' exp' doc' u' ->
      pol ∈ doc -> r ∈ pol -> pol' ∈ doc' -> r' ∈ pol' -> r_role r = r_role r' -> w = w'.

  (** ** Facts *)
  (** What a check sees of its cache, it sees after it has begun. *)
  Definition since (ls l1 : list ylabel) (o : nat) (c : cache) : Prop :=
    exists l2 s2 obj, passed ls (l1 ++ l2) s2 /\ y_objs K s2 !! o = Some obj /\ c = g_view (now s2) (c_g obj).
  Definition began (ls : list ylabel) (i : nat) (k : chk) : Prop :=
    exists l1 s1, happened ls (YLoad K i) l1 s1 /\ y_cur K s1 = k_obj k /\
      exists c0 kls, run U (k_dom k) (k_roles k) (k_act k) (k_res k) kls (start (k_roles k) c0 false) = Some (k_st k) /\
        forall c, version c0 kls c -> since ls l1 (k_obj k) c.
  Lemma began_mono ls l i k : began ls i k -> began (ls ++ l) i k.
  Proof.
    intros (l1 & s1 & H1 & Hc & c0 & kls & H2 & H3). exists l1, s1. split; [by apply happened_mono|]. split; [done|]. exists c0, kls. split; [done|].
    intros c Hv. destruct (H3 _ Hv) as (l2 & s2 & obj & Hp & Ho & Hg). exists l2, s2, obj. split; [by apply passed_mono|done].
  Qed.
  Lemma checks_began ls s : yrun ls s -> forall i k, y_chk K s !! i = Some (Some k) -> began ls i k.
  Proof.
    intros H. induction H as [|ls l s s' H IH Hs]; intros i k Hk.
    - cbn in Hk. by apply lookup_replicate in Hk as [? _].
    - assert (forall i k, y_chk K s !! i = Some (Some k) -> began (ls ++ [l]) i k) as Hkeep by (intros; by apply began_mono, IH).
      destruct Hs; try (by apply Hkeep).
      + cbn [set_chk y_chk] in Hk. apply list_lookup_insert_Some in Hk as [(-> & Heq & _)|[_ Hk]]; [|by apply Hkeep].
        injection Heq as <-. exists ls, s. split; [by apply happened_last|]. cbn [k_dom k_roles k_act k_res k_st k_obj]. split; [done|].
        eexists _, []. split; [done|]. intros c' [->|(p' & [Hx|Hx])]; [|by apply elem_of_nil in Hx..].
        exists [], s, c. rewrite app_nil_r. split; [split; [by eexists|done]|]. done.
      + cbn [set_chk y_chk] in Hk. apply list_lookup_insert_Some in Hk as [(-> & Heq & _)|[_ Hk]]; [|by apply Hkeep].
        injection Heq as <-. destruct (IH _ _ H0) as (l1 & s1 & Hh & Hc & c0 & kls & Hr & Hv). exists l1, s1. split; [by apply happened_mono|].
        cbn [k_dom k_roles k_act k_res k_st k_obj]. split; [done|].
        exists c0, (kls ++ [EnvMutate 0%nat (g_view (now s) (c_g c)); l]). split.
        * rewrite run_app, Hr. done.
        * intros c1 Hc1. assert (version c0 kls c1 \/ c1 = g_view (now s) (c_g c)) as [Hc1'| ->].
          { destruct Hc1 as [->|(p & Hp)]; [left; by left|]. rewrite !elem_of_app in Hp. rewrite !elem_of_cons, !elem_of_nil in Hp.
            destruct Hp as [[Hp|[Hp|[Hp|Hp]]]|[Hp|[Hp|[Hp|Hp]]]]; try done.
            - left. right. exists p. by left.
            - by rewrite <- Hp in H1.
            - left. right. exists p. by right.
            - injection Hp as -> ->. by right.
            - by rewrite <- Hp in H1. }
          -- destruct (Hv _ Hc1') as (l2 & s2 & obj & Hp & ?). exists l2, s2, obj. split; [by apply passed_mono|done].
          -- destruct Hh as [[l2 ->] _]. exists (YLoad K i :: l2), s, c. split; [split; [by eexists|done]|]. done.
  Qed.
  Lemma cur_stays l1 l2 s1 s m u : yrun l1 s1 -> yrun (l1 ++ l2) s -> y_upd K s1 !! m = Some u -> u_ret u = Some (Ok tt) ->
    exists u', y_upd K s !! m = Some u' /\ u_ret u' = Some (Ok tt) /\ u_cur u' = u_cur u.
  Proof.
    intros H1. revert s. induction l2 as [|l l2 IH] using rev_ind; intros s H Hu Hr.
    - rewrite app_nil_r in H. assert (s1 = s) as -> by (by eapply (yrun_det K X U parse cf s0)). eauto.
    - rewrite app_assoc in H. apply (yrun_snoc K X U parse cf s0) in H as (s2 & H2 & Hs). destruct (IH _ H2 Hu Hr) as (u1 & Hu1 & Hr1 & Hc1).
      destruct Hs; try (by exists u1); cbn [set_upd publish y_upd]; (destruct (decide (n0 = m)) as [->|Hne];
        [rewrite list_lookup_insert by (by eapply lookup_lt_Some); eexists; split; [done|];
         match goal with Ha : ustep U _ ?x = Some ?y |- _ => assert (x = u1) as -> by congruence; destruct (ustep_returned U _ _ _ Ha Hr1) as [? ->]; done end
        |rewrite list_lookup_insert_ne by done; eauto]).
  Qed.
  Lemma published_is_at ls m o : published_by ls m o <-> exists sp, published_at ls m o sp.
  Proof. split; [intros (l1 & s1 & s2 & H); by exists s1, l1, s2|intros (sp & lp & s' & H); by exists lp, sp, s']. Qed.
  Lemma passed_at ls l1 s1 s m o sp : yrun ls s -> passed ls l1 s1 -> is_Some (y_objs K s1 !! o) -> published_at ls m o sp -> published_at l1 m o sp.
  Proof.
    intros Hr [[l2 ->] H1] Ho (a1 & b2 & [[a2 Heq] Ha] & Hs & Hn & Hsome).
    assert (exists x, l1 = a1 ++ YUpd K m UFinish :: x) as [x ->].
    { apply app_eq_inv in Heq as [(k & -> & Hk)|(k & -> & Hk)].
      - exists (tail k). destruct k as [|y k]; cbn in Hk.
        + exfalso. rewrite app_nil_r in H1. assert (sp = s1) as -> by (by eapply (yrun_det K X U parse cf s0)). rewrite Hn in Ho. by destruct Ho.
        + by injection Hk as -> _.
      - exfalso. assert (length (y_objs K s1) <= length (y_objs K sp))%nat as Hle by (by eapply yrun_objs).
        apply lookup_lt_is_Some in Ho. apply lookup_ge_None in Hn. lia. }
    exists a1, b2. split; [split; [by exists x|done]|done].
  Qed.
  (** The document behind an assertion in a published cache, and how long its entry is valid. *)
  Lemma assertion_origin ls s o c k e a m sp : yrun ls s -> 0 < t0 -> untouched K X U parse cf s0 ls o -> y_objs K s !! o = Some c -> c_g c !! k = Some e -> a ∈ ge_val e ->
    published_at ls m o sp -> roles_apart ls m ->
    exists w exp doc u pol r, took ls m w exp doc u /\ pol ∈ doc /\ r ∈ pol /\ r_role r = k /\ new_assertion U (r_action r) (r_resource r) (r_effect r) = Ok a /\
      (g_valid (now s) e = true -> exp <= u \/ (now s + exp <= max_int64 -> now s <= exp + (now sp - u))).
  Proof.
    intros Hr Ht Hh Ho Hk Ha Hpub Hap. pose proof Hpub as (lp & s' & Hhp & Hsp & Hn & Hsome).
    assert (published_by ls m o) as Hpb by (apply published_is_at; by exists sp).
    destruct (objects_within _ _ _ _ _ _ _ _ _ _ _ _ _ _ Hr Hh _ _ Ho Hpb) as (u1 & Hu1 & Hret1 & Hsub). pose proof (lookup_weaken _ _ _ _ Hk Hsub) as Hk1.
    pose proof Hhp as [[l3 Hl3] Hrp]. assert (yrun (lp ++ [YUpd K m UFinish]) s') as Hrp' by (eapply Y_snoc; done).
    assert (exists u', y_upd K s' !! m = Some u' /\ u_ret u' = Some (Ok tt)) as (u' & Hu' & Hret').
    { clear -Hsp Hn Hsome. destruct Hsome as [c Hc]. inversion Hsp; subst; cbn [set_upd publish y_objs y_upd] in *; [congruence|].
      rewrite list_lookup_insert by (by eapply lookup_lt_Some). eauto. }
    assert (u_cur u1 = u_cur u') as Hcur.
    { rewrite Hl3 in Hr. rewrite cons_middle, app_assoc in Hr. destruct (cur_stays _ _ _ _ _ _ Hrp' Hr Hu' Hret') as (u2 & Hu2 & _ & <-). congruence. }
    rewrite Hcur in Hk1.
    destruct (updates_ok K X U parse cf t0 n nk nj nu calls _ _ Hrp' _ _ Hu') as (uls & H1 & H2 & _ & H4 & _).
    pose proof (urun_inv _ (length (s_f cf)) ∅ _ _ _ H1 (uinit_inv _ _ _)) as (_ & _ & _ & _ & _ & H6). destruct (H6 Hret') as [Hcur' _]. rewrite Hcur' in Hk1.
    pose proof (update_binv _ _ _ _ _ _ H1) as [_ Hg]. destruct (Hg _ _ Hk1) as [Hsrc [H0|(i & j & r & t & HF & Hrj & Hrk & HT & He)]]; [by rewrite lookup_empty in H0|].
    destruct (Hsrc _ Ha) as [(e' & He' & _)|(i1 & j1 & r1 & HF1 & Hr1 & Hk' & Hconv)]; [by rewrite lookup_empty in He'|].
    destruct (H2 _ _ HF) as (doc & Htk & Hs). destruct (H2 _ _ HF1) as (doc1 & Htk1 & Hs1).
    assert (forall w exp doc t, took (lp ++ [YUpd K m UFinish]) m w exp doc t -> took ls m w exp doc t) as Hmono.
    { intros w exp d t' H. rewrite Hl3. rewrite cons_middle, app_assoc. by apply took_mono. }
    destruct (PolicySimplifyProofs.script_sound U _ _ Hs _ Hrj) as (pol & Hpol & Hrp2). destruct (PolicySimplifyProofs.script_sound U _ _ Hs1 _ Hr1) as (pol1 & Hpol1 & Hrp1).
    assert (i1 = i) as -> by (eapply (Hap i1 i); [by apply Hmono|by apply Hmono|done..|congruence]).
    assert (j1 = j) as ->.
    { pose proof (urun_c _ _ _ _ H1) as Hc. eapply (PolicyCacheProofs.crun_fetch_unique _ _ _ _ Hc i); by apply elem_of_projs. }
    destruct (H4 _ _ HT) as [Hle Hj]. specialize (Hj _ HF).
    assert (now s' = now sp) as Hnow by (inversion Hsp; subst; done).
    exists i, (j_exp j), doc1, (j_now j), pol1, r1. split_and!; try done; [by apply Hmono|].
    destruct (took_clock K X U parse cf t0 n nk nj nu calls _ _ _ _ _ _ _ Hrp' Htk) as [Hlo _].
    assert (now sp <= now s) as Hclk. { rewrite Hl3 in Hr. by apply (yrun_clock K X U parse cf s0 _ _ _ _ Hrp Hr). }
    intros Hv. destruct (Z.le_gt_cases (j_exp j) (j_now j)) as [Hx|Hx]; [by left|right]. intros Hov.
    unfold g_valid in Hv. rewrite He in Hv. unfold PolicyCacheProofs.stored_exp, time_sub, sat64 in Hv.
    destruct (Z.ltb_spec 0 (min_int64 `max` (max_int64 `min` (j_exp j - j_now j)))) as [Hp|Hp]; [|unfold max_int64, min_int64, two63 in *; lia].
    rewrite wrap64_id in Hv by (unfold max_int64, min_int64, two63 in *; lia). apply orb_true_iff in Hv as [Hv|Hv]; apply Z.leb_le in Hv; unfold max_int64, min_int64, two63 in *; lia.
  Qed.

  (** ** Theorems *)
  (** A role that a policy check authorizes is allowed by a document the Update of the cache in use took, and when the
      check began that document had expired for no longer than the Update took from getting it to publishing the cache
      (unless it had expired already when the Update got it).  Missing: grants by a cache that the expired hook has
      filled, where it is false (below), and roles in the documents of two domains. *)
  Theorem C91_grants_by_unexpired_policies_partial ls s j acc l2 s2 q p a r k : yrun ls s -> 0 < t0 ->
    happened ls (YAuth K (ZPolicy K j (Ok acc))) l2 s2 -> z_tasks (y_auth K s2) !! j = Some (CCheck q p a r) ->
    y_chk K s2 !! j = Some (Some k) -> untouched K X U parse cf s0 l2 (k_obj k) ->
    exists m l1 s1 sp, happened l2 (YLoad K j) l1 s1 /\ published_at l2 m (y_cur K s1) sp /\
      (roles_apart l2 m -> forall role, role ∈ acc -> exists w exp doc u, took l2 m w exp doc u /\ doc_allows U (pr_domain p) a r doc role /\
         (exp <= u \/ (now s2 + exp <= max_int64 -> now s1 <= exp + (now sp - u)))).
  Proof.
    intros Hr Ht0 Hh2 Hcheck Hk Hh.
    destruct (happened_step K X U parse cf t0 n nk nj nu calls _ _ _ _ _ Hr Hh2) as [s3 Hs].
    inversion Hs as [? ? ? _ Hok| | | | | | | | | | | |]; subst. cbn in Hok. destruct Hok as (k' & Hk' & Hret).
    assert (k' = k) as -> by congruence. clear Hk'.
    destruct Hh2 as [_ Hr2]. destruct (checks_ok K X U parse cf t0 n nk nj nu calls _ _ Hr2 _ _ Hk) as [_ (t & Ht2 & Hpc)].
    rewrite Hcheck in Ht2. injection Ht2 as <-. destruct Hpc as [[]|(q2 & p2 & Heq & Hd & Hro)]. injection Heq as <- <- -> ->.
    destruct (checks_began _ _ Hr2 _ _ Hk) as (l1 & s1 & Hh1 & Hcur & c0 & kls & Hrun & Hv).
    destruct (check_cache K X U parse cf t0 n nk nj nu calls _ _ _ _ _ Hr2 Hk Hret Hh) as (m & Hpub & _).
    destruct (proj1 (published_is_at _ _ _) Hpub) as (sp & Hsp). exists m, l1, s1, sp. rewrite Hcur. split; [done|]. split; [done|].
    intros Hap role Hin. destruct (success_refresh _ _ _ _ _ _ _ _ _ _ Hrun Hret) as [_ Hall].
    destruct (Hall _ Hin) as [_ (cc & Hcc & x & (l & Hl & Hx) & Hhit & Hal)].
    destruct (Hv _ Hcc) as (lv & sv & obj & Hpv & Hobj & ->). rewrite g_view_lookup in Hl.
    assert (exists e, c_g obj !! key_of (k_dom k) role = Some e /\ g_valid (now sv) e = true /\ ge_val e = l) as (e & He & Hval & <-).
    { unfold g_get in Hl. destruct (c_g obj !! key_of (k_dom k) role) as [e|] eqn:E; [|done]. destruct (g_valid (now sv) e) eqn:Ev; [|done]. injection Hl as <-. by exists e. }
    pose proof (passed_at _ _ _ _ _ _ _ Hr2 Hpv ltac:(by eexists) Hsp) as Hsp'.
    pose proof (passed_clock K X U parse cf s0 _ _ _ _ Hpv Hr2) as Hclk2.
    destruct Hpv as [[l3 ->] Hrv].
    pose proof (untouched_prefix K X U parse cf t0 n nk nj nu calls _ _ _ Hh) as Hhv.
    assert (roles_apart (l1 ++ lv) m) as Hap'.
    { intros w w' exp exp' doc doc' u u' pol pol' r0 r' G1 G2. apply Hap with exp exp' u u' ; by apply took_mono. }
    destruct (assertion_origin _ _ _ _ _ _ _ _ _ Hrv Ht0 Hhv Hobj He Hx Hsp' Hap') as (w & exp & doc & u & pol & r0 & Htk & Hpol & Hr0 & Hk0 & Hconv & Hle).
    exists w, exp, doc, u. split; [by apply took_mono|]. split.
    - rewrite Hd. exists pol, r0. split_and!; try done.
      + by apply (conv_hits U _ _ _ r0 x).
      + intros Hz. apply (conv_effect U r0 x Hconv) in Hz. by apply Hz.
    - assert (now s1 <= now sv) as Hc1. { destruct Hh1 as [_ Hr1]. by apply (yrun_clock K X U parse cf s0 _ _ _ _ Hr1 Hrv). }
      destruct (Hle Hval) as [?|Hb]; [by left|right]. intros Hov. specialize (Hb ltac:(lia)). lia.
  Qed.
End claims.

Section hooked.
  Context (K : crypto) (X : jwt_ext) {O : Type} (U : unicode) (parse : str -> option (verifier K)).
  Context (cf : @sconf O) (doms : list str) (t0 : time) (n nk nj nu : nat) (calls : nat -> list bool).
  Notation s0 := (yinit K cf t0 n nk nj nu calls).
  (** Accepted calls, if each cache is replaced before its policies expire (C90). *)
  Theorem C91_accepted_by_unexpired_policies ls s i q p : hrun K X U parse cf doms (hinit K s0) ls s -> 0 < t0 -> z_policy (s_z cf) = true ->
    replaced K X U parse cf doms t0 n nk nj nu calls ls (now K (h_sys K s)) ->
    z_tasks (y_auth K (h_sys K s)) !! i = Some (CDone q (Ok p)) ->
    exists j q' p0 o a r m l1 s1 l2 s2 sp, cache_key (s_z cf) q' = cache_key (s_z cf) q /\ target (s_z cf) o p0 q' = Ok (a, r) /\
      happened K X U parse cf s0 (hsys K ls) (YAuth K (ZPolicy K j (Ok (pr_auth p)))) l2 s2 /\ happened K X U parse cf s0 l2 (YLoad K j) l1 s1 /\
      published_at K X U parse cf t0 n nk nj nu calls l2 m (y_cur K s1) sp /\
      (roles_apart K X U parse cf t0 n nk nj nu calls l2 m -> forall role, role ∈ pr_auth p -> exists w exp doc u,
         took K X U parse cf s0 l2 m w exp doc u /\ doc_allows U (pr_domain p) a r doc role /\
         (exp <= u \/ (now K s2 + exp <= max_int64 -> now K s1 <= exp + (now K sp - u)))).
  Proof.
    intros Hr Ht Hz Hrep Hi. destruct (C90_no_hook_if_replaced _ _ _ _ _ _ _ _ _ _ _ _ _ _ Hr Ht Hrep) as (_ & Hh & _). pose proof (C90_is_the_system _ _ _ _ _ _ _ _ _ _ _ _ _ _ Hr) as Hy.
    pose proof (C71_accepted_is_authorized K X U parse cf t0 n nk nj nu calls _ _ i q p Hy Hi) as (j & q' & p0 & l1' & s1' & Hkey & _ & _ & H).
    rewrite Hz in H. destruct H as (l2 & s2 & o & a & r & acc & Hh2 & Hc & Htg & -> & _ & _).
    assert (YHook K ∉ l2) as Hhl by (destruct Hh2 as [[l3 Hl3] _]; rewrite Hl3, elem_of_app in Hh; tauto).
    destruct (check_of K X U parse cf t0 n nk nj nu calls _ _ _ _ _ _ Hy Hh2) as [k Hk].
    destruct (C91_grants_by_unexpired_policies_partial K X U parse cf t0 n nk nj nu calls _ _ j acc l2 s2 q' p0 a r k Hy Ht Hh2 Hc Hk (unhooked K X U parse cf t0 n nk nj nu calls _ _ Hhl)) as (m & l1 & s1 & sp & H1 & H2 & H3).
    exists j, q', p0, o, a, r, m, l1, s1, l2, s2, sp. by split_and!.
  Qed.
End hooked.

Section example.
  Import Prop_PubKey Prop_Fetcher Prop_Authorizer Prop_Access.
  (** Domain dom; the first two documents allow role r1 /p/..., the third only /q. *)
  Definition adoc : document := [[Raw (B "dom:role.r1") (B "get") (B "dom:/p/*") (B "ALLOW")]].
  Definition qdoc : document := [[Raw (B "dom:role.r1") (B "get") (B "dom:/q") (B "ALLOW")]].
  Definition reply (c : nat) (doc : document) (exp : time) : list (@cmd unit) := [DSend 0 c; DReply 0 c (Response 200 (B "a") (Doc (pol1 (B "dom") doc exp)))].
  Definition update (m c works : nat) : list (@cmd unit) := [DSpawn m; DTake m 0 c] ++ replicate works (DWork m 0) ++ [DFinish m].
  Definition ukeys : list (@cmd unit) := keys_cmds 0 (B "ZTSKEY") ++ keys_cmds 1 (B "ZMSKEY").
  Definition uinit3 : sys K1 := yinit K1 wcf t0 2 2 0 2 (fun _ => [false; false; false]).
  (** A document expires at 60 s; the entry is found expired at 61 s.  Before the hook starts an Update publishes the
      second document, which expires at 70 s; the hook adds the third, which expires at 300 s, to that cache.
      The time is 90 s. *)
  Definition ucmds : list (@hcmd unit) :=
    map XC (ukeys ++ reply 0 adoc (60 * second) ++ update 0 0 3 ++ [DTick (61 * second)]) ++
    [XFind 1 (B "dom:role.r1"); XTake 1 (B "dom:role.r1")] ++
    map XC (reply 1 adoc (70 * second) ++ update 1 1 3) ++ [XRun (B "dom:role.r1")] ++
    map XC (reply 2 qdoc (300 * second) ++ [DObjTake 2 0 0 2 false; DObjWork 2 0; DObjWork 2 0; DObjWork 2 0; DTick (90 * second)]).
  Definition ucall : list (@cmd unit) := wcall 0 6 3 3 (rq (B "/x") []) ++ [DStore 0].
  Definition idle (s : sys K1) : bool := match z_tasks (y_auth K1 s) !! 0%nat with Some Authorizer.CIdle => true | _ => false end.
  Lemma replied_in s0 ls d sp : SystemSpec.downloaded K1 X0 U0 parse1 wcf s0 ls d sp -> sp ∈ replied ls.
  Proof.
    intros (i & etag & l1 & s1 & [[l2 ->] _] & _). apply elem_of_list_omap. exists (YReply K1 d i (Response 200 etag (Doc sp))). split; [|done].
    rewrite !elem_of_app, elem_of_cons. tauto.
  Qed.
  Lemma pol1_content doc exp exp' doc' : content (pol1 (B "dom") doc exp) exp' doc' -> exp' = exp /\ doc' = doc.
  Proof. intros (sd & pd & Hsd & He & Hpd & Hdoc). cbn in Hsd. injection Hsd as <-. cbn in He, Hpd. injection He as <-. injection Hpd as <-. apply written_inj in Hdoc. done. Qed.
  Definition ustart : option (list (@hlabel K1 unit * hst K1) * hst K1) := hdrive K1 X0 U0 parse1 wcf [B "dom"] ucmds [] (hinit K1 uinit3).
  (** A call that begins at 90 s is granted what only documents allow that have expired by 70 s. *)
  Theorem C91_hook_keeps_expired_refuted : exists la sa lb s q p,
    hrun K1 X0 U0 parse1 wcf [B "dom"] (hinit K1 uinit3) la sa /\ now K1 (h_sys K1 sa) = 90 * second /\ z_tasks (y_auth K1 (h_sys K1 sa)) !! 0%nat = Some Authorizer.CIdle /\
    hrun K1 X0 U0 parse1 wcf [B "dom"] (hinit K1 uinit3) (la ++ lb) s /\ q = rq (B "/x") [] /\ z_tasks (y_auth K1 (h_sys K1 s)) !! 0%nat = Some (CDone q (Ok p)) /\ B "r1" ∈ pr_auth p /\
    forall d sp exp doc, SystemSpec.downloaded K1 X0 U0 parse1 wcf uinit3 (hsys K1 (la ++ lb)) d sp -> content sp exp doc ->
      doc_allows U0 (pr_domain p) (B "get") (B "/p/x") doc (B "r1") -> exp <= 70 * second.
  Proof.
    assert (match ustart with
      | Some (tr, sa) => match hdrive K1 X0 U0 parse1 wcf [B "dom"] (map XC ucall) tr sa with
                         | Some (tr', s) => Some (now K1 (h_sys K1 sa), idle (h_sys K1 sa), granted_at 0 (h_sys K1 s), replied (hsys K1 tr'.*1)) | None => None end | None => None end
      = Some (90 * second, true, Some (rq (B "/x") [], [B "r1"], B "dom"), [pol1 (B "dom") adoc (60 * second); pol1 (B "dom") adoc (70 * second); pol1 (B "dom") qdoc (300 * second)])) as H
      by (vm_compute; reflexivity).
    destruct ustart as [[tr sa]|] eqn:E1; [|discriminate H]. apply hdrive_run in E1.
    destruct (hdrive _ _ _ _ _ _ (map XC ucall) tr sa) as [[tr' s]|] eqn:E2; [|discriminate H].
    assert (exists lb, tr'.*1 = tr.*1 ++ lb) as [lb Hlb].
    { clear -E2. revert tr sa E2. induction (map XC ucall) as [|c cs IH]; intros tr sa E2; cbn [hdrive] in E2; [injection E2 as <- <-; exists []; by rewrite app_nil_r|].
      destruct (hexec _ _ _ _ _ _ c sa) as [[l s1]|]; [|done]. apply IH in E2 as [lb ->]. rewrite fmap_app, <- app_assoc. by eexists. }
    eapply hdrive_traced in E2; [|exact E1]. destruct E1 as [E1 _], E2 as [E2 _].
    assert (forall A C D F (a a' : A) (b b' : C) (c c' : D) (f f' : F), Some (a, b, c, f) = Some (a', b', c', f') -> a = a' /\ b = b' /\ c = c' /\ f = f') as Hinj.
    { clear. intros. injection H as -> -> -> ->. done. }
    apply Hinj in H as (Hn & Hid & Hg & Hrep). clear Hinj. unfold granted_at in Hg. unfold idle in Hid.
    destruct (z_tasks (y_auth K1 (h_sys K1 sa)) !! 0%nat) as [[]|] eqn:Ea; try discriminate Hid. clear Hid.
    destruct (z_tasks (y_auth K1 (h_sys K1 s)) !! 0%nat) as [[| | | | | |q [p| |]]|] eqn:E0; try discriminate Hg.
    assert (forall A C D (a a' : A) (b b' : C) (c c' : D), Some (a, b, c) = Some (a', b', c') -> a = a' /\ b = b' /\ c = c') as Hinj3.
    { clear. intros. injection H as -> -> ->. done. }
    apply Hinj3 in Hg as (-> & Hp & Hd). rewrite Hlb in E2, Hrep. exists tr.*1, sa, lb, s, (rq (B "/x") []), p. do 6 (split; [done|]). split; [rewrite Hp; left|].
    intros d sp exp doc Hdl Hc Hal. apply replied_in in Hdl. rewrite Hrep in Hdl. rewrite !elem_of_cons, elem_of_nil in Hdl.
    destruct Hdl as [->|[->|[->|[]]]]; apply pol1_content in Hc as [-> ->]; [unfold second; lia|done|]. exfalso. rewrite Hd in Hal. apply doc_allowsb_spec in Hal. vm_compute in Hal. discriminate Hal.
  Qed.
  (** A document that has expired at 60 s is taken again at 61 s when no other can be downloaded, and cached for ever
      (C16): a call that begins at 90 s goes by it. *)
  Definition finit : sys K1 := yinit K1 wcf t0 2 2 0 2 (fun _ => [false; true]).
  Definition fcmds : list (@cmd unit) :=
    ukeys ++ reply 0 adoc (60 * second) ++ update 0 0 3 ++ [DTick (61 * second); DSend 0 1] ++
    concat (replicate 3 [DSend 0 1; DReply 0 1 (Failed (ErrMsg "x"))]) ++ [DSend 0 1] ++ update 1 1 3 ++ [DTick (90 * second)].
  Definition fstart : option (list (@ylabel K1 unit * sys K1) * sys K1) := drive K1 X0 U0 parse1 wcf fcmds [] finit.
  Theorem C91_fallback_keeps_expired_refuted : exists la sa lb s q p,
    System.yrun K1 X0 U0 parse1 wcf finit la sa /\ now K1 sa = 90 * second /\ z_tasks (y_auth K1 sa) !! 0%nat = Some Authorizer.CIdle /\
    System.yrun K1 X0 U0 parse1 wcf finit (la ++ lb) s /\ YHook K1 ∉ la ++ lb /\ q = rq (B "/x") [] /\ z_tasks (y_auth K1 s) !! 0%nat = Some (CDone q (Ok p)) /\ B "r1" ∈ pr_auth p /\
    forall d sp exp doc, SystemSpec.downloaded K1 X0 U0 parse1 wcf finit (la ++ lb) d sp -> content sp exp doc -> exp <= 60 * second.
  Proof.
    assert (match fstart with
      | Some (tr, sa) => match drive K1 X0 U0 parse1 wcf ucall tr sa with
                         | Some (tr', s) => Some (now K1 sa, idle sa, granted_at 0 s, (hooks K1 tr', replies tr')) | None => None end | None => None end
      = Some (90 * second, true, Some (rq (B "/x") [], [B "r1"], B "dom"), (false, [pol1 (B "dom") adoc (60 * second)]))) as H
      by (vm_compute; reflexivity).
    destruct fstart as [[tr sa]|] eqn:E1; [|discriminate H]. apply drive_run in E1.
    destruct (drive _ _ _ _ _ ucall tr sa) as [[tr' s]|] eqn:E2; [|discriminate H].
    assert (exists lb, rev tr'.*1 = rev tr.*1 ++ lb) as [lb Hlb].
    { clear -E2. revert tr sa E2. induction ucall as [|c cs IH]; intros tr sa E2; cbn [drive] in E2; [injection E2 as <- <-; exists []; by rewrite app_nil_r|].
      destruct (yexec _ _ _ _ _ c sa) as [[l s1]|]; [|done]. apply IH in E2 as [lb ->]. cbn [fmap list_fmap fst rev]. rewrite <- app_assoc. by eexists. }
    eapply drive_traced in E2; [|exact E1]. destruct E1 as [E1 _]. pose proof E2 as [E2r Htr].
    assert (forall A C D F (a a' : A) (b b' : C) (c c' : D) (f f' : F), Some (a, b, c, f) = Some (a', b', c', f') -> a = a' /\ b = b' /\ c = c' /\ f = f') as Hinj.
    { clear. intros. injection H as -> -> -> ->. done. }
    apply Hinj in H as (Hn & Hid & Hg & Hx). clear Hinj. unfold granted_at in Hg. unfold idle in Hid.
    assert (forall A C (a a' : A) (b b' : C), (a, b) = (a', b') -> a = a' /\ b = b') as Hinj2 by (clear; intros; injection H as -> ->; done). apply Hinj2 in Hx as [Hhk Hrep]. clear Hinj2.
    destruct (z_tasks (y_auth K1 sa) !! 0%nat) as [[]|] eqn:Ea; try discriminate Hid. clear Hid.
    destruct (z_tasks (y_auth K1 s) !! 0%nat) as [[| | | | | |q [p| |]]|] eqn:E0; try discriminate Hg.
    assert (forall A C D (a a' : A) (b b' : C) (c c' : D), Some (a, b, c) = Some (a', b', c') -> a = a' /\ b = b' /\ c = c') as Hinj3.
    { clear. intros. injection H as -> -> ->. done. }
    apply Hinj3 in Hg as (-> & Hp & Hd). apply hooks_none in Hhk. rewrite Hlb in Hhk, E2r, Htr. exists (rev tr.*1), sa, lb, s, (rq (B "/x") []), p. do 7 (split; [done|]). split; [rewrite Hp; left|].
    intros d sp exp doc (i & etag & l1 & s1 & Hrp & _) Hc. apply Htr in Hrp.
    assert (sp ∈ replies tr') as Hin. { apply elem_of_list_omap. eexists. split; [exact Hrp|]. done. }
    rewrite Hrep in Hin. apply elem_of_list_singleton in Hin as ->. apply pol1_content in Hc as [-> _]. done.
  Qed.
  (** The premises: a policy has expired, in a cache that was replaced before; then a call is accepted. *)
  Example C91_nonvacuous : exists ls s q p, hrun K1 X0 U0 parse1 wcf [B "dom"] (hinit K1 xinit) ls s /\ 0 < t0 /\ z_policy (s_z wcf) = true /\
    replaced K1 X0 U0 parse1 wcf [B "dom"] t0 2 2 0 2 (fun _ => [false; false]) ls (now K1 (h_sys K1 s)) /\
    z_tasks (y_auth K1 (h_sys K1 s)) !! 0%nat = Some (CDone q (Ok p)) /\ B "r1" ∈ pr_auth p /\
    forall l1 l2 m, hsys K1 ls = l1 ++ l2 -> roles_apart K1 X0 U0 parse1 wcf t0 2 2 0 2 (fun _ => [false; false]) l1 m.
  Proof.
    destruct C90_replaced_nonvacuous as (ls & s & q & p & Hr & Hrep & _ & Hi & Hp & Hw). exists ls, s, q, p. split; [done|]. split; [vm_compute; reflexivity|]. split; [done|]. split; [done|]. split; [done|].
    split; [rewrite Hp; left|]. intros l1 l2 m Hl w w' exp exp' doc doc' u u' pol pol' r r' H1 H2 _ _ _ _ _.
    apply (took_mono K1 X0 U0 parse1 wcf xinit _ l2) in H1, H2. rewrite <- Hl in H1, H2. by rewrite (Hw _ _ _ _ _ H1), (Hw _ _ _ _ _ H2).
  Qed.
End example.
Print Assumptions C91_grants_by_unexpired_policies_partial.
Print Assumptions C91_accepted_by_unexpired_policies.
Print Assumptions C91_hook_keeps_expired_refuted.
Print Assumptions C91_fallback_keeps_expired_refuted.
Print Assumptions C91_nonvacuous.
