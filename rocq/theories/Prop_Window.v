(** * Property C75: requests during an in-place refresh *)
From Verif Require Import Prop_System SystemFacts SystemExec PolicyCheckers.
From Verif Require Prop_PubKey Prop_Fetcher Prop_Authorizer Prop_Access.
From Verif Require Import GoStrings.

Section claims.
  Context (K : crypto) (X : jwt_ext) {O : Type} (U : unicode) (parse : str -> option (verifier K)).
  Context (cf : @sconf O) (t0 : time) (n nk nj nu : nat) (calls : nat -> list bool).
  Notation s0 := (yinit K cf t0 n nk nj nu calls).
  Lemma tame_before ls s l1 s1 m : System.yrun K X U parse cf s0 ls s -> passed K X U parse cf s0 ls l1 s1 ->
    tame K X U parse cf t0 n nk nj nu calls ls (now K s) m -> tame K X U parse cf t0 n nk nj nu calls l1 (now K s1) m.
  Proof.
    intros Hr Hp [H1 H2]. pose proof (passed_clock K X U parse cf s0 _ _ _ _ Hp Hr) as Hc. destruct Hp as [[l2 ->] _].
    assert (forall w exp doc u, took K X U parse cf s0 l1 m w exp doc u -> took K X U parse cf s0 (l1 ++ l2) m w exp doc u) as Hm.
    { intros w exp doc u H. by apply took_mono. }
    split; [|eauto]. intros w exp doc u H. destruct (H1 _ _ _ _ (Hm _ _ _ _ H)) as (Ha & Hb & Hx). split; [done|]. split; [done|]. lia.
  Qed.
  (** Every policy check that accepted a call went by tame documents: those of the Update whose cache
      it loaded. *)
  Definition grants_tame (ls : list (@ylabel K O)) : Prop :=
    forall j acc l2 s2 k m, happened K X U parse cf s0 ls (YAuth K (ZPolicy K j (Ok acc))) l2 s2 -> y_chk K s2 !! j = Some (Some k) ->
      published_by K X U parse cf s0 l2 m (k_obj k) -> tame K X U parse cf t0 n nk nj nu calls l2 (now K s2) m.
  (** C75 for grants by caches that no hook was started on, and tame documents: behind every accepted
      call stands a policy check of a request with the same cache key; for each role of its token and
      each configured domain some policy that was downloaded does not deny the role that request.  So
      what all policies of a domain deny is never granted.  Hooks may have run on other caches, and
      documents of other Updates may be anything.  Missing: grants by a cache that the hook has filled,
      where it is false (below), and by documents that are not tame (C13, C14, C16, C18). *)
  Theorem C75_denied_stays_denied_partial ls s i q p : System.yrun K X U parse cf s0 ls s -> 0 < t0 -> z_policy (s_z cf) = true ->
    grants_untouched K X U parse cf s0 ls -> grants_tame ls ->
    z_tasks (y_auth K s) !! i = Some (CDone q (Ok p)) ->
    exists q' p0 o a r, cache_key (s_z cf) q' = cache_key (s_z cf) q /\ target (s_z cf) o p0 q' = Ok (a, r) /\
      pr_domain p = pr_domain p0 /\ pr_roles p = pr_roles p0 /\
      forall role w, role ∈ pr_roles p -> (w < length (s_f cf))%nat ->
        exists sp exp doc, downloaded K X U parse cf s0 ls w sp /\ content sp exp doc /\ ~ doc_denies U (pr_domain p) a r doc role.
  Proof.
    intros Hr Ht0 Hpol Hun Htame Hi.
    pose proof (C71_accepted_is_authorized K X U parse cf t0 n nk nj nu calls ls s i q p Hr Hi) as (j & q' & p0 & l1 & s1 & Hkey & _ & _ & H).
    rewrite Hpol in H. destruct H as (l2 & s2 & o & a & r & acc & Hh2 & Hc & Ht & -> & _ & _).
    exists q', p0, o, a, r. do 4 (split; [done|]). intros role w Hrole Hw.
    destruct (check_of K X U parse cf t0 n nk nj nu calls _ _ _ _ _ _ Hr Hh2) as [k Hk].
    destruct (C71_no_role_denied_partial K X U parse cf t0 n nk nj nu calls ls s j acc l2 s2 q' p0 a r k Hr Ht0 Hh2 Hc Hk (Hun _ _ _ _ _ Hh2 Hk)) as (m & Hpub & Hall & Hno).
    pose proof (Htame _ _ _ _ _ _ Hh2 Hk Hpub) as Htm.
    destruct (Hall w Hw) as (exp & doc & u & sp & Htk & Hd & Hcon). exists sp, exp, doc.
    destruct Hh2 as [[l3 ->] Hr2]. split.
    { destruct Hd as (i' & etag & la & sa & [[lb ->] Hra] & Hps). exists i', etag, la, sa. split; [|done]. split; [|done]. rewrite <- app_assoc. by eexists. }
    split; [done|]. apply (Hno Htm w exp doc u role Htk). done.
  Qed.
  (** In particular if all documents are tame all the time and no hook runs. *)
  Lemma all_tame ls s : System.yrun K X U parse cf s0 ls s -> YHook K ∉ ls -> (forall m, tame K X U parse cf t0 n nk nj nu calls ls (now K s) m) ->
    grants_untouched K X U parse cf s0 ls /\ grants_tame ls.
  Proof.
    intros Hr Hh Ht. split.
    - intros j acc l2 s2 k [[l3 ->] _] _. apply (unhooked K X U parse cf t0 n nk nj nu calls). rewrite elem_of_app in Hh. tauto.
    - intros j acc l2 s2 k m [[l3 Hl] Hr2] _ _. eapply tame_before; [exact Hr| |apply Ht]. split; [by eexists|done].
  Qed.
End claims.

Section example.
  Import Prop_PubKey Prop_Fetcher Prop_Authorizer Prop_Access.
  (** The premises of the partial theorem: two tame documents, one accepted call, and a second one
      answered from the cache of results. *)
  Example C75_nonvacuous : exists ls s q p, System.yrun K1 X0 U0 parse1 scf sinit1 ls s /\ 0 < t0 /\ z_policy (s_z scf) = true /\
    grants_untouched K1 X0 U0 parse1 scf sinit1 ls /\ grants_tame K1 X0 U0 parse1 scf t0 2 2 0 1 (fun _ => [false]) ls /\
    z_tasks (y_auth K1 s) !! 1%nat = Some (CDone q (Ok p)) /\ pr_auth p = [B "r1"].
  Proof.
    assert (option_map (fun '(tr, s) => (answers s, now K1 s, takes K1 tr, hooks K1 tr)) (drive K1 X0 U0 parse1 scf (cmds1 ++ cmds2) [] sinit1) =
      Some ([Some [B "r1"]; Some [B "r1"]], 80 * second,
            [(0%nat, 0%nat, 200 * second, docA, 60 * second); (0%nat, 1%nat, 300 * second, docB, 50 * second)], false)) as Ho by (vm_compute; reflexivity).
    destruct (drive K1 X0 U0 parse1 scf (cmds1 ++ cmds2) [] sinit1) as [[tr s]|] eqn:E; [|discriminate Ho].
    pose proof (drive_run _ _ _ _ _ _ _ _ _ E) as Ht. clear E. cbn [option_map] in Ho. injection Ho as Ha Hn Htk Hh. pose proof Ht as [Hr _]. apply hooks_none in Hh.
    unfold answers in Ha. destruct (z_tasks (y_auth K1 s)) as [|? [|[| | | | | |q [p| |]] ?]] eqn:Ez; try discriminate Ha. injection Ha as _ Hp _.
    exists (rev tr.*1), s, q, p. split; [done|]. split; [done|]. split; [done|]. rewrite Ez.
    match goal with |- ?A /\ ?C /\ ?D => enough (A /\ C) as [? ?] by done end.
    apply (all_tame K1 X0 U0 parse1 scf t0 2 2 0 1 (fun _ => [false]) _ s Hr Hh).
    intros m. rewrite Hn. clear - Ht Htk. split.
    - intros w exp doc u Hk. apply (took_in _ _ _ _ _ _ _ _ _ _ _ _ _ Ht) in Hk. rewrite Htk, !elem_of_cons, elem_of_nil in Hk.
      destruct Hk as [[= -> -> -> -> ->]|[[= -> -> -> -> ->]|[]]]; (split; [by apply no_commasb_spec|]); (split; [by apply no_conflictb_spec|right]); split; vm_compute; done.
    - intros w w' exp exp' doc doc' u u' pol pol' r r' Hk Hk' Hp Hr Hp' Hr' He.
      apply (took_in _ _ _ _ _ _ _ _ _ _ _ _ _ Ht) in Hk, Hk'. rewrite Htk, !elem_of_cons, elem_of_nil in Hk, Hk'.
      pose proof (elem_of_roles _ _ _ Hp Hr) as H1. pose proof (elem_of_roles _ _ _ Hp' Hr') as H2. rewrite He in H1.
      assert (Forall (fun x => x ∉ roles_of docB) (roles_of docA)) as Hd by (refine (bool_decide_unpack _ _); vm_compute; exact I).
      rewrite Forall_forall in Hd.
      destruct Hk as [[= -> -> -> -> ->]|[[= -> -> -> -> ->]|[]]], Hk' as [[= -> -> -> ->]|[[= -> -> -> ->]|[]]]; try reflexivity; exfalso;
        [exact (Hd _ H1 H2)|exact (Hd _ H2 H1)].
  Qed.
  (** One domain; its policy allows role r1 everything under /p but denies it /p/secret. *)
  Definition wcf : @sconf unit := SConf cf_on pcf1 (JConf (B "https://zts/keys") []) [cf1].
  Definition wdoc : document :=
    [[Raw (B "dom:role.r1") (B "get") (B "dom:/p/*") (B "ALLOW"); Raw (B "dom:role.r1") (B "get") (B "dom:/p/secret") (B "DENY")]].
  Definition wcall (i : nat) (w0 w1 : nat) (ms : nat) (q : request) : list (@cmd unit) :=
    [DCall i q; DLook i; DParse i; DTrans i tt; DLoad i] ++ map (DChk i) [LLoad; LSpawn; LSpawn; LSpawn] ++
    replicate w0 (DChk i (LWork 0)) ++ replicate w1 (DChk i (LWork 1)) ++ map (DChk i) (LClose :: replicate ms LMain) ++ [DPolicy i].
  (** The keys and the policy are loaded; the policy expires, the hook downloads it again and has
      added its first assertion when the request comes. *)
  Definition wcmds : list (@cmd unit) :=
    keys_cmds 0 (B "ZTSKEY") ++ keys_cmds 1 (B "ZMSKEY") ++
    [DSend 0 0; DReply 0 0 (Response 200 (B "a") (Doc (pol1 (B "dom") wdoc (60 * second)))); DSpawn 0; DTake 0 0 0] ++
    replicate 5 (DWork 0 0) ++ [DFinish 0; DTick (61 * second); DHook;
     DSend 0 1; DReply 0 1 (Response 200 (B "b") (Doc (pol1 (B "dom") wdoc (200 * second)))); DObjTake 1 0 0 1 false;
     DObjWork 1 0; DObjWork 1 0] ++ wcall 0 6 3 3 (rq (B "/secret") []) ++ [DStore 0; DObjWork 1 0; DObjWork 1 0; DObjWork 1 0].
  Definition wcmds2 : list (@cmd unit) := [DCall 1 (rq (B "/secret") []); DLook 1].
  Definition winit : sys K1 := yinit K1 wcf t0 2 2 0 1 (fun _ => [false; false]).
  Definition replies (tr : list (@ylabel K1 unit * sys K1)) : list signed_policy :=
    omap (fun '(l, _) => match l with YReply _ _ _ (Response _ _ (Doc sp)) => Some sp | _ => None end) tr.
  Definition granted_at (i : nat) (s : sys K1) : option (request * list str * str) :=
    match z_tasks (y_auth K1 s) !! i with Some (CDone q (Ok p)) => Some (q, pr_auth p, pr_domain p) | _ => None end.
  (** What the cache in use says about role r1 at the end: a denial first. *)
  Definition held (s : sys K1) : option (list (option error)) :=
    match y_objs K1 s !! y_cur K1 s with Some o => option_map (map a_effect) (g_get (now K1 s) (B "dom:role.r1") (c_g o)) | None => None end.
  (** Every policy ever downloaded denies the request to role r1, and the request is granted to role
      r1; it is granted again, from the cache of results, after the refresh has finished. *)
  Theorem C75_grants_what_every_policy_denies_refuted : exists ls s q p p',
    System.yrun K1 X0 U0 parse1 wcf winit ls s /\ q = rq (B "/secret") [] /\
    z_tasks (y_auth K1 s) !! 0%nat = Some (CDone q (Ok p)) /\ z_tasks (y_auth K1 s) !! 1%nat = Some (CDone q (Ok p')) /\
    B "r1" ∈ pr_auth p /\ B "r1" ∈ pr_auth p' /\ held s = Some [Some ErrDenyByPolicy; None] /\
    forall d sp exp doc, downloaded K1 X0 U0 parse1 wcf winit ls d sp -> content sp exp doc ->
      no_commas doc /\ no_cross_conflict U0 doc /\ doc_denies U0 (pr_domain p) (B "get") (B "/p/secret") doc (B "r1").
  Proof.
    assert (option_map (fun '(tr, s) => (granted_at 0 s, granted_at 1 s, held s, replies tr)) (drive K1 X0 U0 parse1 wcf (wcmds ++ wcmds2) [] winit) =
      Some (Some (rq (B "/secret") [], [B "r1"], B "dom"), Some (rq (B "/secret") [], [B "r1"], B "dom"), Some [Some ErrDenyByPolicy; None],
            [pol1 (B "dom") wdoc (200 * second); pol1 (B "dom") wdoc (60 * second)])) as Ho by (vm_compute; reflexivity).
    destruct (drive K1 X0 U0 parse1 wcf (wcmds ++ wcmds2) [] winit) as [[tr s]|] eqn:E; [|discriminate Ho].
    pose proof (drive_run _ _ _ _ _ _ _ _ _ E) as [Hr Htr]. clear E. cbn [option_map] in Ho.
    assert (forall A C D F (a a' : A) (b b' : C) (c c' : D) (f f' : F), Some (a, b, c, f) = Some (a', b', c', f') -> a = a' /\ b = b' /\ c = c' /\ f = f') as Hinj.
    { intros. injection H as -> -> -> ->. done. }
    apply Hinj in Ho as (H0 & H1 & Hh & Hrep). unfold granted_at in H0, H1.
    destruct (z_tasks (y_auth K1 s) !! 0%nat) as [[| | | | | |q [p| |]]|] eqn:E0; try discriminate H0.
    destruct (z_tasks (y_auth K1 s) !! 1%nat) as [[| | | | | |q' [p'| |]]|] eqn:E1; try discriminate H1.
    assert (forall A C D (a a' : A) (b b' : C) (c c' : D), Some (a, b, c) = Some (a', b', c') -> a = a' /\ b = b' /\ c = c') as Hinj3.
    { intros. injection H as -> -> ->. done. }
    apply Hinj3 in H0 as (-> & Hp & Hd), H1 as (-> & Hp' & _).
    exists (rev tr.*1), s, (rq (B "/secret") []), p, p'. split; [done|]. split; [done|]. split; [done|]. split; [done|].
    split; [rewrite Hp; left|]. split; [rewrite Hp'; left|]. split; [done|].
    intros d sp exp doc (i & etag & l1 & s1 & Hrp & _) (sd & pd & Hsd & _ & Hpd & Hdoc). apply Htr in Hrp.
    assert (sp ∈ replies tr) as Hin. { apply elem_of_list_omap. eexists. split; [exact Hrp|]. done. }
    rewrite Hrep in Hin. assert (doc = wdoc) as ->.
    { rewrite !elem_of_cons, elem_of_nil in Hin. destruct Hin as [->|[->|[]]]; cbn in Hsd; injection Hsd as <-; cbn in Hpd; injection Hpd as <-; apply written_inj; exact (eq_sym Hdoc). }
    split; [apply no_commasb_spec; vm_compute; reflexivity|]. split; [apply no_conflictb_spec; vm_compute; reflexivity|].
    rewrite Hd. apply doc_deniesb_spec. vm_compute. reflexivity.
  Qed.
  (** An execution to which C75 applies although a hook ran: the cache of C75_grants_... is being
      filled again by the hook, half done, when an Update publishes another one; a call is granted by that. *)
  Definition hk_init : sys K1 := yinit K1 wcf t0 2 2 0 2 (fun _ => [false; false; false]).
  Definition hk_cmds : list (@cmd unit) :=
    keys_cmds 0 (B "ZTSKEY") ++ keys_cmds 1 (B "ZMSKEY") ++
    [DSend 0 0; DReply 0 0 (Response 200 (B "a") (Doc (pol1 (B "dom") wdoc (60 * second)))); DSpawn 0; DTake 0 0 0] ++
    replicate 5 (DWork 0 0) ++ [DFinish 0; DTick (61 * second); DHook;
     DSend 0 1; DReply 0 1 (Response 200 (B "b") (Doc (pol1 (B "dom") wdoc (200 * second)))); DObjTake 1 0 0 1 false;
     DObjWork 1 0; DObjWork 1 0;
     DSend 0 2; DReply 0 2 (Response 200 (B "b") (Doc (pol1 (B "dom") wdoc (200 * second)))); DSpawn 1; DTake 1 0 2] ++
    replicate 5 (DWork 1 0) ++ [DFinish 1] ++ wcall 0 8 3 3 (rq (B "/a") []) ++ [DStore 0].
  (** The caches in use when a hook was started; the caches the checks that granted went by; which
      Update published which cache. *)
  Definition hooked_caches (tr : list (@ylabel K1 unit * sys K1)) : list nat := omap (fun '(l, s) => match l with YHook _ => Some (y_cur K1 s) | _ => None end) tr.
  Definition granting_caches (tr : list (@ylabel K1 unit * sys K1)) : list (nat * time) :=
    omap (fun '(l, s) => match l with
      | YAuth _ (ZPolicy _ i (Ok _)) => match y_chk K1 s !! i with Some (Some k) => Some (k_obj k, now K1 s) | _ => None end | _ => None end) tr.
  Definition publishing_updates (tr : list (@ylabel K1 unit * sys K1)) : list (nat * nat) :=
    omap (fun '(l, s) => match l with YUpd _ m UFinish => Some (m, length (y_objs K1 s)) | _ => None end) tr.
  Example C75_after_a_hook_nonvacuous : exists ls s q p, System.yrun K1 X0 U0 parse1 wcf hk_init ls s /\ 0 < t0 /\ z_policy (s_z wcf) = true /\
    YHook K1 ∈ ls /\ grants_untouched K1 X0 U0 parse1 wcf hk_init ls /\ grants_tame K1 X0 U0 parse1 wcf t0 2 2 0 2 (fun _ => [false; false; false]) ls /\
    z_tasks (y_auth K1 s) !! 0%nat = Some (CDone q (Ok p)) /\ pr_auth p = [B "r1"].
  Proof.
    assert (option_map (fun '(tr, s) => (granted_at 0 s, hooked_caches tr, granting_caches tr, publishing_updates tr, takes K1 tr)) (drive K1 X0 U0 parse1 wcf hk_cmds [] hk_init) =
      Some (Some (rq (B "/a") [], [B "r1"], B "dom"), [1%nat], [(2%nat, 61 * second)], [(1, 2); (0, 1)]%nat,
            [(1%nat, 0%nat, 200 * second, wdoc, 61 * second); (0%nat, 0%nat, 60 * second, wdoc, 50 * second)])) as Ho by (vm_compute; reflexivity).
    destruct (drive K1 X0 U0 parse1 wcf hk_cmds [] hk_init) as [[tr s]|] eqn:E; [|discriminate Ho].
    pose proof (drive_run _ _ _ _ _ _ _ _ _ E) as Ht. clear E. cbn [option_map] in Ho. injection Ho as Ha Hhk Hg Hpb Htk. pose proof Ht as [Hr Hin].
    unfold granted_at in Ha. destruct (z_tasks (y_auth K1 s) !! 0%nat) as [[| | | | | |q [p| |]]|] eqn:Ez; try discriminate Ha. injection Ha as Hq Hp _.
    assert (forall l2 s2 j acc k, happened K1 X0 U0 parse1 wcf hk_init (rev tr.*1) (YAuth K1 (ZPolicy K1 j (Ok acc))) l2 s2 -> y_chk K1 s2 !! j = Some (Some k) ->
      k_obj k = 2%nat /\ now K1 s2 = 61 * second) as Hgr.
    { intros l2 s2 j acc k Hh Hk. apply Hin in Hh. assert ((k_obj k, now K1 s2) ∈ granting_caches tr) as Hy.
      { apply elem_of_list_omap. eexists. split; [exact Hh|]. cbn. by rewrite Hk. }
      rewrite Hg in Hy. apply elem_of_list_singleton in Hy. by injection Hy. }
    exists (rev tr.*1), s, q, p. split; [done|]. split; [done|]. split; [done|]. split; [|split; [|split; [|done]]].
    - assert (1%nat ∈ hooked_caches tr) as Hy by (rewrite Hhk; left). apply elem_of_list_omap in Hy as ([l s1] & Hy & Hl). destruct l; try discriminate Hl.
      rewrite elem_of_list_In, <- in_rev, <- elem_of_list_In. apply elem_of_list_fmap. by eexists (_, _).
    - intros j acc l2 s2 k Hh Hk l1 s1 Hh1. destruct (Hgr _ _ _ _ _ Hh Hk) as [-> _]. destruct Hh as [[l3 Hl] _]. destruct Hh1 as [[l4 ->] Hr1].
      assert (happened K1 X0 U0 parse1 wcf hk_init (rev tr.*1) (YHook K1) l1 s1) as Hh1 by (split; [rewrite Hl, <- app_assoc; by eexists|done]).
      apply Hin in Hh1. assert (y_cur K1 s1 ∈ hooked_caches tr) as Hy by (apply elem_of_list_omap; eexists; split; [exact Hh1|done]).
      rewrite Hhk in Hy. apply elem_of_list_singleton in Hy. congruence.
    - intros j acc l2 s2 k m Hh Hk Hpub. destruct (Hgr _ _ _ _ _ Hh Hk) as [Hko Hnow]. rewrite Hko in Hpub. rewrite Hnow. destruct Hh as [[l3 Hl] Hr2].
      assert (m = 1%nat) as ->.
      { destruct Hpub as (l1 & s1 & s1' & [[l4 ->] Hr1] & Hs & Hno & Hso).
        assert (happened K1 X0 U0 parse1 wcf hk_init (rev tr.*1) (YUpd K1 m UFinish) l1 s1) as Hh1 by (split; [rewrite Hl, <- app_assoc; by eexists|done]).
        apply Hin in Hh1. assert ((m, length (y_objs K1 s1)) ∈ publishing_updates tr) as Hy by (apply elem_of_list_omap; eexists; split; [exact Hh1|done]).
        rewrite Hpb, !elem_of_cons, elem_of_nil in Hy. destruct Hy as [[= -> _]|[[= -> Hlen]|[]]]; [done|]. exfalso. apply lookup_lt_is_Some in Hso.
        assert (length (y_objs K1 s1') <= S (length (y_objs K1 s1)))%nat; [|lia]. clear -Hs. inversion Hs; subst; cbn; rewrite ?app_length; cbn; lia. }
      assert (forall w exp doc u, took K1 X0 U0 parse1 wcf hk_init l2 1 w exp doc u -> (w, exp, doc) = (0%nat, 200 * second, wdoc)) as Htake.
      { intros w exp doc u Hk1. apply (took_mono K1 X0 U0 parse1 wcf hk_init l2 (YAuth K1 (ZPolicy K1 j (Ok acc)) :: l3)) in Hk1. rewrite <- Hl in Hk1.
        apply (took_in _ _ _ _ _ _ _ _ _ _ _ _ _ Ht) in Hk1. rewrite Htk, !elem_of_cons, elem_of_nil in Hk1. destruct Hk1 as [[= -> -> -> ->]|[[=]|[]]]. done. }
      split.
      + intros w exp doc u Hk1. apply Htake in Hk1 as [= -> -> ->]. split; [by apply no_commasb_spec|]. split; [by apply no_conflictb_spec|right]. split; vm_compute; done.
      + intros w w' exp exp' doc doc' u u' pol pol' r r' Hk1 Hk2 _ _ _ _ _. apply Htake in Hk1 as [= -> _ _], Hk2 as [= -> _ _]. done.
  Qed.
End example.
Print Assumptions C75_grants_what_every_policy_denies_refuted.
Print Assumptions C75_denied_stays_denied_partial.
