(** * Property C93: whoever is entitled gets in *)
From Verif Require Import Prop_Role Prop_Access RoleProofs SystemFacts Prop_System Prop_Snapshot ApiFacts Hooked.
From Verif Require Prop_Api Prop_Expiry.
From Verif Require Import GoStrings.

Section claims.
  Context (K : crypto) (X : jwt_ext) {O : Type} (U : unicode) (parse : str -> option (verifier K)).
  Context (cf : @sconf O) (t0 : time) (n nk nj nu : nat) (calls : nat -> list bool).
  Notation s0 := (yinit K cf t0 n nk nj nu calls).
  Notation yrun := (yrun K X U parse cf s0).
  Notation ystep := (ystep K X U parse cf).
  Notation passed := (passed K X U parse cf s0).
  Notation happened := (happened K X U parse cf s0).
  Notation took := (took K X U parse cf s0).
  Notation published_by := (published_by K X U parse cf s0).
  Notation view_of := (SystemFacts.view_of K X U parse cf t0 n nk nj nu calls).
  Notation tame := (tame K X U parse cf t0 n nk nj nu calls).
  Notation ylabel := (@ylabel K O).
  Notation now := (now K).

  (** ** Specification *)
  (** The documents of Update [m] deny, or allow, the role. *)
  Definition denied_by (ls : list ylabel) (m : nat) (dom act res role : str) : Prop :=
    exists w exp doc t, took ls m w exp doc t /\ doc_denies U dom act res doc role.
  Definition allowed_by (ls : list ylabel) (m : nat) (dom act res role : str) : Prop :=
    exists w exp doc t, took ls m w exp doc t /\ doc_allows U dom act res doc role.

  (** The token of request [q] is valid in state [s], by the keys held then, and states [p]. *)
  Definition valid_role (s : sys K) (q : request) (p : principal) : Prop :=
    exists fs sig v, q_tok q = token_text fs sig /\ well_formed fs /\ times_ok fs /\
      now s <= time_of zero_time (last_value fs (B "e")) /\
      get_pub_key (y_keys K s) EnvZTS (default [] (last_value fs (B "k"))) = Some v /\
      vfy K v (signed_text fs) (default sig (last_value fs (B "s"))) = true /\
      let t := token_of fs sig in
      p = Principal (rt_principal t) (rt_roles t) (rt_domain t) (unix_of (rt_time t)) (unix_of (rt_expiry t)) [] None.
  Definition valid_access (s : sys K) (q : request) (p : principal) : Prop :=
    exists c h k, claims_of X (q_tok q) c /\ dates_ok (now s) c /\ header_of X (q_tok q) h /\
      selects (get_key (s_j cf) (y_jwk K s)) h k /\ signed_by X (q_tok q) h k /\
      (a_verify_client (z_aconf (s_z cf)) = true ->
         exists crt ids, q_cert q = Some crt /\ a_clients (z_aconf (s_z cf)) !! c_cn crt = Some ids /\ cl_client c ∈ ids) /\
      (a_bound (z_aconf (s_z cf)) = true -> exists crt, q_cert q = Some crt /\ bound_to X (z_aconf (s_z cf)) crt c) /\
      p = Principal (cl_sub c) (cl_scope c) (cl_aud c) (cl_iat c) (cl_exp c) [] (Some (cl_client c)).
  Definition valid_token (s : sys K) (q : request) (p : principal) : Prop :=
    match q_mode q with
    | MRole => z_role (s_z cf) = true /\ valid_role s q p
    | MAccess => z_access (s_z cf) = true /\ valid_access s q p
    end.

  (** ** The cache of an Update, as long as its documents are valid *)
  Lemma update_allows uls u w j doc t domain action resource role :
    urun U uls (uinit ∅ (length (s_f cf)) false) = Some u -> u_ret u = Some (Ok tt) ->
    disjoint_jobs (ufetched uls) -> timely (ufetched uls) (uticked uls) -> ufetched uls w j -> alive j t ->
    no_commas doc -> faithful_script U doc (j_script j) -> ~ doc_denies U domain action resource doc role ->
    doc_allows U domain action resource doc role ->
    role_allows U domain action resource (g_view t (u_cur u)) role.
  Proof.
    intros H Hr Hdis Htime HF Hal Hnc Hfs Hnd Hd.
    assert (has_role j (key_of domain role)) as Hrole.
    { destruct Hd as (pol & r & Hp & Hrp & [Hrk _] & _).
      destruct (script_complete _ _ _ (faithful_script_of _ _ _ Hfs) pol r Hp Hrp) as (r' & Hr' & Hkm).
      destruct (script_sound _ _ _ (faithful_script_of _ _ _ Hfs) r' Hr') as (pol' & Hp' & Hrp').
      pose proof (Hnc _ _ Hp Hrp) as [? ?]. pose proof (Hnc _ _ Hp' Hrp') as [? ?].
      exists r'. split; [done|]. unfold key_of. rewrite <- Hrk. by apply km_inj. }
    destruct (update_entry _ _ _ _ _ _ t _ w j H Hr Hdis Htime HF Hrole Hal) as [Hokl Hget].
    apply (entry_meaning U domain action resource doc (j_script j)); try done.
    intros a. unfold holds_assertion. rewrite g_view_lookup, Hget. split.
    - intros (l & [= <-] & Ha). by apply elem_of_rlist.
    - intros Ha. eexists. split; [done|]. by apply elem_of_rlist.
  Qed.

  (** What readers see of the cache Update [m] published is always the same, and means what the
      documents mean. *)
  Lemma view_meaning ls s m o : yrun ls s -> 0 < t0 -> untouched K X U parse cf s0 ls o -> published_by ls m o -> tame ls (now s) m ->
    exists V, (forall c, view_of ls o c -> c = V) /\ deny_first_cache V /\
      (forall k l a, V !! k = Some l -> a ∈ l -> a_effect a = None \/ a_effect a = Some ErrDenyByPolicy) /\
      (forall dom act res role, role_denies U dom act res V role <-> denied_by ls m dom act res role) /\
      (forall dom act res role, role_allows U dom act res V role -> allowed_by ls m dom act res role) /\
      (forall dom act res role, ~ denied_by ls m dom act res role -> allowed_by ls m dom act res role -> role_allows U dom act res V role).
  Proof.
    intros Hr Ht0 Hh Hpub [Hwf Hdisj].
    destruct (published_exists K X U parse cf t0 n nk nj nu calls _ _ _ _ Hr Hpub) as [Hlt _].
    apply lookup_lt_is_Some_2 in Hlt as [obj Hobj].
    destruct (objects_ok K X U parse cf t0 n nk nj nu calls _ _ _ Hr Hh) as [_ Hplain].
    destruct (Hplain _ _ Hobj Hpub) as (u & Hu & Hret & Hview).
    destruct (updates_ok K X U parse cf t0 n nk nj nu calls _ _ Hr _ _ Hu) as (uls & H1 & H2 & H3 & H4 & _).
    assert (disjoint_jobs (ufetched uls)) as Hdj.
    { intros w1 w2 j1 j2 k' HF1 HF2 (r1 & Hr1' & Hk1) (r2 & Hr2 & Hk2).
      destruct (H2 _ _ HF1) as (doc1 & Htk1 & Hs1). destruct (H2 _ _ HF2) as (doc2 & Htk2 & Hs2).
      destruct (script_sound _ _ _ Hs1 _ Hr1') as (pol1 & ? & ?). destruct (script_sound _ _ _ Hs2 _ Hr2) as (pol2 & ? & ?).
      eapply (Hdisj w1 w2); [done..|congruence]. }
    assert (timely (ufetched uls) (uticked uls)) as Htm.
    { intros w1 j1 t1 HF1 HT1. destruct (H2 _ _ HF1) as (doc1 & Htk1 & _). destruct (H4 _ _ HT1) as [Hle Hj].
      specialize (Hj _ HF1). destruct (took_clock K X U parse cf t0 n nk nj nu calls _ _ _ _ _ _ _ Hr Htk1) as [? _].
      destruct (Hwf _ _ _ _ Htk1) as (_ & _ & [?|[? ?]]); [by left|right]. lia. }
    assert (forall w j t, ufetched uls w j -> t <= now s -> alive j t) as Hal.
    { intros w j t HF Ht. destruct (H2 _ _ HF) as (doc & Htk & _). destruct (Hwf _ _ _ _ Htk) as (_ & _ & [?|[? _]]); [by left|right; lia]. }
    assert (forall t k l, t <= now s -> g_get t k (u_cur u) = Some l -> forall t', t' <= now s -> g_get t' k (u_cur u) = Some l) as Hsame.
    { intros t k l Ht Hg t' Ht'. pose proof (update_binv _ _ _ _ _ _ H1) as [_ Hb]. pose proof Hg as Hg'. apply g_get_Some in Hg' as [e He].
      pose proof (urun_inv _ _ _ _ _ _ H1 (uinit_inv _ ∅ false)) as (_ & _ & _ & _ & _ & H6). destruct (H6 Hret) as [Hcur _]. rewrite Hcur in He.
      destruct (Hb _ _ He) as [_ [Hx|(i & j & r & tt & HF & Hr' & Hk & _)]]; [by rewrite lookup_empty in Hx|].
      assert (has_role j k) as Hrole by (by exists r).
      destruct (update_entry _ _ _ _ _ _ t _ i j H1 Hret Hdj Htm HF Hrole (Hal _ _ _ HF Ht)) as [_ E1].
      destruct (update_entry _ _ _ _ _ _ t' _ i j H1 Hret Hdj Htm HF Hrole (Hal _ _ _ HF Ht')) as [_ E2]. congruence. }
    exists (g_view (now s) (u_cur u)). split_and!.
    - intros c (l1 & s1 & obj1 & Hpass & Hobj1 & ->). pose proof (passed_clock K X U parse cf s0 _ _ _ _ Hpass Hr) as Hclk.
      pose proof (passed_published K X U parse cf t0 n nk nj nu calls _ _ _ _ _ _ Hr Hpass ltac:(by eexists) Hpub) as Hpub1.
      pose proof Hpass as [[l2 ->] Hr1]. pose proof (untouched_prefix K X U parse cf t0 n nk nj nu calls _ _ _ Hh) as Hh1.
      destruct (objects_ok K X U parse cf t0 n nk nj nu calls _ _ _ Hr1 Hh1) as [_ Hplain1].
      destruct (Hplain1 _ _ Hobj1 Hpub1) as (u1 & Hu1 & Hret1 & Hview1). rewrite Hview1 by done.
      assert (u_cur u1 = u_cur u) as ->.
      { clear -Hr1 Hr Hu1 Hret1 Hu. revert s u Hr Hu. induction l2 as [|l l2 IH] using rev_ind; intros s u Hr Hu.
        - rewrite app_nil_r in Hr. assert (s1 = s) as -> by (by eapply yrun_det). congruence.
        - rewrite app_assoc in Hr. apply yrun_snoc in Hr as (s2 & H2 & Hs).
          destruct (returned_stays K X U parse cf t0 n nk nj nu calls _ _ _ _ _ _ Hr1 H2 Hu1 Hret1) as (u2 & Hu2 & Hret2).
          rewrite (IH _ _ H2 Hu2). destruct Hs; cbn [set_auth set_keys set_jwk set_fetch set_upd set_obj publish set_chk y_upd] in Hu; try congruence;
            (apply list_lookup_insert_Some in Hu as [(-> & -> & _)|[_ Hu]]; [|congruence];
             match goal with Ha : ustep U _ ?x = Some ?y |- _ => assert (x = u2) as -> by congruence; by destruct (ustep_returned U _ _ _ Ha Hret2) as [_ ->] end). }
      apply map_eq. intros k. rewrite !g_view_lookup.
      destruct (g_get (now s1) k (u_cur u)) as [l|] eqn:E1; [by rewrite (Hsame _ _ _ Hclk E1 (now s))|].
      destruct (g_get (now s) k (u_cur u)) as [l|] eqn:E2; [|done]. rewrite (Hsame _ _ _ (Z.le_refl _) E2 (now s1)) in E1; done.
    - apply view_deny_first. pose proof (urun_inv _ _ _ _ _ _ H1 (uinit_inv _ ∅ false)) as (_ & _ & _ & _ & _ & H6).
      destruct (H6 Hret) as [-> _]. destruct (caches_ok K X U parse cf t0 n nk nj nu calls _ _ Hr) as [Hcu _]. by destruct (Hcu _ _ Hu) as [_ [? _]].
    - intros k l a Hl Ha. rewrite g_view_lookup in Hl. apply g_get_Some in Hl as [e He].
      destruct (update_all_or_nothing _ _ _ _ _ _ H1) as [_ Hok]. destruct (Hok Hret) as [_ Hc].
      destruct (Hc _ _ _ He Ha) as (i & j & r & _ & _ & _ & _ & Hconv). apply new_assertion_inv in Hconv as (d & rs & _ & _ & _ & _ & _ & _ & _ & ->).
      destruct (equal_fold U (B "deny") (r_effect r)); auto.
    - intros dom act res role. split.
      + intros (a & (l & Hl & Ha) & Hhit & Hd). rewrite g_view_lookup in Hl. apply g_get_Some in Hl as [e He].
        destruct (update_all_or_nothing _ _ _ _ _ _ H1) as [_ Hok]. destruct (Hok Hret) as [_ Hc].
        destruct (Hc _ _ _ He Ha) as (i & j & r & _ & HF & Hr' & Hk & Hconv). destruct (H2 _ _ HF) as (doc & Htk & Hs).
        exists i, (j_exp j), doc, (j_now j). split; [done|]. destruct (script_sound _ _ _ Hs r Hr') as (pol & Hpol & Hrp).
        exists pol, r. split_and!; [done..| |]; [by apply (conv_hits U _ _ _ r a)|by apply (conv_effect U r a)].
      + intros (w & exp & doc & t & Htk & Hd). destruct (H3 _ _ _ _ Htk) as (script & HF & Hs). destruct (Hwf _ _ _ _ Htk) as (Hnc & Hncc & _).
        eapply (update_denies U cf); try done; [by eapply Hal|].
        destruct Hs as (sls & ss & ? & ? & ?). exists sls, ss. split_and!; try done. by left.
    - intros dom act res role (a & (l & Hl & Ha) & Hhit & Hd). rewrite g_view_lookup in Hl. apply g_get_Some in Hl as [e He].
      destruct (update_all_or_nothing _ _ _ _ _ _ H1) as [_ Hok]. destruct (Hok Hret) as [_ Hc].
      destruct (Hc _ _ _ He Ha) as (i & j & r & _ & HF & Hr' & Hk & Hconv). destruct (H2 _ _ HF) as (doc & Htk & Hs).
      exists i, (j_exp j), doc, (j_now j). split; [done|]. destruct (script_sound _ _ _ Hs r Hr') as (pol & Hpol & Hrp).
      exists pol, r. split_and!; [done..| |]; [by apply (conv_hits U _ _ _ r a)|]. intros Hx. apply (conv_effect U r a Hconv) in Hx. by apply Hx.
    - intros dom act res role Hnd (w & exp & doc & t & Htk & Hd). destruct (H3 _ _ _ _ Htk) as (script & HF & Hs). destruct (Hwf _ _ _ _ Htk) as (Hnc & Hncc & _).
      eapply (update_allows _ _ w); try done; [by eapply Hal| |].
      + destruct Hs as (sls & ss & ? & ? & ?). exists sls, ss. split_and!; try done. by left.
      + intros Hx. apply Hnd. by exists w, exp, doc, t.
  Qed.

  (** ** Checks whose context is not cancelled *)
  Definition calm_view (ls : list ylabel) (k : chk) : Prop :=
    exists c0 kls, run U (k_dom k) (k_roles k) (k_act k) (k_res k) kls (start (k_roles k) c0 false) = Some (k_st k) /\
      EnvCancel ∉ kls /\ forall c, version c0 kls c -> view_of ls (k_obj k) c.
  Lemma calm_mono ls l k : calm_view ls k -> calm_view (ls ++ l) k.
  Proof. intros (c0 & kls & H & Hc & Hv). exists c0, kls. split; [done|]. split; [done|]. intros c Hc'. by apply view_of_mono, Hv. Qed.
  Lemma checks_calm ls s i k : yrun ls s -> y_chk K s !! i = Some (Some k) -> YChk K i EnvCancel ∉ ls -> calm_view ls k.
  Proof.
    intros H. revert k. induction H as [|ls l s s' H IH Hs]; intros k Hk Hn.
    - cbn in Hk. by apply lookup_replicate in Hk as [? _].
    - rewrite elem_of_app, elem_of_list_singleton in Hn.
      assert (y_chk K s !! i = Some (Some k) -> calm_view (ls ++ [l]) k) as Hkeep by (intros Hk'; apply calm_mono, IH; [done|tauto]).
      destruct Hs; try (by apply Hkeep).
      + cbn [set_chk y_chk] in Hk. apply list_lookup_insert_Some in Hk as [(-> & Heq & _)|[_ Hk]]; [|by apply Hkeep].
        injection Heq as <-. apply calm_mono.
        eexists _, []. split; [done|]. split; [apply not_elem_of_nil|]. intros c' [->|(p' & [Hx|Hx])]; [|by apply elem_of_nil in Hx..].
        exists ls, s, c. split; [split; [by eexists; rewrite app_nil_r|done]|]. done.
      + cbn [set_chk y_chk] in Hk. apply list_lookup_insert_Some in Hk as [(-> & Heq & _)|[_ Hk]]; [|by apply Hkeep].
        injection Heq as <-. destruct (IH _ H0) as (c0 & kls & Hr & Hc & Hv); [tauto|]. apply calm_mono.
        exists c0, (kls ++ [EnvMutate 0%nat (g_view (now s) (c_g c)); l]). cbn [k_dom k_roles k_act k_res k_st k_obj]. split; [by rewrite run_app, Hr|]. split.
        { rewrite elem_of_app, !elem_of_cons, elem_of_nil. intros [?|[?|[<-|[]]]]; [done|done|]. apply Hn. by right. }
        intros c1 Hc1. assert (version c0 kls c1 \/ c1 = g_view (now s) (c_g c)) as [Hc1'| ->].
        { destruct Hc1 as [->|(p & Hp)]; [left; by left|]. rewrite !elem_of_app in Hp. rewrite !elem_of_cons, !elem_of_nil in Hp.
          destruct Hp as [[Hp|[Hp|[Hp|Hp]]]|[Hp|[Hp|[Hp|Hp]]]]; try done.
          - left. right. exists p. by left.
          - match goal with He : check_label l = true |- _ => by rewrite <- Hp in He end.
          - left. right. exists p. by right.
          - injection Hp as -> ->. by right.
          - match goal with He : check_label l = true |- _ => by rewrite <- Hp in He end. }
        * by apply Hv.
        * exists ls, s, c. split; [split; [by eexists; rewrite app_nil_r|done]|]. done.
  Qed.

  (** ** What a check answers *)
  (** A check that was not cancelled, by a cache that no hook was started on, answers what the documents of the Update say, exactly: it
      succeeds with the allowed roles if some role is allowed and none denied, fails with
      ErrDenyByPolicy if one is denied, and with ErrNoMatch if none is either. *)
  Theorem C93_verdict_of_the_documents ls s i k r m : yrun ls s -> 0 < t0 -> untouched K X U parse cf s0 ls (k_obj k) -> YChk K i EnvCancel ∉ ls ->
    y_chk K s !! i = Some (Some k) -> returned (k_st k) r -> published_by ls m (k_obj k) -> tame ls (now s) m ->
    let denied := denied_by ls m (k_dom k) (k_act k) (k_res k) in
    let allowed := allowed_by ls m (k_dom k) (k_act k) (k_res k) in
    match r with
    | Ok acc => (forall role, role ∈ k_roles k -> ~ denied role) /\ (forall role, role ∈ acc <-> role ∈ k_roles k /\ allowed role) /\ acc <> []
    | Err e => e = ErrDenyByPolicy /\ (exists role, role ∈ k_roles k /\ denied role) \/
        e = ErrNoMatch /\ forall role, role ∈ k_roles k -> ~ denied role /\ ~ allowed role
    | Panic => False
    end.
  Proof.
    intros Hr Ht0 Hh Hnc Hk Hret Hpub Htame denied allowed.
    destruct (view_meaning _ _ _ _ Hr Ht0 Hh Hpub Htame) as (V & HV & Hdf & Heff & Hden & Hall & Hall').
    destruct (checks_calm _ _ _ _ Hr Hk Hnc) as (c0 & kls & Hrun & Hcalm & Hv).
    assert (forall c, version c0 kls c -> c = V) as Hver by (intros c Hc; by apply HV, Hv).
    pose proof (Hver c0 ltac:(by left)) as ->.
    apply (strip U _ _ _ _ V) in Hrun.
    2:{ unfold start, init. cbn [s_heap]. intros p c Hp. by apply lookup_singleton_Some in Hp as [_ <-]. }
    2:{ intros p c Hx. apply (Hver c). right. by exists p. }
    destruct (answer _ _ _ _ _ _ _ _ _ _ Hrun Hret) as (cc & Hcur & Hans).
    { intros p c Hin. apply elem_of_list_In, List.filter_In in Hin as [_ Hin]. done. }
    assert (cc = V) as ->.
    { apply current_version in Hcur as [->|[p Hp]]; [done|]. apply (Hver cc). right. exists p. destruct Hp as [Hp|Hp]; apply elem_of_list_In, List.filter_In in Hp as [Hp _]; apply elem_of_list_In in Hp; auto. }
    destruct r as [acc|e|]; [| |done].
    - destruct (answer_ok_spec _ _ _ _ _ _ _ _ Hdf Hans) as [A1 A2]. destruct Hans as (Hne & Hp & _).
      assert (forall role, role ∈ k_roles k -> ~ denied role) as Hnd by (intros role Hrole Hd; apply (A2 role Hrole); by apply Hden).
      split; [done|]. split; [|done]. intros role. split.
      + intros Hin. destruct (A1 role Hin) as [? ?]. split; [done|]. by apply Hall.
      + intros [Hin Hal]. rewrite Hp. apply elem_of_list_In, List.filter_In. split; [by apply elem_of_list_In|].
        destruct (role_hitb U (k_dom k) (k_act k) (k_res k) V role) eqn:E; [done|]. apply hitb_false in E as [_ E].
        exfalso. apply E, Hall'; [by apply Hnd|done].
    - destruct Hans as [[-> Hn]|[(role & l & a & Hin & Hl & Hf & He)|[-> [Hx|Hx]]]]; [right|left|done|].
      + split; [done|]. intros role Hin. destruct (hitb_false _ _ _ _ _ _ (Hn role Hin)) as [B1 B2]. 
        assert (~ denied role) as Hnd by (intros Hd; apply B1; by apply Hden). split; [done|]. intros Ha. by apply B2, Hall'.
      + apply find_some in Hf as [Hf1 Hf2]. apply elem_of_list_In in Hf1. split; [|].
        * destruct (Heff _ _ _ Hl Hf1) as [H|H]; congruence.
        * exists role. split; [done|]. apply Hden. exists a. split; [exists l; done|]. split; [done|]. unfold is_deny. by rewrite He.
      + exfalso. apply elem_of_list_In, List.filter_In in Hx as [Hx _]. apply elem_of_list_In in Hx. done.
  Qed.

  (** ** Calls of authorize *)
  Lemma access_iff s (ac : aconf) tok ct c : parse_access X ac (Some (get_key (s_j cf) (y_jwk K s))) (now s) tok ct = Ok c <->
    parse_with_claims X (Some (get_key (s_j cf) (y_jwk K s))) (now s) tok = Ok c /\
    (a_verify_client ac = true -> exists crt ids, ct = Some crt /\ a_clients ac !! c_cn crt = Some ids /\ cl_client c ∈ ids) /\
    (a_bound ac = true -> exists crt, ct = Some crt /\ bound_to X ac crt c).
  Proof.
    destruct ac as [bd bk of vc cls]. cbn [a_verify_client a_bound a_clients]. set (jp := Some (get_key (s_j cf) (y_jwk K s))).
    assert (forall vc', parse_access X (AConf bd bk of vc' cls) jp (now s) tok ct = Ok c <->
      parse_access X (AConf false bk of vc' cls) jp (now s) tok ct = Ok c /\ (bd = true -> exists crt, ct = Some crt /\ bound_to X (AConf bd bk of vc' cls) crt c)) as Hb.
    { intros vc'. destruct bd; [|naive_solver]. rewrite (C38_binding_exact X (AConf true bk of vc' cls)) by done. cbn. naive_solver. }
    assert (parse_access X (AConf false bk of vc cls) jp (now s) tok ct = Ok c <->
      parse_with_claims X jp (now s) tok = Ok c /\ (vc = true -> exists crt ids, ct = Some crt /\ cls !! c_cn crt = Some ids /\ cl_client c ∈ ids)) as Hv.
    { destruct vc; [rewrite (C39_client_id_exact X (AConf false bk of true cls)) by done; cbn [a_bound a_back a_offset a_clients]|];
        rewrite (C39_switches_off X (AConf false bk of false cls)) by done; naive_solver. }
    rewrite Hb, Hv. tauto.
  Qed.
  Lemma valid_iff s q p : valid_token s q p <-> process K X (s_z cf) (keys_now K cf s) (now s) q = Ok p.
  Proof.
    unfold valid_token, process. destruct (q_mode q).
    - destruct (z_role (s_z cf)); [|by split; [intros [? _]|]]. cbn [keys_now ks_pub].
      destruct (parse_and_validate K _ (now s) (q_tok q)) as [t| |] eqn:E; cbn [obind]; split.
      + intros [_ (fs & sig & v & H1 & H2 & H3 & H4 & H5 & H6 & ->)].
        assert (parse_and_validate K (Some (get_pub_key (y_keys K s))) (now s) (q_tok q) = Ok (token_of fs sig)) as E'.
        { apply C34_accept_iff. exists fs, sig, v. done. }
        rewrite E in E'. by injection E' as ->.
      + intros [= <-]. split; [done|]. apply C34_accept_iff in E as (fs & sig & v & H1 & H2 & H3 & -> & H5 & H6 & H7). by exists fs, sig, v.
      + intros [_ (fs & sig & v & H1 & H2 & H3 & H4 & H5 & H6 & ->)].
        assert (parse_and_validate K (Some (get_pub_key (y_keys K s))) (now s) (q_tok q) = Ok (token_of fs sig)) as E'; [|by rewrite E in E'].
        apply C34_accept_iff. exists fs, sig, v. done.
      + done.
      + intros [_ (fs & sig & v & H1 & H2 & H3 & H4 & H5 & H6 & ->)].
        assert (parse_and_validate K (Some (get_pub_key (y_keys K s))) (now s) (q_tok q) = Ok (token_of fs sig)) as E'; [|by rewrite E in E'].
        apply C34_accept_iff. exists fs, sig, v. done.
      + done.
    - destruct (z_access (s_z cf)); [|by split; [intros [? _]|]]. cbn [keys_now ks_jwk].
      assert (forall c, parse_access X (z_aconf (s_z cf)) (Some (get_key (s_j cf) (y_jwk K s))) (now s) (q_tok q) (q_cert q) = Ok c <->
        (claims_of X (q_tok q) c /\ dates_ok (now s) c /\ exists h k, header_of X (q_tok q) h /\ selects (get_key (s_j cf) (y_jwk K s)) h k /\ signed_by X (q_tok q) h k) /\
        (a_verify_client (z_aconf (s_z cf)) = true ->
          exists crt ids, q_cert q = Some crt /\ a_clients (z_aconf (s_z cf)) !! c_cn crt = Some ids /\ cl_client c ∈ ids) /\
        (a_bound (z_aconf (s_z cf)) = true -> exists crt, q_cert q = Some crt /\ bound_to X (z_aconf (s_z cf)) crt c)) as Hacc.
      { intros c. rewrite access_iff, C37_accept_iff. done. }
      split.
      + intros [_ (c & h & k & H1 & H2 & H3 & H4 & H5 & H6 & H7 & ->)]. rewrite (proj2 (Hacc c)); [done|]. split; [|done]. split; [done|]. split; [done|]. by exists h, k.
      + intros H. split; [done|]. destruct (parse_access X _ _ (now s) (q_tok q) (q_cert q)) as [c| |] eqn:E; cbn [obind] in H; try done. injection H as <-.
        destruct (proj1 (Hacc c) eq_refl) as ((H1 & H2 & h & k & H3 & H4 & H5) & H6 & H7). by exists c, h, k.
  Qed.
  Lemma keys_of_parse ls s i ks l1 s1 : yrun ls s -> happened ls (YAuth K (ZParse K i ks)) l1 s1 -> ks = keys_now K cf s1.
  Proof. intros Hr Hh. destruct (happened_step K X U parse cf t0 n nk nj nu calls _ _ _ _ _ Hr Hh) as [s2 Hs]. by inversion Hs. Qed.

  Definition same_failure {A} (r : outcome principal) (x : outcome A) : Prop :=
    match r, x with Err e, Err e' => e = e' | Panic, Panic => True | _, _ => False end.
  (** Why call [i] for [q] failed with [r]. *)
  Definition reason (ls : list ylabel) (i : nat) (q : request) (r : outcome principal) : Prop :=
    (z_policy (s_z cf) = true /\ (q_act q = [] \/ q_res q = []) /\ r = Err ErrInvalidParameters) \/
    (exists l1 s1, happened ls (YAuth K (ZParse K i (keys_now K cf s1))) l1 s1 /\ z_tasks (y_auth K s1) !! i = Some (CParse q) /\
       same_failure r (process K X (s_z cf) (keys_now K cf s1) (now s1) q)) \/
    (z_policy (s_z cf) = true /\ exists l1 s1 p, happened ls (YAuth K (ZParse K i (keys_now K cf s1))) l1 s1 /\ z_tasks (y_auth K s1) !! i = Some (CParse q) /\
       valid_token s1 q p /\
       ((exists o, same_failure r (target (s_z cf) o p q)) \/
        exists o a b l2 s2 x, target (s_z cf) o p q = Ok (a, b) /\ happened ls (YAuth K (ZPolicy K i x)) l2 s2 /\
          z_tasks (y_auth K s2) !! i = Some (CCheck q p a b) /\ same_failure r x)).
  Lemma reason_mono ls l i q r : reason ls i q r -> reason (ls ++ [l]) i q r.
  Proof.
    intros [H|[(l1 & s1 & H1 & H2)|(Hp & l1 & s1 & p & H1 & H2 & H3 & H4)]]; [by left| |].
    - right; left. exists l1, s1. split; [by apply happened_mono|done].
    - right; right. split; [done|]. exists l1, s1, p. split; [by apply happened_mono|]. split; [done|]. split; [done|].
      destruct H4 as [H4|(o & a & b & l2 & s2 & x & H5 & H6 & H7)]; [by left|right]. exists o, a, b, l2, s2, x. split; [done|]. split; [by apply happened_mono|done].
  Qed.
  Lemma validated_in ls s i q p tv : yrun ls s -> validated (X:=X) (s_z cf) (zinit n t0) (auths K ls) i q p tv ->
    exists l1 s1, happened ls (YAuth K (ZParse K i (keys_now K cf s1))) l1 s1 /\ z_tasks (y_auth K s1) !! i = Some (CParse q) /\ valid_token s1 q p.
  Proof.
    intros Hr (ks & z1 & Hocc & Htask & <- & Hproc).
    destruct (occurs_happened K X U parse cf t0 n nk nj nu calls _ _ _ _ Hr Hocc) as (l1 & s1 & Hh & <-).
    pose proof (keys_of_parse _ _ _ _ _ _ Hr Hh) as ->. exists l1, s1. split; [done|]. split; [done|]. by apply valid_iff.
  Qed.
  Lemma failed_reason ls s i q r : yrun ls s -> z_tasks (y_auth K s) !! i = Some (CDone q r) -> (forall p, r <> Ok p) -> reason ls i q r.
  Proof.
    intros H. revert q r. induction H as [|ls l s s' H IH Hs]; intros q r Hi Hbad.
    - cbn in Hi. by apply lookup_replicate in Hi as [? _].
    - assert (z_tasks (y_auth K s) !! i = Some (CDone q r) -> reason (ls ++ [l]) i q r) as Hkeep by (intros; apply reason_mono; eauto).
      destruct Hs as [s l z Hz Hok| | | | | | | | | | | |]; try (by apply Hkeep).
      cbn [set_auth y_auth] in Hi. pose proof (run_auth K X U parse cf t0 n nk nj nu calls _ _ H) as Hzr. destruct (machine_inv _ _ _ _ _ Hzr) as (_ & Hinv & _).
      assert (forall j u, z = set_task (y_auth K s) j u -> (j = i -> u = CDone q r -> reason (ls ++ [YAuth K l]) i q r) -> reason (ls ++ [YAuth K l]) i q r) as Hset.
      { intros j u -> Hu. cbn [set_task z_tasks] in Hi. apply list_lookup_insert_Some in Hi as [(-> & Hx & _)|[_ Hi]]; [by apply Hu|by apply Hkeep]. }
      destruct l as [t|j q'|j|j ks|j o|j x|j|k|]; cbn [zstep] in Hz.
      + destruct (z_clock (y_auth K s) <=? t); [|done]. injection Hz as <-. by apply Hkeep.
      + destruct (z_tasks (y_auth K s) !! j) as [[]|] eqn:Ej; try done. injection Hz as <-. eapply Hset; [done|]. intros -> Hu.
        destruct (empty_params (s_z cf) q') eqn:E; [|done]. injection Hu as -> <-. left. unfold empty_params in E. apply andb_true_iff in E as [? E].
        split; [done|]. split; [|done]. apply orb_true_iff in E as [E%bool_decide_eq_true|E%bool_decide_eq_true]; auto.
      + destruct (z_tasks (y_auth K s) !! j) as [[]|] eqn:Ej; try done. injection Hz as <-. eapply Hset; [done|]. intros -> Hu.
        destruct (g_get _ _ _); [|done]. injection Hu as -> <-. by destruct (Hbad p).
      + destruct (z_tasks (y_auth K s) !! j) as [[]|] eqn:Ej; try done. injection Hz as <-. eapply Hset; [done|]. intros -> Hu.
        cbn [auth_ok] in Hok. subst ks. right; left. exists ls, s. split; [by apply happened_last|].
        change (z_clock (y_auth K s)) with (now s) in Hu. destruct (process K X (s_z cf) (keys_now K cf s) (now s) q0) as [p|e|] eqn:E.
        * by destruct (z_policy (s_z cf)).
        * injection Hu as -> <-. split; [done|]. by rewrite E.
        * injection Hu as -> <-. split; [done|]. by rewrite E.
      + destruct (z_tasks (y_auth K s) !! j) as [[]|] eqn:Ej; try done. injection Hz as <-. eapply Hset; [done|]. intros -> Hu.
        destruct (Hinv _ _ Ej) as (_ & _ & Hp & tv & Hval & _). destruct (validated_in _ _ _ _ _ _ H Hval) as (l1 & s1 & H1 & H2 & H3).
        right; right. split; [done|]. exists l1, s1, p. split; [by apply happened_mono|].
        assert (q0 = q) as -> by (destruct (target (s_z cf) o p q0) as [[? ?]|?|]; congruence). split; [done|]. split; [done|]. left. exists o.
        destruct (target (s_z cf) o p q) as [[a b]|e|]; [done|by injection Hu as <-|by injection Hu as <-].
      + destruct (z_tasks (y_auth K s) !! j) as [[]|] eqn:Ej; try done. injection Hz as <-. eapply Hset; [done|]. intros -> Hu.
        destruct (Hinv _ _ Ej) as (_ & _ & Hp & (tv & Hval & _) & o & Ho). destruct (validated_in _ _ _ _ _ _ H Hval) as (l1 & s1 & H1 & H2 & H3).
        right; right. split; [done|]. exists l1, s1, p. split; [by apply happened_mono|].
        assert (q0 = q) as -> by (destruct x; congruence). split; [done|]. split; [done|]. right. exists o, act, res, ls, s, x. split; [done|]. split; [by apply happened_last|]. split; [done|].
        destruct x; [done|by injection Hu as <-|by injection Hu as <-].
      + destruct (z_tasks (y_auth K s) !! j) as [[]|] eqn:Ej; try done. injection Hz as <-. cbn [z_tasks] in Hi.
        apply list_lookup_insert_Some in Hi as [(-> & Hu & _)|[_ Hi]]; [|by apply Hkeep]. injection Hu as -> <-. by destruct (Hbad p).
      + destruct (z_cache (y_auth K s) !! k) as [e|]; [|done]. destruct (g_valid _ e); [done|]. injection Hz as <-. by apply Hkeep.
      + injection Hz as <-. by apply Hkeep.
  Qed.

  (** A call is refused only if action or resource is empty, if the token was not valid by the keys
      held when it was examined, if the translator refused, or if the check did. *)
  Theorem C93_refused_for_a_reason ls s i q e : yrun ls s -> z_tasks (y_auth K s) !! i = Some (CDone q (Err e)) ->
    (z_policy (s_z cf) = true /\ (q_act q = [] \/ q_res q = []) /\ e = ErrInvalidParameters) \/
    (exists l1 s1, happened ls (YAuth K (ZParse K i (keys_now K cf s1))) l1 s1 /\ z_tasks (y_auth K s1) !! i = Some (CParse q) /\ forall p, ~ valid_token s1 q p) \/
    (z_policy (s_z cf) = true /\ exists l1 s1 p, happened ls (YAuth K (ZParse K i (keys_now K cf s1))) l1 s1 /\ z_tasks (y_auth K s1) !! i = Some (CParse q) /\
       valid_token s1 q p /\
       ((exists o, target (s_z cf) o p q = Err e) \/
        exists o a b l2 s2 k, target (s_z cf) o p q = Ok (a, b) /\ happened ls (YAuth K (ZPolicy K i (Err e))) l2 s2 /\
          y_chk K s2 !! i = Some (Some k) /\ returned (k_st k) (Err e) /\
          k_dom k = pr_domain p /\ k_roles k = pr_roles p /\ k_act k = a /\ k_res k = b)).
  Proof.
    intros Hr Hi. destruct (failed_reason _ _ _ _ _ Hr Hi) as [(H1 & H2 & [= ->])|[(l1 & s1 & H1 & H2 & H3)|(Hp & l1 & s1 & p & H1 & H2 & H3 & H4)]]; [done|by left| |].
    - right; left. exists l1, s1. split; [done|]. split; [done|]. intros p Hv. apply valid_iff in Hv. by rewrite Hv in H3.
    - right; right. split; [done|]. exists l1, s1, p. split; [done|]. split; [done|]. split; [done|].
      destruct H4 as [[o Ho]|(o & a & b & l2 & s2 & x & H5 & H6 & H7 & H8)]; [left; exists o; by destruct (target _ o p q) as [| |]; cbn in Ho; subst|right].
      destruct x as [|e'|]; try done. cbn in H8. subst e'.
      destruct (happened_step K X U parse cf t0 n nk nj nu calls _ _ _ _ _ Hr H6) as [s3 Hs].
      inversion Hs as [? ? ? _ Hok| | | | | | | | | | | |]; subst. cbn in Hok. destruct Hok as (k & Hk & Hret).
      destruct H6 as [Hx Hr2]. destruct (checks_ok K X U parse cf t0 n nk nj nu calls _ _ Hr2 _ _ Hk) as [_ (t & Ht2 & Hpc)].
      rewrite H7 in Ht2. injection Ht2 as <-. destruct Hpc as [[]|(q2 & p2 & Heq & Hd & Hro)]. injection Heq as <- <- -> ->.
      exists o, (k_act k), (k_res k), l2, s2, k. by split_and!.
  Qed.

  (** ** Whoever is entitled gets in *)
  Lemma found_published ls s l1 s1 i : yrun ls s -> passed ls l1 s1 -> y_cur K s1 <> 0%nat -> y_chk K s1 !! i = Some None ->
    y_cur K s <> 0%nat /\ forall k, y_chk K s !! i = Some (Some k) -> k_obj k <> 0%nat.
  Proof.
    intros H. revert l1 s1. induction H as [|ls l s s' H IH Hs]; intros l1 s1 [[l2 Heq] H1] Hc Hn.
    - destruct l1; [|done]. assert (s1 = s0) as -> by (eapply yrun_det; [exact H1|apply Y_nil]). split; [done|]. intros k Hk. congruence.
    - destruct l2 as [|y l2 _] using rev_ind.
      + rewrite app_nil_r in Heq. subst l1. assert (s1 = s') as -> by (eapply yrun_det; [exact H1|by eapply Y_snoc]). split; [done|]. intros k Hk. congruence.
      + rewrite app_assoc in Heq. apply app_inj_tail in Heq as [-> ->].
        destruct (IH l1 s1) as [Hcur Hchk]; [split; [by eexists|done]|done|done|].
        destruct Hs; cbn [publish set_auth set_keys set_jwk set_fetch set_upd set_obj set_chk y_cur y_chk y_objs]; try (by split).
        * split; [|done]. pose proof (yrun_objs K X U parse cf t0 n nk nj nu calls [] (l1 ++ l2) s0 s (Y_nil _ _ _ _ _ _) H) as Ho. cbn in Ho. lia.
        * split; [done|]. intros k Hk. apply list_lookup_insert_Some in Hk as [(_ & [= <-] & _)|[_ Hk]]; [done|by apply Hchk].
        * split; [done|]. intros k' Hk. apply list_lookup_insert_Some in Hk as [(-> & [= <-] & _)|[_ Hk]]; [cbn; by apply Hchk|by apply Hchk].
  Qed.

  (** Call [i] asked its policy check in state [s2], and the check went by the documents of Update
      [m]. *)
  Definition consulted (ls : list ylabel) (i m : nat) (l2 : list ylabel) (s2 : sys K) : Prop :=
    exists x k, happened ls (YAuth K (ZPolicy K i x)) l2 s2 /\ y_chk K s2 !! i = Some (Some k) /\ published_by l2 m (k_obj k).
  (** Call [i] for [q] is entitled: action and resource are not empty, the token is valid when it is
      examined, the translator knows the path, an Update had succeeded when the call was made, and
      the documents the check goes by, not expired, allow one role of the token and deny none. *)
  Definition entitled (ls : list ylabel) (i : nat) (q : request) : Prop :=
    (z_policy (s_z cf) = true -> q_act q <> [] /\ q_res q <> []) /\
    (forall l1 s1, happened ls (YAuth K (ZParse K i (keys_now K cf s1))) l1 s1 -> z_tasks (y_auth K s1) !! i = Some (CParse q) ->
       exists p, valid_token s1 q p) /\
    (z_policy (s_z cf) = true ->
       (forall o l1 s1 p, happened ls (YAuth K (ZParse K i (keys_now K cf s1))) l1 s1 -> valid_token s1 q p -> exists a b, target (s_z cf) o p q = Ok (a, b)) /\
       (exists l1 s1, passed ls l1 s1 /\ y_cur K s1 <> 0%nat /\ z_tasks (y_auth K s1) !! i = Some Authorizer.CIdle) /\
       (forall l2 s2 m p a b, consulted ls i m l2 s2 -> z_tasks (y_auth K s2) !! i = Some (CCheck q p a b) ->
          tame l2 (now s2) m /\ (exists role, role ∈ pr_roles p /\ allowed_by l2 m (pr_domain p) a b role) /\
          forall role, role ∈ pr_roles p -> ~ denied_by l2 m (pr_domain p) a b role)).

  Lemma chk_slots ls s : yrun ls s -> length (y_chk K s) = length (z_tasks (y_auth K s)).
  Proof.
    induction 1 as [|ls l s s' H IH Hs]; [by cbn; rewrite !replicate_length|].
    destruct Hs as [s l z Hz Hok| | | | | | | | | | | |]; cbn [publish set_auth set_keys set_jwk set_fetch set_upd set_obj set_chk y_chk y_auth]; rewrite ?insert_length; try done.
    rewrite IH. clear - Hz. destruct l; cbn [zstep] in Hz; repeat case_match; try done; injection Hz as <-; cbn [set_task z_tasks]; by rewrite ?insert_length.
  Qed.

  (** An entitled call is accepted: it is never refused and does not panic. *)
  Theorem C93_entitled_is_accepted ls s i q r : yrun ls s -> 0 < t0 -> check_untouched K X U parse cf s0 ls i -> YChk K i EnvCancel ∉ ls ->
    entitled ls i q -> z_tasks (y_auth K s) !! i = Some (CDone q r) -> exists p, r = Ok p.
  Proof.
    intros Hr Ht0 Hh Hnc (Hne & Hval & Hpol) Hi.
    assert ((exists p, r = Ok p) \/ forall p, r <> Ok p) as [?|Hbad] by (destruct r; [left; by eexists|by right..]); [done|exfalso].
    destruct (failed_reason _ _ _ _ _ Hr Hi Hbad) as [(Hp & [H|H] & _)|[(l1 & s1 & H1 & H2 & H3)|(Hp & l1 & s1 & p & H1 & H2 & H3 & H4)]].
    - by destruct (Hne Hp).
    - by destruct (Hne Hp).
    - destruct (Hval _ _ H1 H2) as [p Hv]. apply valid_iff in Hv. rewrite Hv in H3. by destruct r.
    - destruct (Hpol Hp) as (Htr & (l0 & s00 & Hps & Hcur & Hidle) & Hent).
      destruct H4 as [[o Ho]|(o & a & b & l2 & s2 & x & H5 & H6 & H7 & H8)].
      { destruct (Htr o _ _ _ H1 H3) as (a & b & E). rewrite E in Ho. by destruct r. }
      destruct (happened_step K X U parse cf t0 n nk nj nu calls _ _ _ _ _ Hr H6) as [s3 Hs].
      inversion Hs as [? ? ? _ Hok| | | | | | | | | | | |]; subst. cbn in Hok. destruct Hok as (k & Hk & Hret).
      pose proof H6 as [[y Heq] Hr2]. destruct (checks_ok K X U parse cf t0 n nk nj nu calls _ _ Hr2 _ _ Hk) as [(c0 & kls & _ & Hvw) (t & Ht2 & Hpc)].
      rewrite H7 in Ht2. injection Ht2 as <-. destruct Hpc as [[]|(q2 & p2 & Hq & Hd & Hro)]. injection Hq as <- <- -> ->.
      assert (YChk K i EnvCancel ∉ l2) as Hnc2 by (rewrite Heq, elem_of_app in Hnc; tauto).
      pose proof (Hh _ _ _ _ H6 Hk) as Hh2.
      assert (passed l2 l0 s00) as Hps2.
      { destruct Hps as [[l3 Hl3] Hr0]. split; [|done]. rewrite Heq in Hl3.
        apply app_eq_inv in Hl3 as [(zs & -> & Hz)|(zs & -> & Hz)]; [by eexists|].
        destruct zs as [|z1 zs]; [exists []; by rewrite !app_nil_r|exfalso]. injection Hz as <- ->.
        assert (forall lb sb, yrun lb sb -> forall la sa, passed lb la sa -> z_tasks (y_auth K sb) !! i = Some Authorizer.CIdle -> z_tasks (y_auth K sa) !! i = Some Authorizer.CIdle) as Hback.
        { clear. induction 1 as [|lb l sb sb' H IH Hs]; intros la sa [[l2 He] Ha] Hb.
          - destruct la; [|done]. by rewrite (yrun_det _ _ _ _ _ _ _ _ _ Ha (Y_nil _ _ _ _ _ _)).
          - destruct l2 as [|y l2 _] using rev_ind.
            + rewrite app_nil_r in He. subst la. by rewrite (yrun_det _ _ _ _ _ _ _ _ _ Ha (Y_snoc _ _ _ _ _ _ _ _ _ _ H Hs)).
            + rewrite app_assoc in He. apply app_inj_tail in He as [-> ->]. apply (IH la); [split; [by eexists|done]|]. clear IH.
              destruct Hs as [sb l z Hz Hok| | | | | | | | | | | |]; try done. cbn [set_auth y_auth] in Hb.
              destruct l; cbn [zstep] in Hz; repeat case_match; try done; injection Hz as <-; cbn [set_task z_tasks] in Hb; try done;
                apply list_lookup_insert_Some in Hb as [(-> & Hb & _)|[_ Hb]]; try done. }
        assert (z_tasks (y_auth K s2) !! i = Some Authorizer.CIdle) as Hx; [|congruence].
        eapply (Hback _ _ Hr0); [|done]. split; [by eexists|done]. }
      assert (y_chk K s00 !! i = Some None) as Hnone.
      { destruct Hps2 as [_ Hr0]. destruct (y_chk K s00 !! i) as [[k0|]|] eqn:E; [exfalso|done|exfalso].
        - destruct (checks_ok K X U parse cf t0 n nk nj nu calls _ _ Hr0 _ _ E) as [_ (t & Ht2 & Hpc)]. rewrite Hidle in Ht2. injection Ht2 as <-.
          by destruct Hpc as [[]|(? & ? & ? & _)].
        - apply lookup_ge_None in E. rewrite (chk_slots _ _ Hr0) in E. apply lookup_lt_Some in Hidle. lia. }
      destruct (found_published _ _ _ _ _ Hr2 Hps2 Hcur Hnone) as [_ Hobj]. specialize (Hobj _ Hk).
      assert (is_Some (y_objs K s2 !! k_obj k)) as [c Hc].
      { destruct (Hvw c0 ltac:(by left)) as (l3 & s4 & obj & [[l4 ->] Hr4] & Ho4 & _). apply lookup_lt_Some in Ho4.
        pose proof (yrun_objs K X U parse cf t0 n nk nj nu calls _ _ _ _ Hr4 Hr2). apply lookup_lt_is_Some. lia. }
      destruct (object_origin K X U parse cf t0 n nk nj nu calls _ _ _ _ Hr2 Hh2 Hc) as [[? _]|[m Hm]]; [done|].
      destruct (Hent l2 s2 m p (k_act k) (k_res k)) as (Htame & (role & Hrl & Hal) & Hnd); [exists x, k; done|done|].
      pose proof (C93_verdict_of_the_documents _ _ _ _ _ _ Hr2 Ht0 Hh2 Hnc2 Hk Hret Hm Htame) as Hv. cbv zeta in Hv. rewrite <- Hd, <- Hro in Hv.
      destruct x as [acc|e|]; [by destruct r| |done]. destruct Hv as [(_ & role' & Hr' & Hden)|[_ Hno]].
      + by destruct (Hnd role').
      + by destruct (Hno role Hrl).
  Qed.
End claims.

Section methods.
  Context (K : crypto) (X : jwt_ext) {O : Type} (U : unicode) (parse : str -> option (verifier K)).
  Context (cf : @vconf O) (t0 : time) (n nk nj nu m : nat) (calls : nat -> list bool).
  Notation y0 := (yinit K (v_sys cf) t0 n nk nj nu calls).
  Notation arun := (arun K X U parse cf (ainit K y0 m)).
  Notation entitled := (entitled K X U parse (v_sys cf) t0 n nk nj nu calls).

  (** A method is never refused as long as one credential handed to it is entitled. *)
  Theorem C93_method_not_refused ls s a c q e : arun ls s -> 0 < t0 -> (forall i, check_untouched K X U parse (v_sys cf) y0 (ApiFacts.sys_steps K ls) i) ->
    (forall i, YChk K i EnvCancel ∉ ApiFacts.sys_steps K ls) -> Prop_Api.about_tokens c -> Prop_Api.credential cf c q ->
    (forall i r, z_tasks (y_auth K (a_sys K s)) !! i = Some (CDone q r) -> entitled (ApiFacts.sys_steps K ls) i q) -> a_tasks K s !! a <> Some (ARet c (Err e)).
  Proof.
    intros Hr Ht0 Hh Hnc Hc Hq Hent Ha.
    destruct (Prop_Api.C92_rejected_by_authorize _ _ _ _ _ _ _ _ _ _ _ _ _ _ _ _ _ Hr Ha Hc q Hq) as (i & e' & Hi & _).
    pose proof (Prop_Api.C92_methods_are_authorize_calls _ _ _ _ _ _ _ _ _ _ _ _ _ _ Hr) as Hy.
    by destruct (C93_entitled_is_accepted _ _ _ _ _ _ _ _ _ _ _ _ _ _ _ _ Hy Ht0 (Hh i) (Hnc i) (Hent _ _ Hi) Hi) as [p ?].
  Qed.
End methods.

Section hooks.
  Context (K : crypto) (X : jwt_ext) {O : Type} (U : unicode) (parse : str -> option (verifier K)).
  Context (cf : @sconf O) (doms : list str) (t0 : time) (n nk nj nu : nat) (calls : nat -> list bool).
  Notation s0 := (yinit K cf t0 n nk nj nu calls).
  Notation hrun := (hrun K X U parse cf doms (hinit K s0)).
  (** The same in the system with the expired hook, if each cache is replaced before its policies
      expire. *)
  Theorem C93_entitled_if_replaced ls s i q r : hrun ls s -> 0 < t0 ->
    Prop_Expiry.replaced K X U parse cf doms t0 n nk nj nu calls ls (now K (h_sys K s)) -> YChk K i EnvCancel ∉ hsys K ls ->
    entitled K X U parse cf t0 n nk nj nu calls (hsys K ls) i q -> z_tasks (y_auth K (h_sys K s)) !! i = Some (CDone q r) -> exists p, r = Ok p.
  Proof.
    intros Hr Ht0 Hrep Hnc Hent Hi. pose proof (Prop_Expiry.C90_is_the_system _ _ _ _ _ _ _ _ _ _ _ _ _ _ Hr) as Hy.
    destruct (Prop_Expiry.C90_no_hook_if_replaced _ _ _ _ _ _ _ _ _ _ _ _ _ _ Hr Ht0 Hrep) as (_ & Hh & _).
    apply (unhooked_checks K X U parse cf t0 n nk nj nu calls _ i) in Hh. by eapply (C93_entitled_is_accepted K X U parse cf t0 n nk nj nu calls).
  Qed.
End hooks.

(** ** A complete execution: the one of C71, in which the call is entitled *)
From Verif Require Prop_PubKey Prop_Fetcher Prop_Authorizer.
From Verif Require Import SystemExec PolicyCheckers.
From Verif Require Import GoStrings.
Section example.
  Import Prop_PubKey Prop_Fetcher Prop_Authorizer.
  Notation drive1 cs := (drive K1 X0 U0 parse1 scf cs [] sinit1).
  Notation entitled1 := (entitled K1 X0 U0 parse1 scf t0 2 2 0 1 (fun _ => [false])).
  (** The states in which call 0 examined its token, and whether it was valid; whether call 0 asked
      its check, or a check was cancelled; whether a cache had been published while call 0 was to come. *)
  Definition examined (tr : list (@ylabel K1 unit * sys K1)) : bool :=
    forallb (fun '(l, s) => match l with
      | YAuth _ (ZParse _ i ks) => match process K1 X0 (s_z scf) (keys_now K1 scf s) (now K1 s) (rq (B "/a") []) with Ok _ => true | _ => false end
      | YAuth _ (ZPolicy _ _ _) => false
      | YChk _ _ EnvCancel => false
      | YUpd _ m UFinish => bool_decide (m = 0%nat)
      | _ => true end) tr.
  Definition ready (s : sys K1) : bool := match z_tasks (y_auth K1 s) !! 0%nat with Some Authorizer.CIdle => negb (bool_decide (y_cur K1 s = 0%nat)) | _ => false end.
  Definition asked (s : sys K1) : option request := match z_tasks (y_auth K1 s) !! 0%nat with Some (CCheck q _ _ _) => Some q | _ => None end.
  Lemma drive_more cs cs' tr s : drive K1 X0 U0 parse1 scf (cs ++ cs') tr s =
    match drive K1 X0 U0 parse1 scf cs tr s with Some (tr', s') => drive K1 X0 U0 parse1 scf cs' tr' s' | None => None end.
  Proof. revert tr s. induction cs as [|c cs IH]; intros tr s; cbn [app drive]; [done|]. destruct (yexec _ _ _ _ _ c s) as [[l s']|]; [apply IH|done]. Qed.
  Lemma drive_longer cs tr s tr' s' : drive K1 X0 U0 parse1 scf cs tr s = Some (tr', s') -> exists x, tr' = x ++ tr.
  Proof.
    revert tr s. induction cs as [|c cs IH]; intros tr s; cbn [drive]; [intros [= <- _]; by exists []|]. destruct (yexec _ _ _ _ _ c s) as [[l s1]|]; [|done].
    intros H. destruct (IH _ _ H) as [x ->]. exists (x ++ [(l, s)]). by rewrite <- app_assoc.
  Qed.
  Definition cmds0 : list (@cmd unit) := take (length cmds1 - length (call_cmds 0 (rq (B "/a") []))) cmds1.

  Example C93_nonvacuous : exists ls s q p, System.yrun K1 X0 U0 parse1 scf sinit1 ls s /\ 0 < t0 /\ check_untouched K1 X0 U0 parse1 scf sinit1 ls 0 /\
    YChk K1 0 EnvCancel ∉ ls /\ z_policy (s_z scf) = true /\ entitled1 ls 0 q /\ z_tasks (y_auth K1 s) !! 0%nat = Some (CDone q (Ok p)) /\ pr_auth p = [B "r1"].
  Proof.
    assert (option_map (fun '(tr, s) => ready s) (drive1 cmds0) = Some true) as Ho0 by (vm_compute; reflexivity).
    assert (option_map (fun '(tr, s) => (checking s, verdict s, now K1 s, takes K1 tr, hooks K1 tr, examined tr)) (drive1 (cmds0 ++ call_cmds 0 (rq (B "/a") []))) =
      Some (Some ([B "r1"; B "r2"], B "get", B "/p/a"), Some [B "r1"], 70 * second,
            [(0%nat, 0%nat, 200 * second, docA, 60 * second); (0%nat, 1%nat, 300 * second, docB, 50 * second)], false, true)) as Ho by (vm_compute; reflexivity).
    assert (option_map (fun '(tr, s) => asked s) (drive1 (cmds0 ++ call_cmds 0 (rq (B "/a") []))) = Some (Some (rq (B "/a") []))) as Hq by (vm_compute; reflexivity).
    rewrite drive_more in Ho, Hq. destruct (drive1 cmds0) as [[tr0 s00]|] eqn:E0; [|discriminate]. injection Ho0 as Hready.
    destruct (drive K1 X0 U0 parse1 scf (call_cmds 0 (rq (B "/a") [])) tr0 s00) as [[tr s]|] eqn:E; [|discriminate].
    destruct (drive_longer _ _ _ _ _ E) as [x Hx]. apply drive_run in E0 as Ht0. pose proof (drive_traced _ _ _ _ _ _ _ _ _ _ _ E Ht0) as Ht.
    clear E E0. destruct Ht0 as [Hr0 _]. cbn [option_map] in Ho, Hq. injection Ho as Hc Hv Hn Htk Hh Hex. injection Hq as Hq.
    pose proof Ht as [Hr Hin]. apply hooks_none in Hh.
    unfold checking in Hc. destruct (z_tasks (y_auth K1 s) !! 0%nat) as [[| | | |q p a r| |]|] eqn:Ez; try discriminate. injection Hc as Hroles Ha Hrr.
    unfold asked in Hq. rewrite Ez in Hq. injection Hq as ->.
    unfold verdict in Hv. destruct (y_chk K1 s !! 0%nat) as [[k|]|] eqn:Ek; try discriminate. destruct (s_main (k_st k)) as [| |[acc| |]] eqn:Em; try discriminate. injection Hv as ->.
    set (ls := rev tr.*1) in *. set (lp := YAuth K1 (O:=unit) (ZPolicy K1 0 (Ok [B "r1"]))). set (lst := YAuth K1 (O:=unit) (ZStore K1 0)).
    pose (z1 := set_task (y_auth K1 s) 0 (CStore (rq (B "/a") []) (with_auth p [B "r1"]))).
    assert (zstep K1 X0 (s_z scf) (ZPolicy K1 0 (Ok [B "r1"])) (y_auth K1 s) = Some z1) as Hz1 by (cbn [zstep]; by rewrite Ez).
    assert (z_tasks z1 !! 0%nat = Some (CStore (rq (B "/a") []) (with_auth p [B "r1"]))) as Ez1.
    { unfold z1. cbn [set_task z_tasks]. rewrite list_lookup_insert; [done|by eapply lookup_lt_Some]. }
    assert (System.yrun K1 X0 U0 parse1 scf sinit1 (ls ++ [lp]) (set_auth K1 z1 s)) as Hr1.
    { apply (Y_snoc _ _ _ _ _ _ _ _ _ _ Hr). apply S_auth; [done|]. by exists k. }
    assert (exists z2, zstep K1 X0 (s_z scf) (ZStore K1 0) z1 = Some z2 /\ z_tasks z2 !! 0%nat = Some (CDone (rq (B "/a") []) (Ok (with_auth p [B "r1"])))) as (z2 & Hz2 & Ez2).
    { cbn [zstep]. rewrite Ez1. eexists. split; [done|]. cbn [z_tasks]. rewrite list_lookup_insert; [done|by eapply lookup_lt_Some]. }
    assert (System.yrun K1 X0 U0 parse1 scf sinit1 ((ls ++ [lp]) ++ [lst]) (set_auth K1 z2 (set_auth K1 z1 s))) as Hr2.
    { apply (Y_snoc _ _ _ _ _ _ _ _ _ _ Hr1). by apply S_auth. }
    assert (forall l l1 s1, happened K1 X0 U0 parse1 scf sinit1 ((ls ++ [lp]) ++ [lst]) l l1 s1 -> (l, s1) ∈ tr \/ (l = lp /\ l1 = ls /\ s1 = s) \/ l = lst) as Hall.
    { intros l l1 s1 Hl. destruct (happened_snoc K1 X0 U0 parse1 scf sinit1 _ _ _ _ _ _ Hr1 Hl) as [Hl'|(-> & _)]; [|tauto].
      destruct (happened_snoc K1 X0 U0 parse1 scf sinit1 _ _ _ _ _ _ Hr Hl') as [Hl2|(-> & -> & ->)]; [left; by eapply Hin|tauto]. }
    unfold examined in Hex. rewrite forallb_forall in Hex.
    assert (YHook K1 ∉ (ls ++ [lp]) ++ [lst]) as Hh2 by (rewrite !elem_of_app, !elem_of_list_singleton; intros [[?|?]|?]; done).
    assert (YChk K1 0 EnvCancel ∉ ls) as Hnc.
    { intros Hy. unfold ls in Hy. rewrite elem_of_list_In, <- in_rev in Hy. apply in_map_iff in Hy as ([l s1] & Hl & Hy). cbn in Hl. subst l. by specialize (Hex _ Hy). }
    exists ((ls ++ [lp]) ++ [lst]), (set_auth K1 z2 (set_auth K1 z1 s)), (rq (B "/a") []), (with_auth p [B "r1"]).
    split; [done|]. split; [done|]. split; [by apply (unhooked_checks K1 X0 U0 parse1 scf t0 2 2 0 1 (fun _ => [false]))|]. split.
    { rewrite !elem_of_app, !elem_of_list_singleton. intros [[?|?]|?]; done. }
    split; [done|]. split; [|done]. split; [done|]. split.
    { intros l1 s1 Hp _. destruct (Hall _ _ _ Hp) as [Hp'|[[? _]|?]]; [|done..]. apply elem_of_list_In, Hex in Hp'. 
      destruct (process K1 X0 (s_z scf) (keys_now K1 scf s1) (now K1 s1) (rq (B "/a") [])) as [p1| |] eqn:Ep; [|done..]. exists p1. apply (proj2 (valid_iff K1 X0 parse1 scf 0 0 (fun _ => []) s1 (rq (B "/a") []) p1)); exact Ep. }
    intros _. split; [intros; by do 2 eexists|]. split.
    { exists (rev tr0.*1), s00. unfold ready in Hready. destruct (z_tasks (y_auth K1 s00) !! 0%nat) as [[]|] eqn:E00; try discriminate. apply negb_true_iff, bool_decide_eq_false in Hready.
      split; [|done]. split; [|done]. unfold ls. rewrite Hx, fmap_app, rev_app_distr, <- !app_assoc. by eexists. }
    intros l2 s2 m p' a' b' (xx & k' & Hp & Hk' & Hpub) Htask. destruct (Hall _ _ _ Hp) as [Hp'|[(_ & -> & ->)|?]]; [|clear Hp|done].
    { apply elem_of_list_In, Hex in Hp'. done. }
    assert (k' = k) as -> by congruence. rewrite Ez in Htask. injection Htask as <- <- <-.
    assert (m = 0)%nat as ->.
    { destruct Hpub as (l3 & s3 & s4 & [[l4 Hl4] _] & _). assert (YUpd K1 m UFinish ∈ ls) as Hy by (rewrite Hl4; apply elem_of_app; right; left).
      unfold ls in Hy. rewrite elem_of_list_In, <- in_rev in Hy. apply in_map_iff in Hy as ([l s1] & Hl & Hy). cbn in Hl. subst l. specialize (Hex _ Hy). by apply bool_decide_eq_true in Hex. }
    assert (tame K1 X0 U0 parse1 scf t0 2 2 0 1 (fun _ => [false]) ls (now K1 s) 0) as Htame.
    { rewrite Hn. clear - Ht Htk. split.
      - intros w exp doc u Hk. apply (took_in _ _ _ _ _ _ _ _ _ _ _ _ _ Ht) in Hk. rewrite Htk, !elem_of_cons, elem_of_nil in Hk.
        destruct Hk as [[= -> -> -> ->]|[[= -> -> -> ->]|[]]]; (split; [by apply no_commasb_spec|]); (split; [by apply no_conflictb_spec|right]); split; vm_compute; done.
      - intros w w' exp exp' doc doc' u u' pol pol' r r' Hk Hk' Hp Hr Hp' Hr' He.
        apply (took_in _ _ _ _ _ _ _ _ _ _ _ _ _ Ht) in Hk, Hk'. rewrite Htk, !elem_of_cons, elem_of_nil in Hk, Hk'.
        pose proof (elem_of_roles _ _ _ Hp Hr) as H1. pose proof (elem_of_roles _ _ _ Hp' Hr') as H2. rewrite He in H1.
        assert (Forall (fun x => x ∉ roles_of docB) (roles_of docA)) as Hd by (refine (bool_decide_unpack _ _); vm_compute; exact I).
        rewrite Forall_forall in Hd.
        destruct Hk as [[= -> -> -> ->]|[[= -> -> -> ->]|[]]], Hk' as [[= -> -> -> ->]|[[= -> -> -> ->]|[]]]; try reflexivity; exfalso;
          [exact (Hd _ H1 H2)|exact (Hd _ H2 H1)]. }
    split; [done|]. destruct (checks_ok K1 X0 U0 parse1 scf t0 2 2 0 1 (fun _ => [false]) _ _ Hr _ _ Ek) as [_ (t & Ht2 & Hpc)].
    rewrite Ez in Ht2. injection Ht2 as <-. destruct Hpc as [[]|(q2 & p2 & Heq & Hd & Hro)]. injection Heq as _ <- -> ->.
    destruct (C93_verdict_of_the_documents K1 X0 U0 parse1 scf t0 2 2 0 1 (fun _ => [false]) _ _ _ _ _ _ Hr ltac:(done) (unhooked K1 X0 U0 parse1 scf t0 2 2 0 1 (fun _ => [false]) _ _ Hh) Hnc Ek Em Hpub Htame) as (Hnd & Hacc & _).
    rewrite Hd, Hro. split; [|done]. exists (B "r1"). apply Hacc. left.
  Qed.
End example.
Print Assumptions C93_verdict_of_the_documents.
Print Assumptions C93_refused_for_a_reason.
Print Assumptions C93_entitled_is_accepted.
Print Assumptions C93_method_not_refused.
Print Assumptions C93_entitled_if_replaced.
