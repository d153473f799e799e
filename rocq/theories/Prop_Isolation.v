(** * Property C102: calls with different cache keys do not influence each other *)
From Verif Require Import Hooked SystemFacts SystemExec PolicyCheckers Prop_System Prop_Window Prop_Expiry Prop_Crash GoStringsFacts.
From Verif Require Prop_PubKey Prop_Fetcher Prop_Role Prop_Access Prop_Authorizer PubKeyFacts.
From Verif Require Import GoStrings.

Section claims.
  Context (K : crypto) (X : jwt_ext) {O : Type} (U : unicode) (parse : str -> option (verifier K)).
  Context (cf : @sconf O) (doms : list str) (t0 : time) (n nk nj nu : nat) (calls : nat -> list bool).
  Notation s0 := (yinit K cf t0 n nk nj nu calls).
  Notation hrun := (hrun K X U parse cf doms (hinit K s0)).
  Notation hstep := (hstep K X U parse cf doms).
  Notation yrun := (yrun K X U parse cf s0).
  Notation ystep := (ystep K X U parse cf).
  Notation hlabel := (@hlabel K O).
  Notation ylabel := (@ylabel K O).
  Notation zlabel := (@zlabel K O).
  Notation hsys := (hsys K).
  Notation ckey := (cache_key (s_z cf)).

  (** ** Specification *)
  (** Calls [i] with [keep i = true] are looked at, the others are taken away; [P]: the cache keys of the former. *)
  Section erase.
    Context (keep : nat -> bool) (P : str -> bool).
    (** A step is kept unless it is one of a call taken away, or the removal of an expired result under a key of one. *)
    Definition zmine (l : zlabel) : bool :=
      match l with
      | ZCall _ i _ | ZLook _ i | ZParse _ i _ | ZTrans _ i _ | ZPolicy _ i _ | ZStore _ i => keep i
      | ZPurge _ k => P k
      | ZTick _ _ | ZClear _ => true
      end.
    Definition mine (l : ylabel) : bool :=
      match l with
      | YAuth _ l => zmine l
      | YLoad _ i | YChk _ i _ => keep i
      | _ => true
      end.
    Definition hmine (l : hlabel) : bool := match l with HSys _ l => mine l | _ => true end.
    (** What is kept goes by the cache key. *)
    Definition by_key (ls : list ylabel) : Prop := forall i q, YAuth K (ZCall K i q) ∈ ls -> keep i = P (ckey q).
    (** The two states agree on the kept calls, their results in the cache, and on everything that is not a call. *)
    Definition zsees (z z' : zst) : Prop :=
      z_clock z = z_clock z' /\ (forall k, P k = true -> z_cache z !! k = z_cache z' !! k) /\
      (forall i, keep i = true -> z_tasks z !! i = z_tasks z' !! i).
    Definition sees (s s' : sys K) : Prop :=
      zsees (y_auth K s) (y_auth K s') /\ (forall i, keep i = true -> y_chk K s !! i = y_chk K s' !! i) /\
      y_keys K s = y_keys K s' /\ y_jwk K s = y_jwk K s' /\ y_fetch K s = y_fetch K s' /\ y_upd K s = y_upd K s' /\
      y_objs K s = y_objs K s' /\ y_cur K s = y_cur K s'.
    Definition hsees (h h' : hst K) : Prop :=
      sees (h_sys K h) (h_sys K h') /\ h_exp K h = h_exp K h' /\ h_pend K h = h_pend K h' /\ h_jobs K h = h_jobs K h' /\ h_down K h = h_down K h'.

    (** ** Facts *)
    Definition inv (z : zst) : Prop := forall i t, z_tasks z !! i = Some t ->
      match t with Authorizer.CIdle => True | CLook q | CParse q | CTrans q _ | CCheck q _ _ _ | CStore q _ | CDone q _ => keep i = P (ckey q) end.
    Lemma sees_refl s : sees s s.
    Proof. unfold sees, zsees. by split_and!. Qed.
    Lemma sees_sym s s' : sees s s' -> sees s' s.
    Proof.
      intros ((H1 & H2 & H3) & H4 & H5 & H6 & H7 & H8 & H9 & H10). unfold sees, zsees.
      split_and!; try (symmetry; assumption); intros; symmetry; [by apply H2|by apply H3|by apply H4].
    Qed.
    Lemma sees_trans s s' s'' : sees s s' -> sees s' s'' -> sees s s''.
    Proof.
      intros ((H1 & H2 & H3) & H4 & H5 & H6 & H7 & H8 & H9 & H10) ((G1 & G2 & G3) & G4 & G5 & G6 & G7 & G8 & G9 & G10). unfold sees, zsees.
      split_and!; try congruence; intros; [rewrite H2 by done; by apply G2|rewrite H3 by done; by apply G3|rewrite H4 by done; by apply G4].
    Qed.
    Lemma insert_agree {A} (l l' : list A) i x y : l !! i = Some y -> l' !! i = Some y -> (forall j, keep j = true -> l !! j = l' !! j) ->
      forall j, keep j = true -> <[i := x]> l !! j = <[i := x]> l' !! j.
    Proof.
      intros Hi Hi' H j Hj. destruct (decide (i = j)) as [<-|Hne]; [|rewrite !list_lookup_insert_ne by done; by apply H].
      rewrite !list_lookup_insert; [done|by eapply lookup_lt_Some..].
    Qed.
    Lemma zstep_mine l z z' t : zsees z z' -> inv z -> zmine l = true -> (forall i q, l = ZCall K i q -> keep i = P (ckey q)) ->
      zstep K X (s_z cf) l z = Some t -> exists t', zstep K X (s_z cf) l z' = Some t' /\ zsees t t'.
    Proof.
      intros (Hc & Hg & Ht) Hi Hm Hq. destruct l as [tt|i q|i|i ks|i o|i r|i|kk|]; cbn [zmine] in Hm; cbn [zstep].
      - rewrite <- Hc. destruct (_ <=? _); [|done]. intros [= <-]. eexists. split; [done|]. by split_and!.
      - rewrite <- (Ht _ Hm). destruct (z_tasks z !! i) as [[| | | | | |]|] eqn:E; try done. intros [= <-]. eexists. split; [done|].
        split_and!; [done|done|]. cbn. eapply insert_agree; [exact E|by rewrite <- (Ht _ Hm)|done].
      - rewrite <- (Ht _ Hm). destruct (z_tasks z !! i) as [[|q| | | | |]|] eqn:E; try done. pose proof (Hi _ _ E) as Hk. cbn in Hk. rewrite Hm in Hk. symmetry in Hk.
        unfold g_get. rewrite <- Hc, <- (Hg _ Hk). intros [= <-]. eexists. split; [done|].
        split_and!; [done|done|]. cbn. eapply insert_agree; [exact E|by rewrite <- (Ht _ Hm)|done].
      - rewrite <- (Ht _ Hm), <- Hc. destruct (z_tasks z !! i) as [[| |q| | | |]|] eqn:E; try done. intros [= <-]. eexists. split; [done|].
        split_and!; [done|done|]. cbn. eapply insert_agree; [exact E|by rewrite <- (Ht _ Hm)|done].
      - rewrite <- (Ht _ Hm). destruct (z_tasks z !! i) as [[| | |q p| | |]|] eqn:E; try done. intros [= <-]. eexists. split; [done|].
        split_and!; [done|done|]. cbn. eapply insert_agree; [exact E|by rewrite <- (Ht _ Hm)|done].
      - rewrite <- (Ht _ Hm). destruct (z_tasks z !! i) as [[| | | |q p a rs| |]|] eqn:E; try done. intros [= <-]. eexists. split; [done|].
        split_and!; [done|done|]. cbn. eapply insert_agree; [exact E|by rewrite <- (Ht _ Hm)|done].
      - rewrite <- (Ht _ Hm), <- Hc. destruct (z_tasks z !! i) as [[| | | | |q p|]|] eqn:E; try done. intros [= <-]. eexists. split; [done|].
        split_and!; [done| |cbn; eapply insert_agree; [exact E|by rewrite <- (Ht _ Hm)|done]]. cbn. intros k Hk. unfold g_set.
        destruct (decide (ckey q = k)) as [->|Hne]; [by rewrite !lookup_insert|]. rewrite !lookup_insert_ne by done. by apply Hg.
      - rewrite <- (Hg _ Hm), <- Hc. destruct (z_cache z !! kk) as [e|]; [|done]. destruct (g_valid _ e); [done|]. intros [= <-]. eexists. split; [done|].
        split_and!; [done| |done]. cbn. intros k Hk. destruct (decide (kk = k)) as [->|Hne]; [by rewrite !lookup_delete|]. rewrite !lookup_delete_ne by done. by apply Hg.
      - intros [= <-]. eexists. split; [done|]. by split_and!.
    Qed.
    Lemma zstep_other l z t : inv z -> zmine l = false -> zstep K X (s_z cf) l z = Some t -> zsees z t.
    Proof.
      assert (forall i x j, keep i = false -> keep j = true -> z_tasks z !! j = <[i := x]> (z_tasks z) !! j) as Hset.
      { intros i x j Hi Hj. rewrite list_lookup_insert_ne; [done|]. intros ->. congruence. }
      intros Hi Hm. destruct l as [tt|i q|i|i ks|i o|i r|i|kk|]; cbn [zmine] in Hm; cbn [zstep]; try done.
      - destruct (z_tasks z !! i) as [[| | | | | |]|] eqn:E; try done. intros [= <-]. split_and!; [done|done|]. intros j Hj. by apply Hset.
      - destruct (z_tasks z !! i) as [[|q| | | | |]|] eqn:E; try done. intros [= <-]. split_and!; [done|done|]. intros j Hj. by apply Hset.
      - destruct (z_tasks z !! i) as [[| |q| | | |]|] eqn:E; try done. intros [= <-]. split_and!; [done|done|]. intros j Hj. by apply Hset.
      - destruct (z_tasks z !! i) as [[| | |q p| | |]|] eqn:E; try done. intros [= <-]. split_and!; [done|done|]. intros j Hj. by apply Hset.
      - destruct (z_tasks z !! i) as [[| | | |q p a rs| |]|] eqn:E; try done. intros [= <-]. split_and!; [done|done|]. intros j Hj. by apply Hset.
      - destruct (z_tasks z !! i) as [[| | | | |q p|]|] eqn:E; try done. intros [= <-]. pose proof (Hi _ _ E) as Hk. cbn in Hk. rewrite Hm in Hk.
        split_and!; [done| |intros j Hj; by apply Hset]. cbn. intros k HP. unfold g_set. rewrite lookup_insert_ne; [done|]. intros <-. congruence.
      - destruct (z_cache z !! kk) as [e|]; [|done]. destruct (g_valid _ e); [done|]. intros [= <-].
        split_and!; [done| |done]. cbn. intros k HP. rewrite lookup_delete_ne; [done|]. intros ->. congruence.
    Qed.
    Lemma ystep_mine l s s' t : sees s s' -> inv (y_auth K s) -> mine l = true -> (forall i q, l = YAuth K (ZCall K i q) -> keep i = P (ckey q)) ->
      ystep l s t -> exists t', ystep l s' t' /\ sees t t'.
    Proof.
      intros (Hz & Hchk & Hs) Hi Hm Hq Hst. destruct s as [z k j f u o c ch], s' as [z' k' j' f' u' o' c' ch']. cbn in *.
      destruct Hs as (<- & <- & <- & <- & <- & <-). pose proof Hz as (Hcl & Hca & Hta). unfold now in *.
      inversion Hst; subst; cbn in *.
      - (* auth *)
        match goal with H1 : zstep _ _ _ _ _ = Some ?t1, H2 : auth_ok _ _ _ _ |- _ => rename H1 into Hzs, H2 into Hok; rename t1 into tz end.
        destruct (zstep_mine _ _ _ _ Hz Hi Hm ltac:(intros; subst; eauto) Hzs) as (tz' & Hzs' & Hz'). eexists. split.
        + apply S_auth; [exact Hzs'|]. destruct l0; cbn in *; try done. rewrite <- Hchk by done. done.
        + by split_and!.
      - eexists. split; [eapply S_key; [eassumption|cbn; unfold now in *; cbn in *; rewrite <- Hcl; assumption]|by split_and!].
      - eexists. split; [eapply S_jwk; eassumption|by split_and!].
      - eexists. split; [eapply S_send; [eassumption..|unfold now in *; cbn in *; rewrite <- Hcl; eassumption]|by split_and!].
      - eexists. split; [eapply S_reply; [eassumption..|unfold now in *; cbn in *; rewrite <- Hcl; eassumption]|by split_and!].
      - eexists. split; [eapply S_upd; [eassumption..| |assumption]|by split_and!]. intros w inp Hl. subst. match goal with H : forall w inp, _ -> input_ok _ _ _ |- _ => specialize (H _ _ eq_refl); destruct inp as [[| |]|]; cbn in *; try done end. unfold now in *. cbn in *. congruence.
      - eexists. split; [eapply S_take; [eassumption|eassumption|eassumption|]|by split_and!]. unfold now in *. cbn in *. rewrite <- Hcl. eassumption.
      - eexists. split; [eapply S_publish; eassumption|by split_and!].
      - eexists. split; [eapply S_hook; eassumption|by split_and!].
      - eexists. split; [eapply S_obj; [eassumption..| |]|by split_and!].
        + intros w inp Hl. subst. match goal with H : forall w inp, _ -> input_ok _ _ _ |- _ => specialize (H _ _ eq_refl); destruct inp as [[| |]|]; cbn in *; try done end. unfold now in *. cbn in *. congruence.
        + unfold now in *. cbn in *. rewrite <- Hcl. assumption.
      - eexists. split; [eapply S_objtake; [eassumption|eassumption|eassumption|]|by split_and!]. unfold now in *. cbn in *. rewrite <- Hcl. eassumption.
      - eexists. split; [eapply S_load; cbn; [rewrite <- Hta by done; eassumption|rewrite <- Hchk by done; eassumption|eassumption]|].
        unfold now. cbn. rewrite <- Hcl. split_and!; try done. cbn. eapply insert_agree; [eassumption|rewrite <- Hchk by done; eassumption|done].
      - eexists. split; [eapply S_chk; cbn; [rewrite <- Hchk by done; eassumption|eassumption|eassumption|unfold now in *; cbn in *; rewrite <- Hcl; eassumption]|].
        split_and!; try done. cbn. eapply insert_agree; [eassumption|rewrite <- Hchk by done; eassumption|done].
    Qed.
    Lemma ystep_other l s t : inv (y_auth K s) -> mine l = false -> ystep l s t -> sees s t.
    Proof.
      intros Hi Hm Hst. assert (forall i x j, keep i = false -> keep j = true -> y_chk K s !! j = <[i := x]> (y_chk K s) !! j) as Hset.
      { intros i x j Hx Hj. rewrite list_lookup_insert_ne; [done|]. intros ->. congruence. }
      destruct Hst; cbn in Hm; try done; (split; [|split; [|by split_and!]]); cbn; try done.
      - by eapply zstep_other.
      - intros j Hj. by apply Hset.
      - intros j Hj. by apply Hset.
    Qed.
    Lemma by_key_inv ls s : yrun ls s -> by_key ls -> inv (y_auth K s).
    Proof. intros H Hb i t Hi. pose proof (task_called _ _ _ _ _ _ _ _ _ _ _ _ _ _ _ H Hi) as Hc. destruct t; try done; by apply Hb. Qed.
    Lemma by_key_app ls l : by_key (ls ++ l) -> by_key ls.
    Proof. intros H i q Hin. apply H. apply elem_of_app. by left. Qed.

    (** ** Theorems *)
    (** Take away all calls with other cache keys: what is left is an execution, in which the remaining calls go
        exactly as before, and so do the daemons. *)
    Theorem C102_without_the_others ls s : yrun ls s -> by_key ls -> exists s', yrun (List.filter mine ls) s' /\ sees s s'.
    Proof.
      intros H. induction H as [|ls l s s' H IH Hs]; intros Hb; [exists s0; split; [constructor|apply sees_refl]|].
      destruct (IH (by_key_app _ _ Hb)) as (s1 & H1 & Hss). pose proof (by_key_inv _ _ H (by_key_app _ _ Hb)) as Hi.
      rewrite List.filter_app. cbn [List.filter]. destruct (mine l) eqn:Em.
      - destruct (ystep_mine _ _ _ _ Hss Hi Em ltac:(intros i q ->; apply Hb; apply elem_of_app; right; by left) Hs) as (s2 & Hs2 & Hss2).
        exists s2. split; [by eapply Y_snoc|done].
      - rewrite app_nil_r. exists s1. split; [done|]. eapply sees_trans; [apply sees_sym; by eapply ystep_other|done].
    Qed.
    (** Nor do the others make a step possible or impossible. *)
    Theorem C102_no_blocking ls s s' l : yrun ls s -> by_key ls -> yrun (List.filter mine ls) s' -> sees s s' -> mine l = true ->
      (forall i q, l = YAuth K (ZCall K i q) -> keep i = P (ckey q)) -> (exists t, ystep l s t) <-> (exists t', ystep l s' t').
    Proof.
      intros H Hb H' Hss Hm Hq. split; intros [t Hst].
      - destruct (ystep_mine _ _ _ _ Hss (by_key_inv _ _ H Hb) Hm Hq Hst) as (t' & ? & _). by exists t'.
      - assert (by_key (List.filter mine ls)) as Hb'. { intros i q Hin. apply elem_of_list_In, List.filter_In in Hin as [Hin _]. apply Hb. by apply elem_of_list_In. }
        destruct (ystep_mine _ _ _ _ (sees_sym _ _ Hss) (by_key_inv _ _ H' Hb') Hm Hq Hst) as (t' & ? & _). by exists t'.
    Qed.
    (** The same with the expired hook: an expired policy that a check of a call taken away came upon is then found by the
        sweep. *)
    Theorem C102_with_hooks ls h : hrun ls h -> by_key (hsys ls) -> exists h', hrun (List.filter hmine ls) h' /\ hsees h h'.
    Proof.
      intros H. induction H as [|ls l h h' H IH Hs]; intros Hb; [exists (hinit K s0); split; [constructor|split; [apply sees_refl|done]]|].
      unfold hsys in Hb. rewrite omap_app in Hb. destruct (IH (by_key_app _ _ Hb)) as (h1 & H1 & Hss & E1 & E2 & E3 & E4).
      pose proof (by_key_inv _ _ (C90_is_the_system _ _ _ _ _ _ _ _ _ _ _ _ _ _ H) (by_key_app _ _ Hb)) as Hi.
      rewrite List.filter_app. cbn [List.filter]. destruct (hmine l) eqn:Em.
      - assert (forall yl y, ystep yl (h_sys K h) y -> mine yl = true -> (forall i q, yl <> YAuth K (ZCall K i q)) -> exists y', ystep yl (h_sys K h1) y' /\ sees y y') as Hy.
        { intros yl y Hst Hm Hn. eapply ystep_mine; [exact Hss|exact Hi|exact Hm| |exact Hst]. intros i q ->. by destruct (Hn i q). }
        pose proof Hss as (_ & _ & _ & _ & _ & _ & Eo & Ec). pose proof Hss as ((En & _) & _).
        inversion Hs; subst; cbn [hmine] in Em.
        + match goal with H : System.ystep _ _ _ _ _ _ _ _ |- _ => rename H into Hst end.
          destruct (ystep_mine _ _ _ _ Hss Hi Em ltac:(intros i q ->; apply Hb; apply elem_of_app; right; cbn; by left) Hst) as (y' & Hst' & Hy').
          exists (HSt K y' (h_exp K h1) (h_pend K h1) (h_jobs K h1) false). split; [|by split_and!].
          eapply HR_snoc; [exact H1|]. apply H_sys; [congruence| |exact Hst'|].
          * match goal with Ho : ordinary _ _ _ |- _ => revert Ho end. unfold ordinary. destruct l0; try done. by rewrite E3.
          * pose proof Hy' as (_ & _ & _ & _ & _ & _ & Eo' & _). congruence.
        + match goal with H : System.ystep _ _ _ _ _ _ _ _ |- _ => destruct (Hy _ _ H eq_refl ltac:(done)) as (y' & Hst' & Hy') end.
          eexists. split; [eapply HR_snoc; [exact H1|]; eapply H_publish; [congruence|exact Hst'|]|split_and!; cbn; try done; congruence].
          pose proof Hy' as (_ & _ & _ & _ & _ & _ & Eo' & _). congruence.
        + match goal with H : System.ystep _ _ _ _ _ _ _ _ |- _ => destruct (Hy _ _ H eq_refl ltac:(done)) as (y' & Hst' & Hy') end.
          eexists. split; [eapply HR_snoc; [exact H1|]; eapply H_find; [congruence|rewrite <- Eo; eassumption|eassumption|unfold now in *; rewrite <- En; eassumption|rewrite <- E1; eassumption|exact Hst']|].
          split_and!; cbn; try done; congruence.
        + eexists. split; [eapply HR_snoc; [exact H1|]; eapply H_take; [congruence|rewrite <- E1; eassumption]|]. split_and!; cbn; try done; congruence.
        + eexists. split; [eapply HR_snoc; [exact H1|]; eapply H_end; [congruence|rewrite <- E1; eassumption]|]. split_and!; cbn; try done; congruence.
        + match goal with H : System.ystep _ _ _ _ _ _ _ _ |- _ => destruct (Hy _ _ H eq_refl ltac:(done)) as (y' & Hst' & Hy') end.
          eexists. split; [eapply HR_snoc; [exact H1|]; eapply H_run; [congruence|rewrite <- E2; eassumption|eassumption|rewrite <- Eo, <- Ec; eassumption|exact Hst']|].
          split_and!; cbn; try done; congruence.
        + eexists. split; [eapply HR_snoc; [exact H1|]; eapply H_crash; [congruence|rewrite <- E2; eassumption|eassumption]|]. split_and!; cbn; try done; congruence.
      - rewrite app_nil_r. exists h1. split; [done|]. destruct l; try done. cbn [hmine] in Em. inversion Hs; subst.
        split; [|split_and!; cbn; try done; congruence]. cbn. eapply sees_trans; [apply sees_sym; by eapply ystep_other|done].
    Qed.
  End erase.

  (** The request of a call. *)
  Definition req_of (t : ctask) : option request :=
    match t with Authorizer.CIdle => None | CLook q | CParse q | CTrans q _ | CCheck q _ _ _ | CStore q _ | CDone q _ => Some q end.
  Lemma zstep_req l z z' i t q : zstep K X (s_z cf) l z = Some z' -> z_tasks z !! i = Some t -> req_of t = Some q ->
    exists t', z_tasks z' !! i = Some t' /\ req_of t' = Some q.
  Proof.
    intros Hst Hi Hq. assert (forall j u v, z_tasks z !! j = Some u -> (req_of u = None \/ req_of v = req_of u) -> exists t', <[j := v]> (z_tasks z) !! i = Some t' /\ req_of t' = Some q) as Hset.
    { intros j u v Hj Hv. destruct (decide (j = i)) as [->|Hne]; [|exists t; by rewrite list_lookup_insert_ne]. assert (u = t) as -> by congruence.
      exists v. rewrite list_lookup_insert by (by eapply lookup_lt_Some). split; [done|]. destruct Hv; congruence. }
    destruct l as [tt|j r|j|j ks|j o|j r|j|kk|]; cbn [zstep] in Hst.
    - destruct (_ <=? _); [|done]. injection Hst as <-. by exists t.
    - destruct (z_tasks z !! j) as [[| | | | | |]|] eqn:E; try done. injection Hst as <-. eapply Hset; [exact E|by left].
    - destruct (z_tasks z !! j) as [[| | | | | |]|] eqn:E; try done. injection Hst as <-. eapply Hset; [exact E|right; by repeat case_match].
    - destruct (z_tasks z !! j) as [[| | | | | |]|] eqn:E; try done. injection Hst as <-. eapply Hset; [exact E|right; by repeat case_match].
    - destruct (z_tasks z !! j) as [[| | | | | |]|] eqn:E; try done. injection Hst as <-. eapply Hset; [exact E|right; by repeat case_match].
    - destruct (z_tasks z !! j) as [[| | | | | |]|] eqn:E; try done. injection Hst as <-. eapply Hset; [exact E|right; by repeat case_match].
    - destruct (z_tasks z !! j) as [[| | | | | |]|] eqn:E; try done. injection Hst as <-. eapply Hset; [exact E|by right].
    - destruct (z_cache z !! kk); [|done]. destruct (g_valid _ _); [done|]. injection Hst as <-. by exists t.
    - injection Hst as <-. by exists t.
  Qed.
  Lemma called_task ls s i q : yrun ls s -> YAuth K (ZCall K i q) ∈ ls -> exists t, z_tasks (y_auth K s) !! i = Some t /\ req_of t = Some q.
  Proof.
    intros H. induction H as [|ls l s s' H IH Hs]; intros Hin; [by apply elem_of_nil in Hin|]. apply elem_of_app in Hin as [Hin|Hin].
    - destruct (IH Hin) as (t & Ht & Hq). destruct Hs; try (by exists t). by eapply zstep_req.
    - apply elem_of_list_singleton in Hin as <-. inversion Hs; subst. match goal with H : zstep _ _ _ _ _ = _ |- _ => cbn [zstep] in H end.
      destruct (z_tasks (y_auth K s) !! i) as [[| | | | | |]|] eqn:E; try done. match goal with H : Some _ = Some _ |- _ => injection H as <- end.
      cbn. rewrite list_lookup_insert by (by eapply lookup_lt_Some). eexists. split; [done|]. by destruct (empty_params _ _).
  Qed.
  (** The calls that ask for [k]. *)
  Definition asks (ls : list ylabel) (k : str) (i : nat) : bool :=
    existsb (fun l => match l with YAuth _ (ZCall _ j q) => Nat.eqb i j && bool_decide (ckey q = k) | _ => false end) ls.
  Lemma asks_by_key ls s k : yrun ls s -> by_key (asks ls k) (fun k' => bool_decide (k' = k)) ls.
  Proof.
    intros H i q Hin. apply eq_true_iff_eq. rewrite bool_decide_eq_true. unfold asks. rewrite existsb_exists. split.
    - intros (l & Hl & Hx). apply elem_of_list_In in Hl. destruct l as [l| | | | | | | | | | |]; try done. destruct l as [|j q'| | | | | | |]; try done.
      apply andb_true_iff in Hx as [Hj Hx]. apply Nat.eqb_eq in Hj as <-. apply bool_decide_eq_true in Hx.
      destruct (called_task _ _ _ _ H Hin) as (t & Ht & Hq), (called_task _ _ _ _ H Hl) as (t' & Ht' & Hq'). congruence.
    - intros Hk. exists (YAuth K (ZCall K i q)). split; [by apply elem_of_list_In|]. rewrite Nat.eqb_refl. by rewrite bool_decide_eq_true_2.
  Qed.
  (** So the fate of a call depends on no call with another cache key: the execution with those left out exists and the
      call ends in it as it did. *)
  Definition only (k : str) (ls : list hlabel) : list hlabel := List.filter (hmine (asks (hsys ls) k) (fun k' => bool_decide (k' = k))) ls.
  Theorem C102_result_of_a_call ls h i q r : hrun ls h -> z_tasks (y_auth K (h_sys K h)) !! i = Some (CDone q r) ->
    exists h', hrun (only (ckey q) ls) h' /\ z_tasks (y_auth K (h_sys K h')) !! i = Some (CDone q r).
  Proof.
    intros Hr Hi. pose proof (C90_is_the_system _ _ _ _ _ _ _ _ _ _ _ _ _ _ Hr) as Hy. pose proof (asks_by_key _ _ (ckey q) Hy) as Hb.
    destruct (C102_with_hooks _ _ _ _ Hr Hb) as (h' & Hr' & ((_ & _ & Ht) & _) & _). exists h'. split; [exact Hr'|]. rewrite <- Ht; [done|].
    pose proof (task_called _ _ _ _ _ _ _ _ _ _ _ _ _ _ _ Hy Hi) as Hc. cbn in Hc. rewrite (Hb _ _ Hc). by apply bool_decide_eq_true.
  Qed.
  (** The daemons depend on no call at all. *)
  Definition daemons_only (ls : list hlabel) : list hlabel := List.filter (hmine (fun _ => false) (fun _ => false)) ls.
  Theorem C102_daemons_alone ls h : hrun ls h -> exists h', hrun (daemons_only ls) h' /\ now K (h_sys K h') = now K (h_sys K h) /\
    y_keys K (h_sys K h') = y_keys K (h_sys K h) /\ y_jwk K (h_sys K h') = y_jwk K (h_sys K h) /\ y_fetch K (h_sys K h') = y_fetch K (h_sys K h) /\
    y_upd K (h_sys K h') = y_upd K (h_sys K h) /\ y_objs K (h_sys K h') = y_objs K (h_sys K h) /\ y_cur K (h_sys K h') = y_cur K (h_sys K h) /\ h_down K h' = h_down K h.
  Proof.
    intros Hr. destruct (C102_with_hooks (fun _ => false) (fun _ => false) _ _ Hr) as (h' & Hr' & ((Hc & _) & _ & Hs) & E); [by intros i q _|]. exists h'. split; [exact Hr'|].
    destruct Hs as (-> & -> & -> & -> & -> & ->). destruct E as (_ & _ & _ & ->). unfold now. by rewrite Hc.
  Qed.

  Lemma no_store ls s : yrun ls s -> (forall i, YAuth K (ZStore K i) ∉ ls) -> z_cache (y_auth K s) = ∅.
  Proof.
    intros H. induction H as [|ls l s s' H IH Hs]; intros Hn; [done|]. assert (z_cache (y_auth K s) = ∅) as Hc by (apply IH; intros i Hi; apply (Hn i), elem_of_app; by left).
    destruct Hs as [s l z Hst _| | | | | | | | | | | |]; try exact Hc. cbn. destruct l as [tt|j r|j|j ks|j o|j r|j|kk|]; cbn [zstep] in Hst.
    - destruct (_ <=? _); [|done]. by injection Hst as <-.
    - destruct (z_tasks _ !! j) as [[| | | | | |]|] eqn:E; try done. by injection Hst as <-.
    - destruct (z_tasks _ !! j) as [[| | | | | |]|] eqn:E; try done. by injection Hst as <-.
    - destruct (z_tasks _ !! j) as [[| | | | | |]|] eqn:E; try done. by injection Hst as <-.
    - destruct (z_tasks _ !! j) as [[| | | | | |]|] eqn:E; try done. by injection Hst as <-.
    - destruct (z_tasks _ !! j) as [[| | | | | |]|] eqn:E; try done. by injection Hst as <-.
    - destruct (Hn j). apply elem_of_app. right. by left.
    - rewrite Hc in Hst. by rewrite lookup_empty in Hst.
    - by injection Hst as <-.
  Qed.
End claims.

Section example.
  Import Prop_PubKey Prop_Fetcher Prop_Authorizer Prop_Access.
  (** Calls with the same key do matter: call 1 is answered from the cache, where call 0 put its result; without call 0
      it is not answered by the same steps. *)
  Theorem C102_same_key_refuted : exists ls s q p,
    System.yrun K1 X0 U0 parse1 wcf winit ls s /\ z_tasks (y_auth K1 s) !! 1%nat = Some (CDone q (Ok p)) /\
    forall P s', System.yrun K1 X0 U0 parse1 wcf winit (List.filter (mine K1 (fun i => Nat.eqb i 1) P) ls) s' ->
      z_tasks (y_auth K1 s') !! 1%nat = Some (CParse q).
  Proof.
    assert (match drive K1 X0 U0 parse1 wcf (wcmds ++ wcmds2) [] winit with
      | Some (tr, s) => match z_tasks (y_auth K1 s) !! 1%nat with Some (CDone _ (Ok _)) => true | _ => false end &&
          match tr with (YAuth _ (ZLook _ j), _) :: tr' => Nat.eqb j 1 && forallb (fun '(l, _) => match l with YAuth _ (ZStore _ j) => negb (Nat.eqb j 1) | YAuth _ (ZLook _ j) => negb (Nat.eqb j 1) | _ => true end) tr' | _ => false end
      | None => false end = true) as H by (vm_compute; reflexivity).
    destruct (drive K1 X0 U0 parse1 wcf (wcmds ++ wcmds2) [] winit) as [[tr s]|] eqn:E; [|discriminate H].
    pose proof (drive_run _ _ _ _ _ _ _ _ _ E) as [Hr _]. clear E. apply andb_true_iff in H as [H1 H2].
    destruct (z_tasks (y_auth K1 s) !! 1%nat) as [[| | | | | |q [p| |]]|] eqn:E1; try discriminate H1. exists (rev tr.*1), s, q, p. split; [exact Hr|]. split; [exact E1|].
    destruct tr as [|[l s1] tr]; [discriminate H2|]. destruct l as [l| | | | | | | | | | |]; try discriminate H2. destruct l as [| |j| | | | | |]; try discriminate H2.
    apply andb_true_iff in H2 as [Hj H2]. apply Nat.eqb_eq in Hj as ->. intros P s' Hr'. cbn [fmap list_fmap rev fst] in Hr, Hr'.
    rewrite List.filter_app in Hr'. cbn [List.filter mine zmine Nat.eqb] in Hr'. rewrite forallb_forall in H2.
    apply yrun_snoc in Hr as (s2 & Hr & Hs). apply yrun_snoc in Hr' as (s2' & Hr' & Hs').
    inversion Hs; subst. inversion Hs'; subst. cbn [set_auth y_auth] in *. repeat match goal with H : zstep _ _ _ _ _ = Some _ |- _ => cbn [zstep] in H end.
    destruct (z_tasks (y_auth K1 s2) !! 1%nat) as [[|q1| | | | |]|] eqn:E2; try discriminate. destruct (z_tasks (y_auth K1 s2') !! 1%nat) as [[|q2| | | | |]|] eqn:E3; try discriminate.
    repeat match goal with H : Some _ = Some _ |- _ => injection H as <- end.
    rewrite (no_store _ _ _ _ _ _ _ _ _ _ _ _ _ Hr').
    - cbn. rewrite list_lookup_insert by (by eapply lookup_lt_Some). f_equal.
      apply (task_called _ _ _ _ _ _ _ _ _ _ _ _ _ _ _ Hr') in E3. cbn in E3. apply elem_of_list_In, List.filter_In in E3 as [E3 _]. apply elem_of_list_In in E3.
      destruct (called_task _ _ _ _ _ _ _ _ _ _ _ _ _ _ _ Hr E3) as (t & Ht & Hq). rewrite E2 in Ht. injection Ht as <-. injection Hq as ->.
      cbn in E1. rewrite list_lookup_insert in E1 by (by eapply lookup_lt_Some). destruct (g_get _ _ _); [|discriminate E1]. by injection E1 as -> _.
    - intros i Hi. apply elem_of_list_In, List.filter_In in Hi as [Hi Hm]. cbn in Hm. apply Nat.eqb_eq in Hm as ->. rewrite <- in_rev in Hi. apply in_map_iff in Hi as ([l s3] & Hl & Hi).
      specialize (H2 _ Hi). cbn in Hl, H2. subst l. discriminate H2.
  Qed.
  (** Two interleaved calls with different keys: one granted, one denied; each also without the other. *)
  Definition icmds : list (@hcmd unit) :=
    xload wdoc 5 ++ map XC ([DCall 1 (rq (B "/secret") []); DLook 1; DParse 1] ++ wcall 0 8 3 3 (rq (B "/x") []) ++ [DTrans 1 tt; DStore 0; DLoad 1] ++
      map (DChk 1) [LLoad; LSpawn; LSpawn; LSpawn] ++ replicate 6 (DChk 1 (LWork 0)) ++ replicate 3 (DChk 1 (LWork 1)) ++ map (DChk 1) [LClose; LMain; LMain] ++ [DPolicy 1]).
  Example C102_nonvacuous : exists ls h h0 h1 p,
    Hooked.hrun K1 X0 U0 parse1 wcf [B "dom"] (hinit K1 winit) ls h /\
    z_tasks (y_auth K1 (h_sys K1 h)) !! 0%nat = Some (CDone (rq (B "/x") []) (Ok p)) /\
    z_tasks (y_auth K1 (h_sys K1 h)) !! 1%nat = Some (CDone (rq (B "/secret") []) (Err ErrDenyByPolicy)) /\
    Hooked.hrun K1 X0 U0 parse1 wcf [B "dom"] (hinit K1 winit) (only K1 wcf (cache_key cf_on (rq (B "/x") [])) ls) h0 /\
    z_tasks (y_auth K1 (h_sys K1 h0)) !! 0%nat = Some (CDone (rq (B "/x") []) (Ok p)) /\
    Hooked.hrun K1 X0 U0 parse1 wcf [B "dom"] (hinit K1 winit) (only K1 wcf (cache_key cf_on (rq (B "/secret") [])) ls) h1 /\
    z_tasks (y_auth K1 (h_sys K1 h1)) !! 1%nat = Some (CDone (rq (B "/secret") []) (Err ErrDenyByPolicy)) /\
    (length (only K1 wcf (cache_key cf_on (rq (B "/x") [])) ls) < length ls)%nat /\ (length (only K1 wcf (cache_key cf_on (rq (B "/secret") [])) ls) < length ls)%nat.
  Proof.
    assert (match xdrive1 icmds with Some (ls, h) => Some (match z_tasks (y_auth K1 (h_sys K1 h)) !! 0%nat with Some (CDone q (Ok _)) => Some q | _ => None end,
          match z_tasks (y_auth K1 (h_sys K1 h)) !! 1%nat with Some (CDone q (Err e)) => Some (q, e) | _ => None end,
          (Nat.ltb (length (only K1 wcf (cache_key cf_on (rq (B "/x") [])) ls)) (length ls) && Nat.ltb (length (only K1 wcf (cache_key cf_on (rq (B "/secret") [])) ls)) (length ls)))
      | None => None end = Some (Some (rq (B "/x") []), Some (rq (B "/secret") [], ErrDenyByPolicy), true)) as H by (vm_compute; reflexivity).
    destruct (xdrive1 icmds) as [[ls h]|] eqn:E; [|discriminate H]. apply xrun in E.
    assert (forall A C D (a a' : A) (b b' : C) (c c' : D), Some (a, b, c) = Some (a', b', c') -> a = a' /\ b = b' /\ c = c') as Hinj.
    { clear. intros. injection H as -> -> ->. done. }
    apply Hinj in H as (H0 & H1 & H2). apply andb_true_iff in H2 as [H2 H3]. apply Nat.ltb_lt in H2, H3.
    destruct (z_tasks (y_auth K1 (h_sys K1 h)) !! 0%nat) as [[| | | | | |q0 [p| |]]|] eqn:E0; try discriminate H0. assert (q0 = rq (B "/x") []) as -> by (clear -H0; congruence).
    destruct (z_tasks (y_auth K1 (h_sys K1 h)) !! 1%nat) as [[| | | | | |q1 [| e|]]|] eqn:E1; try discriminate H1. assert (q1 = rq (B "/secret") [] /\ e = ErrDenyByPolicy) as [-> ->] by (clear -H1; split; congruence).
    destruct (C102_result_of_a_call _ _ _ _ _ _ _ _ _ _ _ _ _ _ _ _ _ E E0) as (h0 & Hr0 & Ht0). destruct (C102_result_of_a_call _ _ _ _ _ _ _ _ _ _ _ _ _ _ _ _ _ E E1) as (h1 & Hr1 & Ht1).
    exists ls, h, h0, h1, p. split; [exact E|]. split; [exact E0|]. split; [exact E1|]. split; [exact Hr0|]. split; [exact Ht0|]. split; [exact Hr1|]. split; [exact Ht1|]. split; [exact H2|exact H3].
  Qed.
End example.

Print Assumptions C102_without_the_others.
Print Assumptions C102_no_blocking.
Print Assumptions C102_with_hooks.
Print Assumptions C102_result_of_a_call.
Print Assumptions C102_daemons_alone.
Print Assumptions C102_same_key_refuted.
Print Assumptions C102_nonvacuous.
