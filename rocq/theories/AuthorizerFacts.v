(** * Facts about the authorizer machine *)
From Verif Require Export Authorizer.

Section facts.
  Context {K : crypto} {X : jwt_ext} {O : Type}.
  Implicit Types (cf : @zconf O) (s : zst) (ls : list (@zlabel K O)).

  Lemma zrun_app cf l1 l2 s s' : zrun K X cf (l1 ++ l2) s = Some s' <->
    exists s1, zrun K X cf l1 s = Some s1 /\ zrun K X cf l2 s1 = Some s'.
  Proof.
    revert s. induction l1 as [|l l1 IH]; intros s; cbn [app zrun]; [split; [eauto|by intros (? & [= ->] & ?)]|].
    destruct (zstep K X cf l s); [apply IH|]. split; [done|]. by intros (? & ? & _).
  Qed.
  Lemma zrun_snoc cf ls l s s' : zrun K X cf (ls ++ [l]) s = Some s' <->
    exists s1, zrun K X cf ls s = Some s1 /\ zstep K X cf l s1 = Some s'.
  Proof.
    rewrite zrun_app. cbn [zrun]. split; intros (s1 & H1 & H2); exists s1; (split; [done|]).
    - destruct (zstep K X cf l s1); [done|done].
    - by rewrite H2.
  Qed.

  (** ** What a history shows *)
  (** The label [l] occurs in [ls], in state [s1]. *)
  Definition occurs cf s0 ls (l : zlabel K) (s1 : zst) : Prop :=
    exists l1 l2, ls = l1 ++ l :: l2 /\ zrun K X cf l1 s0 = Some s1.
  Lemma occurs_mono cf s0 ls l' l s1 : occurs cf s0 ls l s1 -> occurs cf s0 (ls ++ l') l s1.
  Proof. intros (l1 & l2 & -> & H). exists l1, (l2 ++ l'). split; [|done]. by rewrite <- app_assoc. Qed.
  Lemma occurs_last cf s0 ls l s1 : zrun K X cf ls s0 = Some s1 -> occurs cf s0 (ls ++ [l]) l s1.
  Proof. intros H. by exists ls, []. Qed.

  (** Call [j] for request [q] validated its token at time [t]: principal [p]. *)
  Definition validated cf s0 ls j q p t : Prop :=
    exists ks s1, occurs cf s0 ls (ZParse K j ks) s1 /\ z_tasks s1 !! j = Some (CParse q) /\
      z_clock s1 = t /\ process K X cf ks t q = Ok p.
  (** CheckPolicyRoles, asked by call [j] for the translated and prefixed request, granted [acc]. *)
  Definition granted cf s0 ls j q p acc : Prop :=
    exists s1 o a r, occurs cf s0 ls (ZPolicy K j (Ok acc)) s1 /\ z_tasks s1 !! j = Some (CCheck q p a r) /\
      target cf o p q = Ok (a, r).
  (** The complete evaluation of a request. *)
  Definition evaluated cf s0 ls j q p t : Prop :=
    exists p0, validated cf s0 ls j q p0 t /\
      if z_policy cf then exists acc, granted cf s0 ls j q p0 acc /\ p = with_auth p0 acc else p = p0.
  Definition stored cf s0 ls j q p t : Prop :=
    exists s1, occurs cf s0 ls (ZStore K j) s1 /\ z_tasks s1 !! j = Some (CStore q p) /\ z_clock s1 = t.
  Definition looked cf s0 ls j q t : Prop :=
    exists s1, occurs cf s0 ls (ZLook K j) s1 /\ z_tasks s1 !! j = Some (CLook q) /\ z_clock s1 = t.

  Lemma validated_mono cf s0 ls l j q p t : validated cf s0 ls j q p t -> validated cf s0 (ls ++ l) j q p t.
  Proof. intros (ks & s1 & H & ?). exists ks, s1. split; [by apply occurs_mono|done]. Qed.
  Lemma granted_mono cf s0 ls l j q p acc : granted cf s0 ls j q p acc -> granted cf s0 (ls ++ l) j q p acc.
  Proof. intros (s1 & o & a & r & H & ?). exists s1, o, a, r. split; [by apply occurs_mono|done]. Qed.
  Lemma evaluated_mono cf s0 ls l j q p t : evaluated cf s0 ls j q p t -> evaluated cf s0 (ls ++ l) j q p t.
  Proof.
    intros (p0 & H & Hp). exists p0. split; [by apply validated_mono|]. destruct (z_policy cf); [|done].
    destruct Hp as (acc & Hg & ->). exists acc. split; [by apply granted_mono|done].
  Qed.
  Lemma stored_mono cf s0 ls l j q p t : stored cf s0 ls j q p t -> stored cf s0 (ls ++ l) j q p t.
  Proof. intros (s1 & H & ?). exists s1. split; [by apply occurs_mono|done]. Qed.
  Lemma looked_mono cf s0 ls l j q t : looked cf s0 ls j q t -> looked cf s0 (ls ++ l) j q t.
  Proof. intros (s1 & H & ?). exists s1. split; [by apply occurs_mono|done]. Qed.

  (** A success of request [q] at time [tl] rests on an evaluation, stored at [ts]. *)
  Definition backed cf s0 ls q p tl : Prop :=
    exists j' q' tv ts, cache_key cf q' = cache_key cf q /\ evaluated cf s0 ls j' q' p tv /\ stored cf s0 ls j' q' p ts /\
      tv <= ts <= tl /\ (0 < z_exp cf -> 0 < ts + z_exp cf -> ts + z_exp cf <= max_int64 -> tl <= ts + z_exp cf).
  Lemma backed_mono cf s0 ls l q p tl : backed cf s0 ls q p tl -> backed cf s0 (ls ++ l) q p tl.
  Proof.
    intros (j' & q' & tv & ts & H1 & H2 & H3 & ?). exists j', q', tv, ts. split; [done|].
    split; [by apply evaluated_mono|]. split; [by apply stored_mono|done].
  Qed.

  Definition task_inv cf s0 ls s j (t : ctask) : Prop :=
    match t with
    | CIdle => True
    | CLook q => ZCall K j q ∈ ls /\ empty_params cf q = false
    | CParse q => ZCall K j q ∈ ls /\ empty_params cf q = false
    | CTrans q p => ZCall K j q ∈ ls /\ empty_params cf q = false /\ z_policy cf = true /\ exists tv, validated cf s0 ls j q p tv /\ tv <= z_clock s
    | CCheck q p a r => ZCall K j q ∈ ls /\ empty_params cf q = false /\ z_policy cf = true /\ (exists tv, validated cf s0 ls j q p tv /\ tv <= z_clock s) /\
        exists o, target cf o p q = Ok (a, r)
    | CStore q p => ZCall K j q ∈ ls /\ empty_params cf q = false /\ exists tv, evaluated cf s0 ls j q p tv /\ tv <= z_clock s
    | CDone q (Ok p) => ZCall K j q ∈ ls /\ empty_params cf q = false /\
        exists tl, tl <= z_clock s /\ backed cf s0 ls q p tl /\
          ((exists ts tv, stored cf s0 ls j q p ts /\ ts = tl /\ evaluated cf s0 ls j q p tv) \/ looked cf s0 ls j q tl)
    | CDone q _ => ZCall K j q ∈ ls
    end.
  Definition cache_inv cf s0 ls s : Prop :=
    forall k e, z_cache s !! k = Some e -> exists j q tv ts, cache_key cf q = k /\ evaluated cf s0 ls j q (ge_val e) tv /\
      stored cf s0 ls j q (ge_val e) ts /\ tv <= ts <= z_clock s /\
      ge_exp e = (if 0 <? z_exp cf then wrap64 (ts + z_exp cf) else z_exp cf).

  Lemma task_inv_mono cf s0 ls l s s' j t : z_clock s <= z_clock s' -> task_inv cf s0 ls s j t -> task_inv cf s0 (ls ++ l) s' j t.
  Proof.
    intros Hc. assert (forall x, x ∈ ls -> x ∈ ls ++ l) as Hin by (intros; apply elem_of_app; by left).
    destruct t as [|q|q|q p|q p a r|q p|q [p|e|]]; cbn [task_inv]; try done; try (intros [? ?]; by auto); try by auto.
    - intros (? & ? & ? & tv & ? & ?). split_and!; auto. exists tv. split; [by apply validated_mono|lia].
    - intros (? & ? & ? & (tv & ? & ?) & ?). split_and!; auto. exists tv. split; [by apply validated_mono|lia].
    - intros (? & ? & tv & ? & ?). split_and!; auto. exists tv. split; [by apply evaluated_mono|lia].
    - intros (? & ? & tl & ? & ? & Hd). split_and!; auto. exists tl. split; [lia|]. split; [by apply backed_mono|].
      destruct Hd as [(ts & tv & ? & ? & ?)|?]; [left; exists ts, tv; split; [by apply stored_mono|]; split; [done|by apply evaluated_mono]|right; by apply looked_mono].
  Qed.

  Theorem machine_inv cf n t0 ls s : zrun K X cf ls (zinit n t0) = Some s ->
    t0 <= z_clock s /\ (forall j t, z_tasks s !! j = Some t -> task_inv cf (zinit n t0) ls s j t) /\ cache_inv cf (zinit n t0) ls s.
  Proof.
    set (s0 := zinit n t0). revert s. induction ls as [|l ls IH] using rev_ind; intros s H.
    - cbn in H. injection H as <-. split; [done|]. split.
      + intros j t Ht. cbn in Ht. apply lookup_replicate in Ht as [-> _]. done.
      + intros k e He. cbn in He. by rewrite lookup_empty in He.
    - apply zrun_snoc in H as (s1 & Hr & Hstep). destruct (IH _ Hr) as (Hc & Ht & Hcache). clear IH.
      assert (z_clock s1 <= z_clock s) as Hmono.
      { destruct l; cbn [zstep] in Hstep; repeat (case_match; try done); injection Hstep as <-; cbn; try lia. }
      assert (forall j t, z_tasks s !! j = Some t -> z_tasks s1 !! j = Some t \/ task_inv cf s0 (ls ++ [l]) s j t) as Htasks.
      { assert (forall i t0, s = set_task s1 i t0 -> task_inv cf s0 (ls ++ [l]) s i t0 ->
          forall j t, z_tasks s !! j = Some t -> z_tasks s1 !! j = Some t \/ task_inv cf s0 (ls ++ [l]) s j t) as Hset.
        { intros i u -> Hi j t Hj. cbn [set_task z_tasks] in Hj. apply list_lookup_insert_Some in Hj as [(-> & -> & _)|[_ Hj]]; auto. }
        destruct l as [t|i q|i|i ks|i o|i r|i|k|]; cbn [zstep] in Hstep.
        - destruct (z_clock s1 <=? t); [|done]. injection Hstep as <-. auto.
        - destruct (z_tasks s1 !! i) as [[]|] eqn:Ei; try done. injection Hstep as <-. eapply Hset; [done|].
          destruct (empty_params cf q) eqn:Ee; cbn; [|split; [|done]]; apply elem_of_app; right; left.
        - destruct (z_tasks s1 !! i) as [[]|] eqn:Ei; try done. injection Hstep as <-. eapply Hset; [done|].
          destruct (Ht _ _ Ei) as [Hcall Hne]. assert (ZCall K i q ∈ ls ++ [ZLook K i]) by (apply elem_of_app; by left).
          unfold g_get. destruct (z_cache s1 !! cache_key cf q) as [e|] eqn:Eg; [|done]. destruct (g_valid (z_clock s1) e) eqn:Ev; [|done].
          cbn [task_inv]. split; [done|]. split; [done|]. exists (z_clock s1). split; [cbn; lia|]. split.
          + destruct (Hcache _ _ Eg) as (j' & q' & tv & ts & H1 & H2 & H3 & H4 & H5). exists j', q', tv, ts. split; [done|].
            split; [by apply evaluated_mono|]. split; [by apply stored_mono|]. split; [lia|]. intros Hp Hpos Hmax.
            unfold g_valid in Ev. rewrite H5 in Ev. rewrite (proj2 (Z.ltb_lt 0 (z_exp cf)) Hp) in Ev.
            rewrite wrap64_id in Ev by (unfold min_int64, two63; lia). apply orb_true_iff in Ev. rewrite !Z.leb_le in Ev. lia.
          + right. exists s1. split; [by apply occurs_last|done].
        - destruct (z_tasks s1 !! i) as [[]|] eqn:Ei; try done. injection Hstep as <-. eapply Hset; [done|].
          destruct (Ht _ _ Ei) as [Hcall Hne]. assert (ZCall K i q ∈ ls ++ [ZParse K i ks]) by (apply elem_of_app; by left).
          destruct (process K X cf ks (z_clock s1) q) as [p|e|] eqn:Ep; [|done|done].
          assert (validated cf s0 (ls ++ [ZParse K i ks]) i q p (z_clock s1)) as Hv.
          { exists ks, s1. split; [by apply occurs_last|done]. }
          destruct (z_policy cf) eqn:Epol; cbn [task_inv].
          + split_and!; try done. exists (z_clock s1). split; [done|cbn; lia].
          + split_and!; try done. exists (z_clock s1). split; [|cbn; lia]. exists p. split; [done|]. by rewrite Epol.
        - destruct (z_tasks s1 !! i) as [[]|] eqn:Ei; try done. injection Hstep as <-. eapply Hset; [done|].
          destruct (Ht _ _ Ei) as (Hcall & Hne & Hpol & tv & Hv & Htv). assert (ZCall K i q ∈ ls ++ [ZTrans K i o]) by (apply elem_of_app; by left).
          destruct (target cf o p q) as [[a r]|e|] eqn:Et; [|done|done]. cbn [task_inv]. split_and!; try done; [|by exists o].
          exists tv. split; [by apply validated_mono|done].
        - destruct (z_tasks s1 !! i) as [[]|] eqn:Ei; try done. injection Hstep as <-. eapply Hset; [done|].
          destruct (Ht _ _ Ei) as (Hcall & Hne & Hpol & (tv & Hv & Htv) & o & Ho). assert (ZCall K i q ∈ ls ++ [ZPolicy K i r]) by (apply elem_of_app; by left).
          destruct r as [acc|e|]; [|done|done]. cbn [task_inv]. split_and!; try done. exists tv. split; [|done].
          exists p. split; [by apply validated_mono|]. rewrite Hpol. exists acc. split; [|done]. exists s1, o, act, res.
          split; [by apply occurs_last|]. done.
        - destruct (z_tasks s1 !! i) as [[]|] eqn:Ei; try done. injection Hstep as <-. intros j t Hj. cbn [z_tasks] in Hj.
          apply list_lookup_insert_Some in Hj as [(-> & <- & _)|[_ Hj]]; [right|by left].
          destruct (Ht _ _ Ei) as (Hcall & Hne & tv & He & Htv). cbn [task_inv]. split; [apply elem_of_app; by left|]. split; [done|].
          assert (stored cf s0 (ls ++ [ZStore K j]) j q p (z_clock s1)) as Hst.
          { exists s1. split; [by apply occurs_last|done]. }
          exists (z_clock s1). split; [cbn; lia|]. split.
          + exists j, q, tv, (z_clock s1). split; [done|]. split; [by apply evaluated_mono|]. split; [done|]. split; [lia|]. intros; lia.
          + left. exists (z_clock s1), tv. split; [done|]. split; [done|]. by apply evaluated_mono.
        - destruct (z_cache s1 !! k) as [e|]; [|done]. destruct (g_valid (z_clock s1) e); [done|]. injection Hstep as <-. auto.
        - injection Hstep as <-. auto. }
      split; [lia|]. split.
      + intros j t Hj. destruct (Htasks _ _ Hj) as [Hj'|Hj']; [|done]. eapply task_inv_mono; [|by apply Ht]. done.
      + assert (forall k e, z_cache s1 !! k = Some e -> exists j q tv ts, cache_key cf q = k /\ evaluated cf s0 (ls ++ [l]) j q (ge_val e) tv /\
          stored cf s0 (ls ++ [l]) j q (ge_val e) ts /\ tv <= ts <= z_clock s /\
          ge_exp e = (if 0 <? z_exp cf then wrap64 (ts + z_exp cf) else z_exp cf)) as Hold.
        { intros k e He. destruct (Hcache _ _ He) as (j & q & tv & ts & H1 & H2 & H3 & H4 & H5). exists j, q, tv, ts.
          split; [done|]. split; [by apply evaluated_mono|]. split; [by apply stored_mono|]. split; [lia|done]. }
        intros k e He. destruct l as [t|i q|i|i ks|i o|i r|i|k'|]; cbn [zstep] in Hstep.
        * destruct (z_clock s1 <=? t); [|done]. injection Hstep as <-. by apply Hold.
        * repeat (case_match; try done); injection Hstep as <-; by apply Hold.
        * repeat (case_match; try done); injection Hstep as <-; by apply Hold.
        * repeat (case_match; try done); injection Hstep as <-; by apply Hold.
        * repeat (case_match; try done); injection Hstep as <-; by apply Hold.
        * repeat (case_match; try done); injection Hstep as <-; by apply Hold.
        * destruct (z_tasks s1 !! i) as [[]|] eqn:Ei; try done. injection Hstep as <-. cbn [z_cache] in He.
          unfold g_set in He. apply lookup_insert_Some in He as [[<- <-]|[_ He]]; [|by apply Hold].
          destruct (Ht _ _ Ei) as (Hcall & Hne & tv & He & Htv). exists i, q, tv, (z_clock s1). cbn [ge_val ge_exp z_clock].
          split; [done|]. split; [by apply evaluated_mono|]. split; [|split; [lia|done]]. exists s1. split; [by apply occurs_last|done].
        * destruct (z_cache s1 !! k') as [e'|]; [|done]. destruct (g_valid (z_clock s1) e'); [done|]. injection Hstep as <-.
          cbn [z_cache] in He. apply lookup_delete_Some in He as [_ He]. by apply Hold.
        * injection Hstep as <-. cbn in He. by rewrite lookup_empty in He.
  Qed.

  (** The request of a call never changes. *)
  Lemma call_unique cf n t0 ls s : zrun K X cf ls (zinit n t0) = Some s -> forall j q q', ZCall K j q ∈ ls -> ZCall K j q' ∈ ls -> q = q'.
  Proof.
    assert (forall ls s, zrun K X cf ls (zinit n t0) = Some s -> forall j q, ZCall K j q ∈ ls -> exists t, z_tasks s !! j = Some t /\ t <> CIdle) as Hstart.
    { clear. intros ls. induction ls as [|l ls IH] using rev_ind; intros s H j q Hin; [by apply elem_of_nil in Hin|].
      apply zrun_snoc in H as (s1 & Hr & Hstep).
      assert ((exists t, z_tasks s1 !! j = Some t /\ t <> CIdle) -> exists t, z_tasks s !! j = Some t /\ t <> CIdle) as Hkeep.
      { intros (t & Ht & Hne). assert (j < length (z_tasks s1))%nat as Hlt by (by apply lookup_lt_Some in Ht).
        destruct l as [t'|i q'|i|i ks|i o|i r|i|k'|]; cbn [zstep] in Hstep.
        - destruct (z_clock s1 <=? t'); [|done]. injection Hstep as <-. eauto.
        - destruct (z_tasks s1 !! i) as [[]|] eqn:Ei; try done. injection Hstep as <-. cbn. destruct (decide (i = j)) as [->|]; [congruence|].
          rewrite list_lookup_insert_ne by done. eauto.
        - destruct (z_tasks s1 !! i) as [[]|] eqn:Ei; try done. injection Hstep as <-. cbn. destruct (decide (i = j)) as [->|]; [|rewrite list_lookup_insert_ne by done; eauto].
          rewrite list_lookup_insert by done. eexists. split; [done|]. by destruct (g_get _ _ _).
        - destruct (z_tasks s1 !! i) as [[]|] eqn:Ei; try done. injection Hstep as <-. cbn. destruct (decide (i = j)) as [->|]; [|rewrite list_lookup_insert_ne by done; eauto].
          rewrite list_lookup_insert by done. eexists. split; [done|]. destruct (process K X cf ks (z_clock s1) q0); [|done|done]. by destruct (z_policy cf).
        - destruct (z_tasks s1 !! i) as [[]|] eqn:Ei; try done. injection Hstep as <-. cbn. destruct (decide (i = j)) as [->|]; [|rewrite list_lookup_insert_ne by done; eauto].
          rewrite list_lookup_insert by done. eexists. split; [done|]. by destruct (target cf o p q0) as [[]| |].
        - destruct (z_tasks s1 !! i) as [[]|] eqn:Ei; try done. injection Hstep as <-. cbn. destruct (decide (i = j)) as [->|]; [|rewrite list_lookup_insert_ne by done; eauto].
          rewrite list_lookup_insert by done. eexists. split; [done|]. by destruct r.
        - destruct (z_tasks s1 !! i) as [[]|] eqn:Ei; try done. injection Hstep as <-. cbn. destruct (decide (i = j)) as [->|]; [|rewrite list_lookup_insert_ne by done; eauto].
          rewrite list_lookup_insert by done. eauto.
        - destruct (z_cache s1 !! k') as [e|]; [|done]. destruct (g_valid (z_clock s1) e); [done|]. injection Hstep as <-. eauto.
        - injection Hstep as <-. eauto. }
      apply elem_of_app in Hin as [Hin|Hin]; [by eapply Hkeep, IH|]. apply elem_of_list_singleton in Hin as <-. cbn [zstep] in Hstep.
      destruct (z_tasks s1 !! j) as [[]|] eqn:Ej; try done. injection Hstep as <-. cbn. rewrite list_lookup_insert by (by apply lookup_lt_Some in Ej).
      eexists. split; [done|]. by destruct (empty_params cf q). }
    revert s. induction ls as [|l ls IH] using rev_ind; intros s H j q q' Hq Hq'; [by apply elem_of_nil in Hq|].
    apply zrun_snoc in H as (s1 & Hr & Hstep). apply elem_of_app in Hq as [Hq|Hq], Hq' as [Hq'|Hq'].
    - by eapply IH.
    - apply elem_of_list_singleton in Hq' as <-. destruct (Hstart _ _ Hr _ _ Hq) as (t & Ht & Hne). cbn [zstep] in Hstep. rewrite Ht in Hstep. by destruct t.
    - apply elem_of_list_singleton in Hq as <-. destruct (Hstart _ _ Hr _ _ Hq') as (t & Ht & Hne). cbn [zstep] in Hstep. rewrite Ht in Hstep. by destruct t.
    - apply elem_of_list_singleton in Hq, Hq'. congruence.
  Qed.
End facts.
