(** * Property C85: how long a revoked policy may still count *)
From Verif Require Import Joint Prop_Timed Prop_System Prop_Window Prop_Revoke SystemFacts SystemExec.
From Verif Require Import GoStrings.

Section claims.
  Context (K : crypto) (X : jwt_ext) {O : Type} (U : unicode) (parse : str -> option (verifier K)).
  Context (cf : @sconf O) (t0 : time) (n nk nj nu : nat) (calls : nat -> list bool).
  Notation s0 := (yinit K cf t0 n nk nj nu calls).
  Notation yrun := (yrun K X U parse cf s0).
  Notation happened := (happened K X U parse cf s0).
  Notation passed := (passed K X U parse cf s0).
  Notation published_by := (published_by K X U parse cf s0).
  Notation ylabel := (@ylabel K O).
  Notation joint_label := (@joint_label K O).
  Notation now := (now K).
  Notation ystep := (ystep K X U parse cf).
  Notation own_calls := (own_calls K X U parse cf t0 n nk nj nu calls).
  Notation served := (served K X U parse cf t0 n nk nj nu calls).
  Notation updated_since := (updated_since K X U parse cf t0 n nk nj nu calls).
  Context (c : timing) (pre : str).
  Notation joint_step := (joint_step K X U parse cf c pre).
  Notation sysl := (sysl K).
  Notation loopl := (loopl K).

  (** ** Specification *)
  (** Updates from number [nx] on have not been called. *)
  Definition uncalled (s : sys K) (nx : nat) : Prop := forall m u, (nx <= m)%nat -> y_upd K s !! m = Some u -> u_spawned u = 0%nat /\ u_ret u = None.
  (** Every policy check is over within [d]. *)
  Definition checks_within (ls : list ylabel) (s : sys K) (d : duration) : Prop :=
    forall l1 s1, passed ls l1 s1 -> now s1 + d < now s ->
    exists l2 s2, passed l2 l1 s1 /\ passed ls l2 s2 /\ now s2 <= now s1 + d /\
      forall j k, y_chk K s1 !! j = Some (Some k) -> exists q r, z_tasks (y_auth K s2) !! j = Some (CDone q r).

  (** ** Facts *)
  Lemma clock_step l s s' : ystep l s s' -> match l with YAuth _ (ZTick _ _) => False | _ => True end -> now s' = now s.
  Proof.
    unfold System.now. destruct 1 as [s l z Hz _| | | | | | | | | | | |]; intros Hl; try done. cbn [set_auth y_auth].
    destruct l; cbn [zstep] in Hz; try done; repeat (case_match; try done); injection Hz as <-; done.
  Qed.
  Lemma omap_split {A C} (f : A -> option C) l a y b : omap f l = a ++ y :: b -> exists l1 x l2, l = l1 ++ x :: l2 /\ omap f l1 = a /\ f x = Some y /\ omap f l2 = b.
  Proof.
    revert a. induction l as [|x l IH]; intros a H; [by destruct a|]. cbn in H. destruct (f x) as [z|] eqn:E.
    - destruct a as [|z' a]; cbn in H.
      + injection H as -> <-. by exists [], x, l.
      + injection H as -> H. destruct (IH a H) as (l1 & x' & l2 & -> & <- & Hx & <-). exists (x :: l1), x', l2. split_and!; try done. cbn. by rewrite E.
    - destruct (IH a H) as (l1 & x' & l2 & -> & <- & Hx & <-). exists (x :: l1), x', l2. split_and!; try done. cbn. by rewrite E.
  Qed.
  Lemma tstep_det k t l s s1 s2 : tstep c k pre t l s s1 -> tstep c k pre t l s s2 -> s1 = s2.
  Proof. intros H1 H2. destruct H1; inversion H2; subst; [done|]. by simplify_eq. Qed.
  Lemma joint_step_det l j j1 j2 : joint_step l j j1 -> joint_step l j j2 -> j1 = j2.
  Proof.
    assert (forall l s s1 s2, ystep l s s1 -> ystep l s s2 -> s1 = s2) as Hdet by (intros; by eapply ystep_det).
    destruct 1 as [j l s' Hs Hok|j t s' d' Hs Ht|j l d' Hl Ht _ _|j m u r e d' Ht _ _ _ _|j l d' Hl Ht]; inversion 1; subst;
      repeat match goal with H1 : ystep ?l ?s ?a, H2 : ystep ?l ?s ?b |- _ => assert (a = b) as -> by (by eapply Hdet); clear H1 end;
      repeat match goal with H1 : tstep _ _ _ _ _ _ ?a, H2 : tstep _ _ _ _ _ _ ?b |- _ => assert (a = b) as -> by (by eapply tstep_det); clear H1 end; try done.
    all: exfalso; naive_solver.
  Qed.

  Section start.
  Context (ls0 : list ylabel) (sb : sys K) (nx0 : nat) (Hb : yrun ls0 sb) (Hnew : uncalled sb nx0).
  Notation j0 := (jstart K c sb nx0).
  Notation joint_run := (joint_run K X U parse cf c pre j0).
  Lemma joint_run_snoc js l j' : joint_run (js ++ [l]) j' -> exists j, joint_run js j /\ joint_step l j j'.
  Proof. intros H. inversion H as [Hx|? ? ? ? ? ? Hx]; [by destruct js|]. apply app_inj_tail in Hx as [-> ->]. eauto. Qed.
  Lemma joint_run_det js j j' : joint_run js j -> joint_run js j' -> j = j'.
  Proof.
    revert j j'. induction js as [|l js IH] using rev_ind; intros j j' H1 H2.
    - inversion H1 as [|? ? ? ? ? ? Hx]; [|by destruct js]. inversion H2 as [|? ? ? ? ? ? Hx]; [done|by destruct js].
    - apply joint_run_snoc in H1 as (a & H1 & S1), H2 as (b & H2 & S2). assert (a = b) as -> by (by apply IH). by eapply joint_step_det.
  Qed.
  Lemma joint_run_split a b j : joint_run (a ++ b) j -> exists j1, joint_run a j1.
  Proof.
    revert j. induction b as [|l b IH] using rev_ind; intros j H; [rewrite app_nil_r in H; eauto|]. rewrite app_assoc in H. apply joint_run_snoc in H as (j1 & H & _). by eapply IH.
  Qed.
  Lemma joint_run_at a l b j : joint_run (a ++ l :: b) j -> exists j1 j2, joint_run a j1 /\ joint_step l j1 j2 /\ joint_run (a ++ [l]) j2.
  Proof.
    intros H. replace (a ++ l :: b) with ((a ++ [l]) ++ b) in H by (by rewrite <- app_assoc). destruct (joint_run_split _ _ _ H) as (j2 & H2). pose proof H2 as H3. apply joint_run_snoc in H3 as (j1 & H1 & Hs). eauto.
  Qed.
  Lemma sysl_app (a b : list joint_label) : sysl (a ++ b) = sysl a ++ sysl b.
  Proof. apply omap_app. Qed.
  Lemma loopl_app (a b : list joint_label) : loopl (a ++ b) = loopl a ++ loopl b.
  Proof. apply omap_app. Qed.
  Lemma joint_run_sys js j : joint_run js j -> yrun (ls0 ++ sysl js) (j_sys K j).
  Proof.
    induction 1 as [|js l j j' _ IH Hs]; [by rewrite app_nil_r|]. rewrite sysl_app, app_assoc.
    destruct Hs; cbn; rewrite ?app_nil_r; try done; (eapply Y_snoc; [exact IH|done]).
  Qed.
  Lemma joint_run_loop js j : joint_run js j -> trun c Sending pre (loopl js) (tinit c (now sb)) (j_loop K j) /\ t_now (j_loop K j) = now (j_sys K j).
  Proof.
    induction 1 as [|js l j j' _ [IH1 IH2] Hs]; [split; [constructor|done]|]. rewrite loopl_app.
    destruct Hs as [j l s' Hs Hok|j t s' d' Hs Ht|j l d' Hl Ht _ _|j m u r e d' Ht _ _ _ _|j l d' Hl Ht]; cbn [omap list_omap Joint.loopl j_loop j_sys].
    - rewrite app_nil_r. split; [done|]. rewrite IH2. symmetry. apply (clock_step _ _ _ Hs). by destruct l.
    - split; [apply trun_app; exists (j_loop K j); split; [done|]; econstructor; [exact Ht|constructor]|].
      inversion Ht; subst. cbn [t_now]. inversion Hs as [? ? ? Hz| | | | | | | | | | | |]; subst. cbn [zstep] in Hz. case_match; [|done]. by injection Hz as <-.
    - split; [apply trun_app; exists (j_loop K j); split; [done|]; econstructor; [exact Ht|constructor]|]. by inversion Ht.
    - split; [apply trun_app; exists (j_loop K j); split; [done|]; econstructor; [exact Ht|constructor]|]. by inversion Ht.
    - split; [apply trun_app; exists (j_loop K j); split; [done|]; econstructor; [exact Ht|constructor]|]. by inversion Ht.
  Qed.
  Lemma upd_other l s s' m : ystep l s s' -> match l with YUpd _ k _ | YTake _ k _ _ _ => k <> m | _ => True end -> y_upd K s' !! m = y_upd K s !! m.
  Proof. destruct 1; intros Hk; try done; cbn [set_upd publish y_upd]; by rewrite list_lookup_insert_ne. Qed.
  Lemma joint_run_inv js j : joint_run js j -> (nx0 <= j_nx K j)%nat /\ (forall m, j_cur K j = Some m -> S m = j_nx K j /\ (nx0 <= m)%nat) /\ uncalled (j_sys K j) (j_nx K j).
  Proof.
    induction 1 as [|js l j j' _ (I1 & I2 & I3) Hs]; [by split|].
    destruct Hs as [j l s' Hs Hok|j t s' d' Hs Ht|j l d' Hl Ht _ _|j m u r e d' Ht _ _ _ _|j l d' Hl Ht]; cbn [j_nx j_cur j_sys].
    - split; [done|]. split; [done|]. intros m u Hm Hu. apply (I3 m u Hm). rewrite <- Hu. symmetry. apply (upd_other l); [done|].
      destruct l; try done; cbn in Hok; [|intros ->; lia]. destruct l; [intros ->; lia|apply I2 in Hok; intros ->; lia|intros ->; lia|apply I2 in Hok; intros ->; lia].
    - split; [done|]. split; [done|]. intros m u Hm Hu. apply (I3 m u Hm). rewrite <- Hu. symmetry. by apply (upd_other _ _ _ _ Hs).
    - split; [lia|]. split; [intros m [= <-]; lia|]. intros m u Hm. apply I3. lia.
    - by split.
    - by split.
  Qed.
  Lemma nx_mono a b j1 j : joint_run a j1 -> joint_run (a ++ b) j -> (j_nx K j1 <= j_nx K j)%nat.
  Proof.
    intros H1. revert j. induction b as [|l b IH] using rev_ind; intros j H; [rewrite app_nil_r in H; assert (j1 = j) as -> by (by eapply joint_run_det); lia|].
    rewrite app_assoc in H. apply joint_run_snoc in H as (j2 & H & Hs). specialize (IH _ H). destruct Hs; cbn; lia.
  Qed.
  Lemma now_mono a b j1 j : joint_run a j1 -> joint_run (a ++ b) j -> now (j_sys K j1) <= now (j_sys K j).
  Proof. intros H1 H2. apply joint_run_sys in H1, H2. rewrite sysl_app, app_assoc in H2. by eapply yrun_clock. Qed.
  Lemma objs_mono a b j1 j : joint_run a j1 -> joint_run (a ++ b) j -> (length (y_objs K (j_sys K j1)) <= length (y_objs K (j_sys K j)))%nat.
  Proof. intros H1 H2. apply joint_run_sys in H1, H2. rewrite sysl_app, app_assoc in H2. by eapply yrun_objs. Qed.
  Lemma jcur_mono a b j1 j : joint_run a j1 -> joint_run (a ++ b) j -> (y_cur K (j_sys K j1) <= y_cur K (j_sys K j))%nat.
  Proof. intros H1 H2. apply joint_run_sys in H1, H2. rewrite sysl_app, app_assoc in H2. by eapply cur_mono. Qed.
  (** A successful Update has published. *)
  Lemma has_published js j m u : joint_run js j -> y_upd K (j_sys K j) !! m = Some u -> u_ret u = Some (Ok tt) -> (nx0 <= m)%nat ->
    exists a b j1 j2, js = a ++ b /\ joint_run a j2 /\ j_cur K j1 = Some m /\ (exists a', a = a' ++ [JSys K (YUpd K m UFinish)] /\ joint_run a' j1) /\ y_cur K (j_sys K j2) = length (y_objs K (j_sys K j1)).
  Proof.
    intros H. revert u. induction H as [|js l j j' Hj IH Hs]; intros u Hu Hret Hm.
    - destruct (Hnew m u Hm Hu) as [_ Hx]. congruence.
    - assert (joint_run (js ++ [l]) j') as Hj' by (by econstructor).
      assert ((exists u, y_upd K (j_sys K j) !! m = Some u /\ u_ret u = Some (Ok tt)) -> exists a b j1 j2, js ++ [l] = a ++ b /\ joint_run a j2 /\ j_cur K j1 = Some m /\ (exists a', a = a' ++ [JSys K (YUpd K m UFinish)] /\ joint_run a' j1) /\ y_cur K (j_sys K j2) = length (y_objs K (j_sys K j1))) as Hold.
      { intros (u0 & Hu0 & Hr0). destruct (IH u0 Hu0 Hr0 Hm) as (a & b & j1 & j2 & -> & ? & ? & ? & ?). exists a, (b ++ [l]), j1, j2. by rewrite app_assoc. }
      destruct Hs as [j l s' Hs Hok|j t s' d' Hs Ht|j l d' Hl Ht _ _|j m' u' r e d' Ht _ _ _ _|j l d' Hl Ht]; cbn [j_sys] in *; try (apply Hold; by exists u).
      2:{ apply Hold. exists u. split; [|done]. rewrite <- Hu. symmetry. by apply (upd_other _ _ _ _ Hs). }
      remember (j_sys K j) as sj eqn:Esj. destruct Hs as [| | | | |s k l u0 u1 Hu0 Hst Hin Hfin|s k w cl script exp doc u0 u1 Hu0 Ha Hsc Hst|s k u0 u1 Hu0 Hst Hok1| | | | |]; try (apply Hold; by exists u); cbn [set_upd publish y_upd] in Hu.
      + destruct (decide (k = m)) as [->|Hne]; [|rewrite list_lookup_insert_ne in Hu by done; apply Hold; by exists u].
        rewrite list_lookup_insert in Hu by (by eapply lookup_lt_Some). injection Hu as ->. destruct l.
        * apply Hold. exists u0. split; [done|]. cbn in Hst. by injection Hst as <-.
        * exfalso. cbn in Hst. repeat (case_match; try done); injection Hst as <-; done.
        * apply Hold. exists u0. split; [done|]. cbn [ustep] in Hst. repeat (case_match; try done); injection Hst as <-; done.
        * by destruct (Hfin eq_refl).
      + destruct (decide (k = m)) as [->|Hne]; [|rewrite list_lookup_insert_ne in Hu by done; apply Hold; by exists u].
        rewrite list_lookup_insert in Hu by (by eapply lookup_lt_Some). injection Hu as ->. apply Hold. exists u0. split; [done|]. cbn [ustep] in Hst. repeat (case_match; try done); injection Hst as <-; done.
      + destruct (decide (k = m)) as [->|Hne]; [|rewrite list_lookup_insert_ne in Hu by done; apply Hold; by exists u].
        cbn in Hok. eexists (js ++ [_]), [], j, _. rewrite app_nil_r. split; [done|]. split; [exact Hj'|]. split; [done|]. split; [by eexists|]. by rewrite <- Esj.
  Qed.
  (** Where a cache was published. *)
  Lemma where_published js j m ob : joint_run js j -> published_by (ls0 ++ sysl js) m ob -> (length (y_objs K sb) <= ob)%nat ->
    exists a b j1, js = a ++ JSys K (YUpd K m UFinish) :: b /\ joint_run a j1 /\ j_cur K j1 = Some m /\ ob = length (y_objs K (j_sys K j1)) /\
      exists j2, joint_run (a ++ [JSys K (YUpd K m UFinish)]) j2 /\ (ob < length (y_objs K (j_sys K j2)))%nat.
  Proof.
    intros H (l1 & s1 & s2 & [[l2 Hl] Hr1] & Hs & Hnone & Hsome) Hge.
    assert (ob = length (y_objs K s1)) as Hob.
    { inversion Hs; subst; cbn [set_upd publish y_objs] in Hsome; [rewrite Hnone in Hsome; by destruct Hsome|]. apply lookup_ge_None in Hnone. apply lookup_lt_is_Some in Hsome. rewrite app_length in Hsome. cbn in Hsome. lia. }
    assert (exists x, l1 = ls0 ++ x) as [x ->].
    { apply app_eq_inv in Hl as [(k & -> & Hk)|(k & -> & Hk)]; [|by eexists]. destruct k as [|y k]; [exists []; by rewrite !app_nil_r|]. cbn in Hk. injection Hk as <- Hk. exfalso.
      assert (yrun (l1 ++ [YUpd K m UFinish]) s2) as Hr2 by (by econstructor). replace (l1 ++ YUpd K m UFinish :: k) with ((l1 ++ [YUpd K m UFinish]) ++ k) in Hb by (by rewrite <- app_assoc).
      pose proof (yrun_objs K X U parse cf t0 n nk nj nu calls _ _ _ _ Hr2 Hb). apply lookup_lt_is_Some in Hsome. lia. }
    rewrite <- app_assoc in Hl. apply app_inv_head in Hl. apply omap_split in Hl as (a & lab & b & -> & <- & Hlab & _).
    assert (lab = JSys K (YUpd K m UFinish)) as -> by (destruct lab; simplify_eq; done).
    destruct (joint_run_at _ _ _ _ H) as (j1 & j2 & H1 & Hst & H2). exists a, b, j1. split; [done|]. split; [done|].
    assert (s1 = j_sys K j1) as -> by (eapply yrun_det; [exact Hr1|by apply joint_run_sys]). split; [by inversion Hst|]. split; [done|]. exists j2. split; [done|].
    inversion Hst as [? ? s' Hst' Hok| | | |]; subst. cbn [j_sys]. assert (s' = s2) as -> by (by eapply ystep_det). by apply lookup_lt_is_Some in Hsome.
  Qed.
  Lemma prefixes (a b : list joint_label) x y : a ++ x = b ++ y -> (exists z, b = a ++ z) \/ (exists z, a = b ++ z /\ z <> []).
  Proof.
    intros H. apply app_eq_inv in H as [(k & -> & _)|(k & -> & _)]; [|left; by eexists]. destruct k as [|z k]; [left; exists []; by rewrite !app_nil_r|right; by eexists].
  Qed.

  Lemma call_step v l j j' : l = RRetry \/ l = RFire -> joint_step (JLoop K v l) j j' -> now (j_sys K j) = v /\ j_nx K j' = S (j_nx K j).
  Proof.
    intros Hl H. remember (JLoop K v l) as lab eqn:E. destruct H as [| |j l2 d' Hl2 Ht Hs Hc|j m u r e d' Ht Hc Hu Hr Hrep|j l2 d' Hl2 Ht]; try discriminate E; injection E as E1 E2; [by split| |]; subst l; [by destruct Hl|]. by destruct Hl as [-> | ->].
  Qed.
  Lemma return_step v j j' : joint_step (JLoop K v (RUpdated None)) j j' ->
    exists m um, j_cur K j = Some m /\ y_upd K (j_sys K j) !! m = Some um /\ u_ret um = Some (Ok tt) /\ now (j_sys K j) = v.
  Proof.
    intros H. remember (JLoop K v (RUpdated None)) as lab eqn:E. destruct H as [| |j l d' Hl Ht Hs Hc|j m u r e d' Ht Hc Hu Hr Hrep|j l d' Hl Ht]; try discriminate E; injection E as E1 E2.
    - subst l. by destruct Hl.
    - subst e. exists m, u. split_and!; try done. rewrite Hr. f_equal. by apply Hrep.
    - by subst l.
  Qed.

  (** Since [jr] an Update has begun and published its cache, within a refresh period, a turn of the
      loop and an Update. *)
  Lemma fresh_cache js j jr sr x t : sensible c -> joint_run js j -> js = jr ++ x -> joint_run jr sr ->
    uncancelled (loopl js) -> read c Sending pre (tinit c (now sb)) (loopl js) ->
    now (j_sys K sr) <= t -> (forall v e, (v, Some (RUpdated (Some e))) ∈ loopl js -> v <= t) ->
    t + (c_refresh c + turn c + c_update c) < now (j_sys K j) ->
    exists la sv, passed (ls0 ++ sysl js) la sv /\ now sv <= t + (c_refresh c + turn c + c_update c) /\
      updated_since (ls0 ++ sysl js) (j_sys K sr) sv.
  Proof.
    intros Hc Hj -> Hjr Hunc Hread Ht Hfail Hsc.
    pose proof (joint_run_sys _ _ Hj) as Hy. destruct (joint_run_loop _ _ Hj) as [Htr Hnow].
    assert (now sb <= now (j_sys K sr)) as Hsb by (eapply yrun_clock; [exact Hb|exact (joint_run_sys _ _ Hjr)]).
    destruct (C84_freshness c Sending pre (now sb) _ _ t Hc Htr Hunc Hread Hfail) as (tr1 & u & l & tr2 & v & tr3 & Etr & Hbe & Hu & Hv); [lia|rewrite Hnow; lia|].
    apply omap_split in Etr as (a & lab & rest & Ea & _ & Hlab & Erest). apply omap_split in Erest as (b & lab2 & r3 & -> & _ & Hlab2 & _).
    assert (exists l', lab = JLoop K u l' /\ (l' = RRetry \/ l' = RFire)) as (l' & -> & Hl').
    { destruct lab as [|t'|t' l']; simplify_eq; [by destruct Hbe|]. exists l'. split; [done|]. destruct Hbe as [[= ->]|[= ->]]; auto. }
    assert (lab2 = JLoop K v (RUpdated None)) as -> by (destruct lab2; by simplify_eq). clear Hlab Hlab2.
    rewrite Ea in Hj. destruct (joint_run_at _ _ _ _ Hj) as (ja & ja' & Hja & Hsa & Hja').
    assert (joint_run ((a ++ JLoop K u l' :: b) ++ JLoop K v (RUpdated None) :: r3) j) as Hj2 by (by rewrite <- app_assoc).
    destruct (joint_run_at _ _ _ _ Hj2) as (jv & jv' & Hjv & Hsv' & Hjv').
    assert (now (j_sys K ja) = u /\ j_nx K ja' = S (j_nx K ja)) as [Hnu Hnx] by (by eapply call_step).
    assert (exists m um, j_cur K jv = Some m /\ y_upd K (j_sys K jv) !! m = Some um /\ u_ret um = Some (Ok tt) /\ now (j_sys K jv) = v) as (m & um & Hcur & Hum & Hret & Hnv).
    { by apply (return_step v jv jv'). }
    (* the Update began after the change *)
    assert (j_nx K sr <= j_nx K ja)%nat as Hle.
    { destruct (prefixes _ _ _ _ Ea) as [[y ->]|(y & -> & _)]; [by eapply nx_mono|]. pose proof (now_mono _ _ _ _ Hja Hjr). lia. }
    assert (j_nx K ja < j_nx K jv)%nat as Hlt.
    { assert (j_nx K ja' <= j_nx K jv)%nat; [|lia]. eapply (nx_mono (a ++ [JLoop K u l']) b); [done|]. by rewrite <- app_assoc. }
    destruct (joint_run_inv _ _ Hjv) as (_ & Hinv & _). destruct (Hinv m Hcur) as [Hm1 Hm2].
    destruct (has_published _ _ _ _ Hjv Hum Hret Hm2) as (pa & pb & jp & jp2 & Epub & Hjp2 & Hcp & (pa' & -> & Hjp) & Hcurp).
    destruct (joint_run_inv _ _ Hjp) as (_ & Hinvp & _). destruct (Hinvp m Hcp) as [Hm3 _].
    set (js := jr ++ x) in *.
    assert (js = pa' ++ JSys K (YUpd K m UFinish) :: pb ++ JLoop K v (RUpdated None) :: r3) as Ejs.
    { rewrite Ea. transitivity ((a ++ JLoop K u l' :: b) ++ JLoop K v (RUpdated None) :: r3); [by rewrite <- app_assoc|]. rewrite Epub, <- !app_assoc. done. }
    (* the change precedes the publication *)
    assert (exists y, pa' = jr ++ y) as [y Ey].
    { unfold js in Ejs. destruct (prefixes _ _ _ _ Ejs) as [[y ->]|(y & -> & _)]; [by eexists|]. pose proof (nx_mono _ _ _ _ Hjp Hjr). lia. }
    assert (length (y_objs K (j_sys K jp)) <= y_cur K (j_sys K jv))%nat as Hpubcur.
    { rewrite <- Hcurp. rewrite Epub in Hjv. by eapply jcur_mono. }
    assert (updated_since (ls0 ++ sysl js) (j_sys K sr) (j_sys K jv)) as Hup.
    { split.
      - subst pa'. pose proof (objs_mono _ _ _ _ Hjr Hjp). lia.
      - intros ob m' u' Hob Hpub Hu'. assert (length (y_objs K sb) <= ob)%nat as Hgeb.
        { pose proof (yrun_objs K X U parse cf t0 n nk nj nu calls _ _ _ _ Hb (joint_run_sys _ _ Hjp)). lia. }
        rewrite <- Ea in Hj. destruct (where_published _ _ _ _ Hj Hpub Hgeb) as (qa & qb & jq & Eq & Hjq & Hcq & Hobq & jq2 & Hq2 & Hlen).
        destruct (joint_run_inv _ _ Hjr) as (_ & _ & Hun). apply (Hun m' u'); [|done]. destruct (joint_run_inv _ _ Hjq) as (_ & Hinvq & _). destruct (Hinvq m' Hcq) as [Hm4 _].
        rewrite Ejs in Eq. destruct (prefixes _ _ _ _ Eq) as [[w ->]|(w & -> & Hw)].
        + pose proof (nx_mono _ _ _ _ Hjp Hjq). lia.
        + exfalso. destruct w as [|w1 w]; [done|]. rewrite <- app_assoc in Eq. apply app_inv_head in Eq. cbn in Eq. injection Eq as -> _.
          replace (qa ++ JSys K (YUpd K m' UFinish) :: w) with ((qa ++ [JSys K (YUpd K m' UFinish)]) ++ w) in Hjp by (by rewrite <- app_assoc).
          pose proof (objs_mono _ _ _ _ Hq2 Hjp). lia. }
    assert (passed (ls0 ++ sysl js) (ls0 ++ sysl (a ++ JLoop K u l' :: b)) (j_sys K jv)) as Hpv.
    { split; [|by apply joint_run_sys]. exists (sysl (JLoop K v (RUpdated None) :: r3)). rewrite <- app_assoc, <- sysl_app. rewrite Ea. by rewrite <- app_assoc. }
    eexists _, _. split; [exact Hpv|]. split; [lia|done].
  Qed.

  (** ** Theorem *)
  (** From [jr] on the server speaks of policies satisfying [P] only, and from time [t] on Updates
      succeed.  Calls that begin later than [t] by a refresh period, a turn of the loop, an Update, a
      check and the time results are cached are granted by such policies only. *)
  Theorem C85_revocation_latency js j jr sr x t d P i q p lc sc : sensible c -> 0 <= d ->
    joint_run js j -> js = jr ++ x -> joint_run jr sr ->
    z_policy (s_z cf) = true -> 0 < z_exp (s_z cf) -> 0 <= t0 -> now (j_sys K j) + z_exp (s_z cf) <= max_int64 ->
    (* the surroundings *)
    own_calls (ls0 ++ sysl js) -> checks_within (ls0 ++ sysl js) (j_sys K j) d ->
    uncancelled (loopl js) -> read c Sending pre (tinit c (now sb)) (loopl js) ->
    (* the server *)
    served (ls0 ++ sysl js) (ls0 ++ sysl jr) P -> now (j_sys K sr) <= t -> (forall v e, (v, Some (RUpdated (Some e))) ∈ loopl js -> v <= t) ->
    (* the call *)
    happened (ls0 ++ sysl js) (YAuth K (ZCall K i q)) lc sc -> t + (c_refresh c + turn c + c_update c) + d + z_exp (s_z cf) < now sc ->
    z_tasks (y_auth K (j_sys K j)) !! i = Some (CDone q (Ok p)) ->
    exists q' p0 o a r, cache_key (s_z cf) q' = cache_key (s_z cf) q /\ target (s_z cf) o p0 q' = Ok (a, r) /\
      pr_domain p = pr_domain p0 /\ pr_roles p = pr_roles p0 /\ pr_auth p <> [] /\
      forall role, role ∈ pr_auth p -> role ∈ pr_roles p /\
        exists sp exp doc, P sp /\ content sp exp doc /\ doc_allows U (pr_domain p) a r doc role.
  Proof.
    intros Hc Hd Hj Ejs Hjr Hpol Hexp Ht0 Hmax Hown Hchk Hunc Hread Hsv Ht Hfail Hcall Hlate Hdone.
    pose proof (joint_run_sys _ _ Hj) as Hy. pose proof Hcall as [[z Hz] Hrc].
    assert (now sc <= now (j_sys K j)) as Hsc by (rewrite Hz in Hy; by eapply yrun_clock).
    destruct (fresh_cache _ _ _ _ _ t Hc Hj Ejs Hjr Hunc Hread Ht Hfail) as (la & sv & Hpv & Hnv & Hup); [lia|].
    destruct (Hchk _ _ Hpv) as (l2 & s2 & Hp1 & Hp2 & Hn2 & Hends); [lia|].
    apply (C77_revocation K X U parse cf t0 n nk nj nu calls (ls0 ++ sysl js) (j_sys K j) (ls0 ++ sysl jr) (j_sys K sr) P la sv l2 s2 i q p lc sc); try done.
    - split; [|by apply joint_run_sys]. exists (sysl x). by rewrite Ejs, sysl_app, app_assoc.
    - intros j' q' k _ _ Hk. by eapply Hends.
    - lia.
  Qed.
  End start.
End claims.

(** ** Running the joint machine *)
Section exec.
  Context (K : crypto) (X : jwt_ext) {O : Type} (U : unicode) (parse : str -> option (verifier K)) (cf : @sconf O) (c : timing) (pre : str).
  Inductive jcmd := JC (d : @cmd O) | JL (l : rlabel).
  Definition upd_okb (j : joint K) (l : @ylabel K O) : bool :=
    match l with
    | YUpd _ m USpawn | YUpd _ m UFinish => bool_decide (j_cur K j = Some m)
    | YUpd _ m _ | YTake _ m _ _ _ => bool_decide (m < j_nx K j)%nat
    | YAuth _ (ZTick _ _) => false
    | _ => true
    end.
  Definition jexec (d : jcmd) (j : joint K) : option (@joint_label K O * joint K) :=
    match d with
    | JC d =>
        match yexec K X U parse cf d (j_sys K j) with
        | Some (YAuth _ (ZTick _ t) as l, s') =>
            match tstepf c Sending pre (t, None) (j_loop K j) with
            | Some d' => Some (JTick K t, Joint K s' d' (j_cur K j) (j_nx K j))
            | None => None
            end
        | Some (l, s') => if upd_okb j l then Some (JSys K l, Joint K s' (j_loop K j) (j_cur K j) (j_nx K j)) else None
        | None => None
        end
    | JL l =>
        match tstepf c Sending pre (now K (j_sys K j), Some l) (j_loop K j) with
        | Some d' =>
            match l with
            | RRetry | RFire =>
                match j_cur K j, y_upd K (j_sys K j) !! j_nx K j with
                | None, Some _ => Some (JLoop K (now K (j_sys K j)) l, Joint K (j_sys K j) d' (Some (j_nx K j)) (S (j_nx K j)))
                | _, _ => None
                end
            | RUpdated None =>
                match j_cur K j with
                | Some m =>
                    match y_upd K (j_sys K j) !! m with
                    | Some u => match u_ret u with Some (Ok _) => Some (JLoop K (now K (j_sys K j)) l, Joint K (j_sys K j) d' None (j_nx K j)) | _ => None end
                    | None => None
                    end
                | None => None
                end
            | RUpdated _ => None
            | _ => Some (JLoop K (now K (j_sys K j)) l, Joint K (j_sys K j) d' (j_cur K j) (j_nx K j))
            end
        | None => None
        end
    end.
  Fixpoint jdrive (cs : list jcmd) (acc : list (@joint_label K O * joint K)) (j : joint K) : option (list (@joint_label K O * joint K) * joint K) :=
    match cs with
    | [] => Some (acc, j)
    | d :: cs => match jexec d j with Some (l, j') => jdrive cs ((l, j) :: acc) j' | None => None end
    end.
  Lemma jexec_sound d j l j' : jexec d j = Some (l, j') -> joint_step K X U parse cf c pre l j j'.
  Proof.
    destruct d as [d|r]; cbn [jexec].
    - destruct (yexec K X U parse cf d (j_sys K j)) as [[y s']|] eqn:E; [|done]. apply yexec_sound in E. intros H.
      assert ((exists t, y = YAuth K (ZTick K t)) \/ (if upd_okb j y then Some (JSys K y, Joint K s' (j_loop K j) (j_cur K j) (j_nx K j)) else None) = Some (l, j')) as [[t ->]|Hx].
      { destruct y as [zl| | | | | | | | | | |]; try (by right). destruct zl; try (by right). left. by eexists. }
      + destruct (tstepf c Sending pre (t, None) (j_loop K j)) as [d'|] eqn:Et; [|done]. injection H as <- <-. apply tstepf_sound in Et. by constructor.
      + destruct (upd_okb j y) eqn:Eo; [|done]. injection Hx as <- <-. constructor; [done|]. unfold upd_okb in Eo. unfold upd_ok.
        destruct y; try done; repeat case_match; try done; by apply bool_decide_eq_true in Eo.
    - destruct (tstepf c Sending pre (now K (j_sys K j), Some r) (j_loop K j)) as [d'|] eqn:Et; [|done]. apply tstepf_sound in Et. cbn [fst snd] in Et. destruct r as [| | | | |e| |]; intros H.
      + injection H as <- <-. by apply JS_loop.
      + injection H as <- <-. by apply JS_loop.
      + injection H as <- <-. by apply JS_loop.
      + destruct (j_cur K j) eqn:Ec; [done|]. destruct (y_upd K (j_sys K j) !! j_nx K j) eqn:Eu; [|done]. injection H as <- <-. apply JS_call; auto; by eexists.
      + destruct (j_cur K j) eqn:Ec; [done|]. destruct (y_upd K (j_sys K j) !! j_nx K j) eqn:Eu; [|done]. injection H as <- <-. apply JS_call; auto; by eexists.
      + destruct e as [e|]; [done|]. destruct (j_cur K j) as [m|] eqn:Ec; [|done]. destruct (y_upd K (j_sys K j) !! m) as [u|] eqn:Eu; [|done]. destruct (u_ret u) as [[[]| |]|] eqn:Er; try done. injection H as <- <-. eapply JS_return; try done.
      + injection H as <- <-. by apply JS_loop.
      + injection H as <- <-. by apply JS_loop.
  Qed.
  (** A trace with its states, newest first. *)
  Context (s0 : sys K).
  Notation yrun := (System.yrun K X U parse cf s0).
  Fixpoint chain (T : list (@ylabel K O * sys K)) (s : sys K) : Prop :=
    match T with [] => s = s0 | (l, s1) :: T => System.ystep K X U parse cf l s1 s /\ chain T s1 end.
  Lemma chain_run T s : chain T s -> yrun (rev T.*1) s.
  Proof.
    revert s. induction T as [|[l s1] T IH]; intros s; cbn [chain]; [intros ->; constructor|]. intros [Hs H]. cbn. econstructor; [by apply IH|done].
  Qed.
  Lemma chain_tail T1 T2 s : chain (T1 ++ T2) s -> exists s1, chain T2 s1.
  Proof. revert s. induction T1 as [|[l s1] T1 IH]; intros s; cbn; [eauto|]. intros [_ H]. by eapply IH. Qed.
  Lemma chain_passed T s l1 s1 : chain T s -> passed K X U parse cf s0 (rev T.*1) l1 s1 -> exists T2 T1, T = T2 ++ T1 /\ l1 = rev T1.*1 /\ chain T1 s1.
  Proof.
    intros H [[l2 E] Hr]. assert (T.*1 = rev l2 ++ rev l1) as E2 by (rewrite <- rev_app_distr, <- E, rev_involutive; done).
    apply fmap_app_inv in E2 as (T2 & T1 & E2 & E1 & ->). exists T2, T1. split; [done|]. rewrite <- E1, rev_involutive. split; [done|].
    destruct (chain_tail _ _ _ H) as [s2 H2]. pose proof (chain_run _ _ H2) as Hr2. rewrite <- E1, rev_involutive in Hr2. by assert (s1 = s2) as -> by (by eapply yrun_det).
  Qed.
  Lemma chain_at T2 l s1 T1 s : chain (T2 ++ (l, s1) :: T1) s -> happened K X U parse cf s0 (rev (T2 ++ (l, s1) :: T1).*1) l (rev T1.*1) s1.
  Proof.
    intros H. split; [exists (rev T2.*1); rewrite fmap_app, rev_app_distr; cbn; by rewrite <- app_assoc|]. apply chain_tail in H as [s2 [_ H]]. by apply chain_run.
  Qed.
  Lemma chain_in T s l s1 : chain T s -> (l, s1) ∈ T -> exists l1, passed K X U parse cf s0 (rev T.*1) l1 s1.
  Proof.
    intros H (T2 & T1 & ->)%elem_of_list_split. destruct (chain_at _ _ _ _ _ H) as [[x Hx] Hr]. exists (rev T1.*1). split; [|done]. rewrite Hx. by eexists.
  Qed.
  Lemma chain_happened T s l l1 s1 : chain T s -> happened K X U parse cf s0 (rev T.*1) l l1 s1 -> (l, s1) ∈ T.
  Proof.
    intros H [[l2 E] Hr]. assert (T.*1 = rev l2 ++ l :: rev l1) as E2.
    { assert (T.*1 = rev (l1 ++ l :: l2)) as -> by (by rewrite <- E, rev_involutive). rewrite rev_app_distr. cbn. by rewrite <- app_assoc. }
    apply fmap_app_inv in E2 as (T2 & T1 & E2 & E1 & ->). destruct T1 as [|[l' s2] T1]; [done|]. cbn in E1. injection E1 as <- E1.
    apply elem_of_app. right. destruct (chain_tail _ _ _ H) as (s3 & _ & H3). apply chain_run in H3. rewrite <- E1, rev_involutive in H3. assert (s1 = s2) as -> by (by eapply yrun_det). left.
  Qed.
  (** The system's part of a joint trace. *)
  Definition proj (tr : list (@joint_label K O * joint K)) : list (@ylabel K O * sys K) :=
    omap (fun '(l, j) => match l with JSys _ y => Some (y, j_sys K j) | JTick _ t => Some (YAuth K (ZTick K t), j_sys K j) | JLoop _ _ _ => None end) tr.
  Lemma proj_sysl tr : rev (proj tr).*1 = sysl K (rev tr.*1).
  Proof.
    induction tr as [|[l j] tr IH]; [done|]. cbn [fmap list_fmap rev fst]. unfold sysl. rewrite omap_app. fold (sysl K (rev tr.*1)). rewrite <- IH. destruct l; cbn; rewrite ?app_nil_r; done.
  Qed.
  Lemma drive_chain cs acc s tr s' : drive K X U parse cf cs acc s = Some (tr, s') -> chain acc s -> chain tr s'.
  Proof.
    revert acc s. induction cs as [|d cs IH]; intros acc s; cbn [drive]; [by intros [= <- <-]|]. destruct (yexec K X U parse cf d s) as [[l s1]|] eqn:E; [|done]. apply yexec_sound in E. intros H Hc. by apply (IH _ _ H).
  Qed.
  Context (j0 : joint K).
  Lemma jdrive_sound cs acc j acc' j' T : jdrive cs acc j = Some (acc', j') -> chain (proj acc ++ T) (j_sys K j) -> joint_run K X U parse cf c pre j0 (rev acc.*1) j ->
    chain (proj acc' ++ T) (j_sys K j') /\ joint_run K X U parse cf c pre j0 (rev acc'.*1) j' /\ exists x, acc' = x ++ acc.
  Proof.
    revert acc j. induction cs as [|d cs IH]; intros acc j; cbn [jdrive]; [intros [= <- <-]; split; [done|]; split; [done|]; by exists []|].
    destruct (jexec d j) as [[l j1]|] eqn:E; [|done]. apply jexec_sound in E. intros H Hc Hr. destruct (IH _ _ H) as (H1 & H2 & x & H3).
    - destruct E; cbn; try done.
    - cbn. by econstructor.
    - split; [done|]. split; [done|]. exists (x ++ [(l, j)]). by rewrite H3, <- app_assoc.
  Qed.
End exec.

Section example.
  Import Prop_PubKey Prop_Fetcher Prop_Authorizer Prop_Access.
  Definition cL : timing := Timing (10 * second) (2 * second) second (3 * second) (3 * second).
  Definition linit : sys K1 := yinit K1 rcf t0 3 2 0 4 (fun _ => [false; false; false; false]).
  (** Init at 50 s, Start at 52 s. *)
  Definition cmds0 : list (@cmd unit) := keys_cmds 0 (B "ZTSKEY") ++ keys_cmds 1 (B "ZMSKEY") ++ [DSpawn 0] ++ update_cmds 0 0 rpol1 ++ [DTick (52 * second)].
  Definition turn_cmds (m : nat) (t : time) : list (@jcmd unit) :=
    [JC (DTick t); JL RTick; JL RFire; JC (DSpawn m)] ++ map JC (update_cmds m m rpol2) ++ [JL (RUpdated None)].
  Definition cmdsA : list (@jcmd unit) := map JC (rcall 0 6 3 3 q1).
  Definition cmdsB : list (@jcmd unit) := [JC (DTick (53 * second))].
  Definition cmdsC : list (@jcmd unit) := turn_cmds 1 (62 * second) ++ turn_cmds 2 (72 * second) ++ turn_cmds 3 (82 * second) ++ [JC (DTick (84 * second))].
  Definition cmdsD : list (@jcmd unit) := map JC (rcall 1 3 6 3 q1).
  Notation jdrive1 := (jdrive K1 X0 U0 parse1 rcf cL (B "error update policy")).
  Notation lrun := (System.yrun K1 X0 U0 parse1 rcf linit).
  Notation lpassed := (passed K1 X0 U0 parse1 rcf linit).
  Notation lhappened := (happened K1 X0 U0 parse1 rcf linit).
  Notation lcalls := (fun _ : nat => [false; false; false; false]).
  (** What the trace shows. *)
  Definition calls_of (s : sys K1) : list (nat * bool) := map (fun u => (u_spawned u, match u_ret u with None => true | _ => false end)) (y_upd K1 s).
  Definition idleb (s : sys K1) (m w k : nat) : bool :=
    match y_upd K1 s !! m, y_fetch K1 s !! w with
    | Some u, Some f => (w <? u_spawned u)%nat && match fs_calls f !! k with Some (FIdle _) => true | _ => false end
    | _, _ => false
    end.
  Definition own_okb (T : list (@ylabel K1 unit * sys K1)) : bool :=
    forallb (fun '(l, _) => match l with YTake _ m w k _ => existsb (fun '(_, s) => idleb s m w k) T | YObjTake _ _ _ _ _ _ => false | _ => true end) T.
  Definition checks_okb (s : sys K1) : bool :=
    forallb (fun '(k, t) => match k with Some _ => match t with CDone _ _ => true | _ => false end | None => true end) (zip (y_chk K1 s) (z_tasks (y_auth K1 s))) &&
    (length (y_chk K1 s) =? length (z_tasks (y_auth K1 s)))%nat.
  Definition later_okb (T : list (@ylabel K1 unit * sys K1)) : bool := forallb (fun '(_, s) => (82 * second <=? now K1 s) || checks_okb s) T.
  Definition loop_okb (tr : list (time * option rlabel)) : bool :=
    forallb (fun e => match snd e with Some (RCancel _) | Some (RUpdated (Some _)) => false | _ => true end) tr && (length tr <? 100)%nat.
  Definition lev (m : nat) (doc : document) (sp : signed_policy) (t : time) : list ev :=
    [EFinish m (S m); ETake m 0 m (Some (200 * second, doc)); EReply t 200 (Doc sp); ESend (Some false)].
  Definition levents : list ev := lev 3 rdoc2 rpol2 (82 * second) ++ lev 2 rdoc2 rpol2 (72 * second) ++ lev 1 rdoc2 rpol2 (62 * second) ++ lev 0 rdoc1 rpol1 (50 * second).
  (** The keys are left alone after Start, and no Update fails. *)
  Definition quietb (tr : list (@joint_label K1 unit * joint K1)) : bool :=
    forallb (fun '(l, _) => match l with JSys _ (YKey _ (PBegin _ _)) | JSys _ (YJwk _ (JBegin _)) | JLoop _ _ (RUpdated (Some _)) => false | _ => true end) tr.
  Lemma the_joint_run : exists tr0 sb trA jA trB jB trC jC trD jD,
    drive K1 X0 U0 parse1 rcf cmds0 [] linit = Some (tr0, sb) /\ jdrive1 cmdsA [] (jstart K1 cL sb 1) = Some (trA, jA) /\ jdrive1 cmdsB trA jA = Some (trB, jB) /\
    jdrive1 cmdsC trB jB = Some (trC, jC) /\ jdrive1 cmdsD trC jC = Some (trD, jD) /\
    calls_of sb = [(1%nat, false); (0%nat, true); (0%nat, true); (0%nat, true)] /\ now K1 sb = 52 * second /\
    tasks (j_sys K1 jA) = [granted_to (B "r1"); None; None] /\ checks_okb (j_sys K1 jA) = true /\ map (fun j => tasks (j_sys K1 j)) [jB; jD] = [[granted_to (B "r1"); None; None]; [granted_to (B "r1"); granted_to (B "r2"); None]] /\
    map (fun j => now K1 (j_sys K1 j)) [jA; jB; jC; jD] = [52 * second; 53 * second; 84 * second; 84 * second] /\
    own_okb (proj K1 trD ++ tr0) = true /\ later_okb (proj K1 (take (length trD - length trA) trD)) = true /\ loop_okb (loopl K1 (rev trD.*1)) = true /\
    events (proj K1 trD ++ tr0) = levents /\ forallb (fun '(_, s) => 50 * second <=? now K1 s) (proj K1 trD ++ tr0) && quietb trD = true.
  Proof.
    assert (
      match drive K1 X0 U0 parse1 rcf cmds0 [] linit with None => None | Some (tr0, sb) =>
      match jdrive1 cmdsA [] (jstart K1 cL sb 1) with None => None | Some (trA, jA) =>
      match jdrive1 cmdsB trA jA with None => None | Some (trB, jB) =>
      match jdrive1 cmdsC trB jB with None => None | Some (trC, jC) =>
      match jdrive1 cmdsD trC jC with None => None | Some (trD, jD) =>
        Some (calls_of sb, now K1 sb, tasks (j_sys K1 jA), checks_okb (j_sys K1 jA), map (fun j => tasks (j_sys K1 j)) [jB; jD], map (fun j => now K1 (j_sys K1 j)) [jA; jB; jC; jD],
          (own_okb (proj K1 trD ++ tr0), later_okb (proj K1 (take (length trD - length trA) trD)), loop_okb (loopl K1 (rev trD.*1)), events (proj K1 trD ++ tr0), forallb (fun '(_, s) => 50 * second <=? now K1 s) (proj K1 trD ++ tr0) && quietb trD))
      end end end end end =
      Some ([(1%nat, false); (0%nat, true); (0%nat, true); (0%nat, true)], 52 * second, [granted_to (B "r1"); None; None], true, [[granted_to (B "r1"); None; None]; [granted_to (B "r1"); granted_to (B "r2"); None]],
        [52 * second; 53 * second; 84 * second; 84 * second], (true, true, true, levents, true))) as Ho by (vm_compute; reflexivity).
    destruct (drive K1 X0 U0 parse1 rcf cmds0 [] linit) as [[tr0 sb]|]; [|discriminate Ho].
    destruct (jdrive1 cmdsA [] (jstart K1 cL sb 1)) as [[trA jA]|] eqn:EA; [|discriminate Ho].
    destruct (jdrive1 cmdsB trA jA) as [[trB jB]|] eqn:EB; [|discriminate Ho].
    destruct (jdrive1 cmdsC trB jB) as [[trC jC]|] eqn:EC; [|discriminate Ho].
    destruct (jdrive1 cmdsD trC jC) as [[trD jD]|] eqn:ED; [|discriminate Ho].
    exists tr0, sb, trA, jA, trB, jB, trC, jC, trD, jD.
    assert (forall A1 A2 A3 A4 A5 A6 A7 A8 A9 A10 A11 (a1 b1 : A1) (a2 b2 : A2) (a3 b3 : A3) (a4 b4 : A4) (a5 b5 : A5) (a6 b6 : A6) (a7 b7 : A7) (a8 b8 : A8) (a9 b9 : A9) (a10 b10 : A10) (a11 b11 : A11),
      Some (a1, a2, a3, a4, a5, a6, (a7, a8, a9, a10, a11)) = Some (b1, b2, b3, b4, b5, b6, (b7, b8, b9, b10, b11)) ->
      a1 = b1 /\ a2 = b2 /\ a3 = b3 /\ a4 = b4 /\ a5 = b5 /\ a6 = b6 /\ a7 = b7 /\ a8 = b8 /\ a9 = b9 /\ a10 = b10 /\ a11 = b11) as Hinj by (intros; by simplify_eq).
    apply Hinj in Ho as (H1 & H2 & H3 & H4 & H5 & H6 & H7 & H8 & H9 & H10 & H11).
    do 5 (split; [first [assumption|reflexivity]|]). do 10 (split; [assumption|]). assumption.
  Qed.
  Lemma jdrive_first d cs acc j acc' j' : jdrive1 (d :: cs) acc j = Some (acc', j') ->
    exists l j1 x, jexec K1 X0 U0 parse1 rcf cL (B "error update policy") d j = Some (l, j1) /\ acc' = x ++ (l, j) :: acc.
  Proof.
    cbn [jdrive]. destruct (jexec _ _ _ _ _ _ _ d j) as [[l j1]|] eqn:E; [|done]. intros H. exists l, j1.
    assert (forall cs acc j, jdrive1 cs acc j = Some (acc', j') -> exists x, acc' = x ++ acc) as Hx.
    { clear. induction cs as [|d cs IH]; intros acc j; cbn [jdrive]; [intros [= <- <-]; by exists []|]. destruct (jexec _ _ _ _ _ _ _ d j) as [[l j1]|]; [|done]. intros [x Hx]%IH. exists (x ++ [(l, j)]). by rewrite Hx, <- app_assoc. }
    destruct (Hx _ _ _ H) as [x ->]. by exists x.
  Qed.
  Example C85_nonvacuous : exists ls0 sb js j jr sr x lc sc p,
    lrun ls0 sb /\ uncalled K1 sb 1 /\ sensible cL /\
    joint_run K1 X0 U0 parse1 rcf cL (B "error update policy") (jstart K1 cL sb 1) js j /\ js = jr ++ x /\ joint_run K1 X0 U0 parse1 rcf cL (B "error update policy") (jstart K1 cL sb 1) jr sr /\
    z_policy (s_z rcf) = true /\ 0 < z_exp (s_z rcf) /\ 0 <= t0 /\ now K1 (j_sys K1 j) + z_exp (s_z rcf) <= max_int64 /\
    own_calls K1 X0 U0 parse1 rcf t0 3 2 0 4 lcalls (ls0 ++ sysl K1 js) /\
    checks_within K1 X0 U0 parse1 rcf t0 3 2 0 4 lcalls (ls0 ++ sysl K1 js) (j_sys K1 j) (2 * second) /\
    uncancelled (loopl K1 js) /\ read cL Sending (B "error update policy") (tinit cL (now K1 sb)) (loopl K1 js) /\
    served K1 X0 U0 parse1 rcf t0 3 2 0 4 lcalls (ls0 ++ sysl K1 js) (ls0 ++ sysl K1 jr) (eq rpol2) /\
    now K1 (j_sys K1 sr) <= 53 * second /\ (forall v e, (v, Some (RUpdated (Some e))) ∈ loopl K1 js -> v <= 53 * second) /\
    lhappened (ls0 ++ sysl K1 js) (YAuth K1 (ZCall K1 1 q1)) lc sc /\ 53 * second + (c_refresh cL + turn cL + c_update cL) + 2 * second + z_exp (s_z rcf) < now K1 sc /\
    z_tasks (y_auth K1 (j_sys K1 j)) !! 1%nat = Some (CDone q1 (Ok p)) /\ pr_auth p = [B "r2"] /\
    (forall l, l ∈ js -> (forall i t, l <> JSys K1 (YKey K1 (PBegin i t))) /\ (forall i, l <> JSys K1 (YJwk K1 (JBegin i))) /\ forall t e, l <> JLoop K1 t (RUpdated (Some e))) /\
    (* the same request was granted to the other role before *)
    exists p0, z_tasks (y_auth K1 (j_sys K1 sr)) !! 0%nat = Some (CDone q1 (Ok p0)) /\ pr_auth p0 = [B "r1"].
  Proof.
    destruct the_joint_run as (tr0 & sb & trA & jA & trB & jB & trC & jC & trD & jD & E0 & EA & EB & EC & ED & Hcalls & Hnb & HtA & HcA & Ht & Hnow & Hown & Hlater & Hloop & Hev & H50).
    apply andb_true_iff in H50 as [H50 Hquiet].
    pose proof (drive_chain K1 X0 U0 parse1 rcf linit _ _ _ _ _ E0 eq_refl) as C0.
    destruct (jdrive_sound K1 X0 U0 parse1 rcf cL (B "error update policy") linit (jstart K1 cL sb 1) _ _ _ _ _ tr0 EA C0 ltac:(constructor)) as (CA & JA & _).
    destruct (jdrive_sound K1 X0 U0 parse1 rcf cL (B "error update policy") linit (jstart K1 cL sb 1) _ _ _ _ _ tr0 EB CA JA) as (CB & JB & xB & XB).
    destruct (jdrive_sound K1 X0 U0 parse1 rcf cL (B "error update policy") linit (jstart K1 cL sb 1) _ _ _ _ _ tr0 EC CB JB) as (CC & JC & xC & XC).
    destruct (jdrive_sound K1 X0 U0 parse1 rcf cL (B "error update policy") linit (jstart K1 cL sb 1) _ _ _ _ _ tr0 ED CC JC) as (CD & JD & xD & XD).
    destruct (jdrive_first _ _ _ _ _ _ ED) as (lD & jD1 & yD & EqD & XD').
    assert (lD = JSys K1 (YAuth K1 (ZCall K1 1 q1))) as ->.
    { clear -EqD. cbn [jexec yexec] in EqD. unfold zexec in EqD. destruct (zstep _ _ _ _ (y_auth K1 (j_sys K1 jC))); [|discriminate EqD]. cbn [upd_okb] in EqD. by injection EqD. }
    clear E0 EA EB EC ED EqD.
    assert (tasks (j_sys K1 jB) = [granted_to (B "r1"); None; None] /\ tasks (j_sys K1 jD) = [granted_to (B "r1"); granted_to (B "r2"); None]) as [HtB HtD].
    { cbn [map] in Ht. set (vB := tasks (j_sys K1 jB)) in *. set (vD := tasks (j_sys K1 jD)) in *. clearbody vB vD. clear -Ht. by injection Ht. }
    assert (now K1 (j_sys K1 jA) = 52 * second /\ now K1 (j_sys K1 jB) = 53 * second /\ now K1 (j_sys K1 jC) = 84 * second /\ now K1 (j_sys K1 jD) = 84 * second) as (NA & NB & NC & ND).
    { cbn [map] in Hnow. set (vA := now K1 (j_sys K1 jA)) in *. set (vB := now K1 (j_sys K1 jB)) in *. set (vC := now K1 (j_sys K1 jC)) in *. set (vD := now K1 (j_sys K1 jD)) in *. clearbody vA vB vC vD. clear -Hnow. by injection Hnow. }
    assert (forall tr : list (@joint_label K1 unit * joint K1), rev (proj K1 tr ++ tr0).*1 = rev tr0.*1 ++ sysl K1 (rev tr.*1)) as Hrev.
    { intros tr. rewrite fmap_app, rev_app_distr. f_equal. apply proj_sysl. }
    assert (forall x tr : list (@joint_label K1 unit * joint K1), sysl K1 (rev (x ++ tr).*1) = sysl K1 (rev tr.*1) ++ sysl K1 (rev x.*1)) as Hsapp.
    { intros x tr. rewrite fmap_app, rev_app_distr. unfold sysl. apply omap_app. }
    destruct (task_obs (j_sys K1 jD) 1 q1 [B "r2"] [B "r1"; B "r2"] (B "dom")) as (p & Hp & Ha & _); [by rewrite HtD|].
    destruct (task_obs (j_sys K1 jB) 0 q1 [B "r1"] [B "r1"; B "r2"] (B "dom")) as (p0 & Hp0 & Ha0 & _); [by rewrite HtB|].
    exists (rev tr0.*1), sb, (rev trD.*1), jD, (rev trB.*1), jB, (rev (xD ++ xC).*1), (rev tr0.*1 ++ sysl K1 (rev trC.*1)), (j_sys K1 jC), p.
    assert (forall l l1 s1, lhappened (rev tr0.*1 ++ sysl K1 (rev trD.*1)) l l1 s1 -> (l, s1) ∈ proj K1 trD ++ tr0) as Hin.
    { intros l l1 s1. rewrite <- Hrev. by apply (chain_happened K1 X0 U0 parse1 rcf linit _ _ _ _ _ CD). }
    assert (forall l l1 s1, lhappened (rev tr0.*1 ++ sysl K1 (rev trD.*1)) l l1 s1 -> forall e, e ∈ events [(l, s1)] -> e ∈ levents) as Hev'.
    { intros l l1 s1 Hh e He. apply Hin in Hh. rewrite <- Hev. unfold events in *. apply elem_of_list_omap. exists (l, s1). split; [done|]. apply elem_of_list_omap in He as (y & ->%elem_of_list_singleton & Hy). done. }
    split; [by apply chain_run|].
    split. { intros m u Hm Hu. assert (calls_of sb !! m = Some (u_spawned u, match u_ret u with None => true | _ => false end)) as Hx by (unfold calls_of; by rewrite list_lookup_fmap, Hu).
      rewrite Hcalls in Hx. clear -Hm Hx. destruct m as [|[|[|[|m]]]]; [lia|cbn in Hx..]; try discriminate Hx; injection Hx as H1 H2; (split; [done|]); by destruct (u_ret u). }
    split; [unfold sensible, cL; cbn; unfold second; lia|]. split; [done|].
    split; [rewrite XD, XC, !fmap_app, !rev_app_distr; by rewrite <- app_assoc|]. split; [done|]. split; [done|]. split; [done|]. split; [done|]. split; [by rewrite ND|].
    split; [|split; [|split; [|split; [|split; [|split; [|split; [|split; [|split; [|split; [|split]]]]]]]]]].
    - (* own calls *) split.
      + intros m w k script l' s' Hh. apply Hin in Hh. unfold own_okb in Hown. rewrite forallb_forall in Hown. apply elem_of_list_In in Hh. apply Hown in Hh. cbn beta iota in Hh.
        apply existsb_exists in Hh as ([l1 sa] & H1 & H2). apply elem_of_list_In in H1. destruct (chain_in K1 X0 U0 parse1 rcf linit _ _ _ _ CD H1) as [la Hla].
        unfold idleb in H2. destruct (y_upd K1 sa !! m) as [u|] eqn:Eu; [|discriminate H2]. destruct (y_fetch K1 sa !! w) as [f|] eqn:Ef; [|discriminate H2]. apply andb_true_iff in H2 as [H2 H3].
        exists la, sa, u. rewrite <- Hrev. split; [done|]. split; [done|]. split; [by apply Nat.ltb_lt|]. destruct (fs_calls f !! k) as [[b| | | |]|] eqn:Ek; try discriminate H3. by exists f, b.
      + intros ob w k c script l' s' Hh. exfalso. apply Hin in Hh. unfold own_okb in Hown. rewrite forallb_forall in Hown. apply elem_of_list_In in Hh. apply Hown in Hh. discriminate Hh.
    - (* checks *)
      intros l1 s1 Hps Hlt. rewrite ND in Hlt. rewrite <- Hrev in *. destruct (chain_passed K1 X0 U0 parse1 rcf linit _ _ _ _ CD Hps) as (T2 & T1 & ET & -> & H1).
      assert (trD = (xD ++ xC ++ xB) ++ trA) as EA by (rewrite XD, XC, XB; by rewrite <- !app_assoc). set (z := xD ++ xC ++ xB) in *.
      assert (take (length trD - length trA) trD = z) as Etake.
      { rewrite EA, app_length. replace (length z + length trA - length trA)%nat with (length z) by lia. apply take_app. }
      rewrite Etake in Hlater. assert (proj K1 trD ++ tr0 = proj K1 z ++ (proj K1 trA ++ tr0)) as ET2 by (rewrite EA; unfold proj; by rewrite omap_app, <- app_assoc).
      pose proof (chain_run K1 X0 U0 parse1 rcf linit _ _ H1) as R1. pose proof (chain_run K1 X0 U0 parse1 rcf linit _ _ CA) as RA.
      assert (exists T3 l3, T2 = T3 ++ [(l3, s1)]) as (T3 & l3 & ->).
      { clear -ET CD R1 Hlt ND. destruct T2 as [|[l3 s3] T3 _] using rev_ind.
        - exfalso. rewrite ET in CD. apply chain_run in CD. assert (s1 = j_sys K1 jD) as -> by (exact (yrun_det K1 X0 U0 parse1 rcf linit _ _ _ R1 CD)). rewrite ND in Hlt. clear -Hlt. unfold second in Hlt. lia.
        - exists T3, l3. rewrite ET, <- app_assoc in CD. apply chain_tail in CD as (s4 & _ & CD). apply chain_run in CD. assert (s1 = s3) as -> by (exact (yrun_det K1 X0 U0 parse1 rcf linit _ _ _ R1 CD)). done. }
      assert (50 * second <= now K1 s1) as Hge.
      { clear -ET H50. rewrite ET in H50. rewrite forallb_forall in H50. specialize (H50 (l3, s1)). apply Z.leb_le, H50. apply elem_of_list_In. rewrite !elem_of_app, elem_of_list_singleton. auto. }
      assert (forall sx, checks_okb sx = true -> forall i k, y_chk K1 sx !! i = Some (Some k) -> exists q r, z_tasks (y_auth K1 sx) !! i = Some (CDone q r)) as Hok.
      { clear. intros sx H i k Hk. unfold checks_okb in H. apply andb_true_iff in H as [H Hl]. apply Nat.eqb_eq in Hl. assert (is_Some (z_tasks (y_auth K1 sx) !! i)) as [tk Htk] by (apply lookup_lt_is_Some; rewrite <- Hl; by eapply lookup_lt_Some).
        rewrite forallb_forall in H. specialize (H (Some k, tk)). cbn beta iota in H. destruct tk; try (discriminate H; apply elem_of_list_In; eapply elem_of_list_lookup_2, lookup_zip_with_Some; eauto); eauto. }
      rewrite ET2 in ET. symmetry in ET. apply app_eq_inv in ET as [(k & EZ & ET)|(k & EZ & ->)].
      + exists (rev (proj K1 trA ++ tr0).*1), (j_sys K1 jA). assert (passed K1 X0 U0 parse1 rcf linit (rev (proj K1 trA ++ tr0).*1) (rev T1.*1) s1) as Hp1.
        { split; [|done]. rewrite ET, fmap_app, rev_app_distr. by eexists. }
        split; [done|]. split. { split; [|done]. rewrite ET2, (fmap_app _ (proj K1 z)), rev_app_distr. by eexists. }
        split; [rewrite NA; clear -Hge; unfold second in *; lia|]. intros i kk Hk. destruct Hp1 as [[y Hy] _]. rewrite Hy in RA.
        destruct (chk_stays K1 X0 U0 parse1 rcf t0 3 2 0 4 lcalls _ _ _ _ _ _ R1 RA Hk) as [k' Hk']. by apply (Hok _ HcA i k').
      + exists (rev (k ++ proj K1 trA ++ tr0).*1), s1. split; [by apply passed_last|]. split; [done|]. split; [clear; unfold second; lia|].
        apply Hok. rewrite EZ in Hlater. clear -Hlater Hlt. unfold later_okb in Hlater. rewrite forallb_forall in Hlater. specialize (Hlater (l3, s1)). cbn beta iota in Hlater.
        assert ((l3, s1) ∈ (T3 ++ [(l3, s1)]) ++ k) as Hi by (rewrite !elem_of_app, elem_of_list_singleton; auto). apply elem_of_list_In in Hi. apply Hlater, orb_true_iff in Hi as [Hi|Hi]; [|done].
        apply Z.leb_le in Hi. exfalso. unfold second in *. lia.
    - intros t e He. unfold loop_okb in Hloop. apply andb_true_iff in Hloop as [Hl _]. rewrite forallb_forall in Hl. apply elem_of_list_In in He. by apply Hl in He.
    - intros tr1 tr2 s1 Etr H b m _. unfold loop_okb in Hloop. apply andb_true_iff in Hloop as [_ Hl]. apply ech_length in H. apply Nat.ltb_lt in Hl. rewrite Etr, app_length in Hl. cbn in H. lia.
    - (* the server *)
      assert (forall l x s', lhappened (rev tr0.*1 ++ sysl K1 (rev trD.*1)) l ((rev tr0.*1 ++ sysl K1 (rev trB.*1)) ++ x) s' -> 53 * second <= now K1 s') as Hclk.
      { intros l x s' [_ Hr]. rewrite <- NB. pose proof (chain_run K1 X0 U0 parse1 rcf linit _ _ CB) as RB. rewrite Hrev in RB. exact (yrun_clock K1 X0 U0 parse1 rcf linit _ _ _ _ RB Hr). }
      split; [|split].
      + intros d i etag sp x s' Hh. pose proof (Hclk _ _ _ Hh) as Hc. pose proof (Hev' _ _ _ Hh (EReply (now K1 s') 200 (Doc sp)) ltac:(by apply in_events)) as Hi.
        clear -Hc Hi. unfold levents, lev in Hi. cbn [app] in Hi. set (v := now K1 s') in *. clearbody v. rewrite !elem_of_cons, elem_of_nil in Hi.
        repeat (destruct Hi as [Hi|Hi]; [try discriminate Hi; injection Hi as H1 H2; first [by symmetry|by rewrite H1 in Hc]|]); done.
      + intros d i etag b x s' f rt tp inm t Hh. pose proof (Hev' _ _ _ Hh (EReply (now K1 s') 304 b) ltac:(by apply in_events)) as Hi. exfalso.
        clear -Hi. unfold levents, lev in Hi. cbn [app] in Hi. rewrite !elem_of_cons, elem_of_nil in Hi. repeat (destruct Hi as [Hi|Hi]; [discriminate Hi|]). done.
      + intros d i x s' s'' f sp e Hh Hs Hf Hc. exfalso.
        pose proof (Hev' _ _ _ Hh _ ltac:(by apply in_events)) as Hi. clear -Hi Hs Hf Hc.
        inversion Hs as [| | |? ? ? fc f0 f' Hfc Hf0 Hst| | | | | | | | |]; subst. cbn [set_fetch y_fetch] in Hf.
        rewrite list_lookup_insert in Hf by (by eapply lookup_lt_Some). injection Hf as ->.
        unfold fetch_calls in Hi. rewrite list_lookup_fmap, Hf0 in Hi. cbn [fmap option_fmap option_map mbind option_bind] in Hi.
        rewrite list_lookup_fmap in Hi. cbn [fstep] in Hst.
        assert (fs_calls f0 !! i = Some (FIdle false)) as Hi2.
        { clear -Hi. unfold levents, lev in Hi. cbn [app] in Hi. rewrite !elem_of_cons, elem_of_nil in Hi.
          destruct (fs_calls f0 !! i) as [[[]| | | |]|]; cbn in Hi; [exfalso|done|exfalso..]; repeat (destruct Hi as [Hi|Hi]; [discriminate Hi|]); done. }
        rewrite Hi2 in Hst. injection Hst as <-. cbn [fs_calls] in Hc. rewrite list_lookup_insert in Hc by (by eapply lookup_lt_Some).
        destruct d as [|d]; [|done]. injection Hfc as <-. discriminate Hc.
    - by rewrite NB.
    - intros v e He. unfold loop_okb in Hloop. apply andb_true_iff in Hloop as [Hl _]. rewrite forallb_forall in Hl. apply elem_of_list_In in He. by apply Hl in He.
    - assert (proj K1 trD ++ tr0 = proj K1 yD ++ (YAuth K1 (ZCall K1 1 q1), j_sys K1 jC) :: (proj K1 trC ++ tr0)) as EP by (rewrite XD'; unfold proj; rewrite omap_app, <- app_assoc; done).
      rewrite <- !Hrev, EP. rewrite EP in CD. exact (chain_at K1 X0 U0 parse1 rcf linit _ _ _ _ _ CD).
    - by rewrite NC.
    - done.
    - done.
    - split; [|by exists p0]. intros l Hl. apply elem_of_list_In in Hl. apply in_rev in Hl. apply elem_of_list_In, elem_of_list_fmap in Hl as ([l1 j1] & -> & Hl).
      unfold quietb in Hquiet. rewrite forallb_forall in Hquiet. apply elem_of_list_In, Hquiet in Hl. clear -Hl. cbn [fst]. cbn beta iota in Hl. split; [intros i t ->|split; [intros i ->|intros t e ->]]; discriminate Hl.
  Qed.
End example.
Print Assumptions C85_revocation_latency.
