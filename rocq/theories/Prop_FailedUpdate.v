(** * Property C98, continued: a refresh that fails for one domain changes nothing *)
From Verif Require Import Prop_System SystemFacts PolicyUpdateFacts.
From Verif Require Prop_Cancel.
From Verif Require Import GoStrings.

Section claims.
  Context (K : crypto) (X : jwt_ext) {O : Type} (U : unicode) (parse : str -> option (verifier K)).
  Context (cf : @sconf O) (t0 : time) (n nk nj nu : nat) (calls : nat -> list bool).
  Notation s0 := (yinit K cf t0 n nk nj nu calls).
  Notation yrun := (yrun K X U parse cf s0).
  Notation ystep := (ystep K X U parse cf).
  Notation happened := (happened K X U parse cf s0).
  Notation published_by := (published_by K X U parse cf s0).
  Notation ylabel := (@ylabel K O).

  (** What Update [m] did is a run of Update. *)
  Lemma upd_labels ls s : yrun ls s -> forall m u, y_upd K s !! m = Some u ->
    exists uls, urun U uls (uinit ∅ (length (s_f cf)) false) = Some u /\ forall l, YUpd K m l ∈ ls -> l ∈ uls.
  Proof.
    intros H. induction H as [|ls l s s' H IH Hs]; intros m u Hu.
    - cbn in Hu. apply lookup_replicate in Hu as [-> _]. exists []. split; [done|]. intros l Hl. by apply elem_of_nil in Hl.
    - assert (forall u0, y_upd K s !! m = Some u0 -> (forall x, l <> YUpd K m x) -> exists uls, urun U uls (uinit ∅ (length (s_f cf)) false) = Some u0 /\ forall l0, YUpd K m l0 ∈ ls ++ [l] -> l0 ∈ uls) as Hidle.
      { intros u0 Hu0 Hne. destruct (IH _ _ Hu0) as (uls & Hr & Hin). exists uls. split; [done|]. intros l0 Hl. rewrite elem_of_app, elem_of_list_singleton in Hl.
        destruct Hl as [Hl| <-]; [by apply Hin|]. by destruct (Hne l0). }
      assert (forall u0 x u1, y_upd K s !! m = Some u0 -> ustep U x u0 = Some u1 -> (forall y, l = YUpd K m y -> y = x) ->
        exists uls, urun U uls (uinit ∅ (length (s_f cf)) false) = Some u1 /\ forall l0, YUpd K m l0 ∈ ls ++ [l] -> l0 ∈ uls) as Hstep.
      { intros u0 x u1 Hu0 Hx Hl. destruct (IH _ _ Hu0) as (uls & Hr & Hin). exists (uls ++ [x]). split.
        - rewrite (urun_app U), Hr. cbn [urun]. by rewrite Hx.
        - intros l0 Hl0. rewrite !elem_of_app, !elem_of_list_singleton in *. destruct Hl0 as [?| <-]; [left; by apply Hin|right; by apply Hl]. }
      destruct Hs; try (by apply Hidle); cbn [set_upd publish y_upd] in Hu; apply list_lookup_insert_Some in Hu as [(-> & -> & _)|[Hne Hu]].
      + eapply Hstep; [done|done|]. intros y Hy. by injection Hy.
      + apply Hidle; [done|]. intros x Hx. by injection Hx.
      + eapply Hstep; [done|done|]. intros y Hy. done.
      + apply Hidle; [done|]. done.
      + eapply Hstep; [done|done|]. intros y Hy. by injection Hy.
      + apply Hidle; [done|]. intros x Hx. by injection Hx.
  Qed.

  (** An Update for which the policy of one domain could not be got publishes no cache, before or
      after, whatever its other goroutines got. *)
  Theorem C98_failed_update_publishes_nothing ls s m w e o : yrun ls s -> YUpd K m (UWork w (IFetch (Err e))) ∈ ls -> ~ published_by ls m o.
  Proof.
    intros Hr Hin (l1 & s1 & s2 & [[l2 ->] H1] & Hs & Hno & Hso).
    assert (exists u, y_upd K s2 !! m = Some u /\ u_ret u = Some (Ok tt)) as (u & Hu & Hret).
    { assert (forall u u' n0, y_upd K s1 !! n0 = Some u -> y_upd K (set_upd K n0 u' s1) !! n0 = Some u') as Hl.
      { intros u u' n0 Hu. cbn [set_upd y_upd]. rewrite list_lookup_insert; [done|by eapply lookup_lt_Some]. }
      inversion Hs; subst.
      - exfalso. cbn [set_upd y_objs] in Hso. rewrite Hno in Hso. by destruct Hso.
      - exists u'. split; [|done]. cbn [publish y_upd]. by eapply Hl. }
    assert (yrun (l1 ++ [YUpd K m UFinish]) s2) as H2 by (by econstructor).
    assert (l1 ++ YUpd K m UFinish :: l2 = (l1 ++ [YUpd K m UFinish]) ++ l2) as E by (by rewrite <- app_assoc). rewrite E in Hr, Hin.
    destruct (returned_stays K X U parse cf t0 n nk nj nu calls _ _ _ _ _ _ H2 Hr Hu Hret) as (u' & Hu' & Hret').
    destruct (upd_labels _ _ Hr _ _ Hu') as (uls & Hrun & Hall). by apply (update_any_error _ _ _ _ _ _ _ _ Hrun (Hall _ Hin)).
  Qed.

  (** C105 in the whole system: from some moment on, what Update [m] does is a run of Update. *)
  Lemma upd_from l1 l2 s1 s : yrun l1 s1 -> yrun (l1 ++ l2) s -> forall m u, y_upd K s1 !! m = Some u ->
    exists uls u', y_upd K s !! m = Some u' /\ urun U uls u = Some u'.
  Proof.
    intros H1. revert s. induction l2 as [|l l2 IH] using rev_ind; intros s H m u Hu.
    - rewrite app_nil_r in H. rewrite (yrun_det K X U parse cf s0 _ _ _ H H1). by exists [], u.
    - rewrite app_assoc in H. apply yrun_snoc in H as (s2 & H2 & Hs). destruct (IH _ H2 _ _ Hu) as (uls & u' & Hu' & Hr).
      assert (forall x u'' n0, y_upd K s2 !! n0 = Some x -> (n0 = m -> x = u' -> exists l0, ustep U l0 u' = Some u'') ->
        exists uls u', <[n0 := u'']> (y_upd K s2) !! m = Some u' /\ urun U uls u = Some u') as Hins.
      { intros x u'' n0 Hx Hst. destruct (decide (n0 = m)) as [->|Hne].
        - assert (x = u') as -> by congruence. destruct (Hst eq_refl eq_refl) as [l0 Hl0]. exists (uls ++ [l0]), u''. split.
          + rewrite list_lookup_insert; [done|by eapply lookup_lt_Some].
          + rewrite (urun_app U), Hr. cbn [urun]. by rewrite Hl0.
        - exists uls, u'. split; [by rewrite list_lookup_insert_ne|done]. }
      destruct Hs; try (by exists uls, u'); cbn [set_upd publish y_upd]; (eapply Hins; [done|]); intros _ ->; eauto.
  Qed.
  (** An Update whose context has ended while domains were left publishes no cache, before or after,
      starts no further goroutine, and never returns success. *)
  Theorem C105_interrupted_update_publishes_nothing l1 l2 s1 s m u o : yrun l1 s1 -> yrun (l1 ++ l2) s -> y_upd K s1 !! m = Some u ->
    Prop_Cancel.interrupted (length (s_f cf)) u -> u_ret u = None ->
    ~ published_by (l1 ++ l2) m o /\
    exists u', y_upd K s !! m = Some u' /\ u_spawned u' = u_spawned u /\ (u_ret u' = None \/ u_ret u' = Some (Err ErrCanceled)).
  Proof.
    intros H1 Hr Hu Hi Hn. destruct (upd_from _ _ _ _ H1 Hr _ _ Hu) as (uls & u' & Hu' & Hrun).
    destruct (Prop_Cancel.C105_update_stops _ _ _ _ _ Hrun Hi Hn) as (_ & Hsp & _ & Hret). split; [|by exists u'].
    intros (l3 & s3 & s2 & [[l4 E] H3] & Hs & Hno & Hso).
    assert (exists u, y_upd K s2 !! m = Some u /\ u_ret u = Some (Ok tt)) as (u2 & Hu2 & Hret2).
    { assert (forall u u' n0, y_upd K s3 !! n0 = Some u -> y_upd K (set_upd K n0 u' s3) !! n0 = Some u') as Hl.
      { intros v v' n0 Hv. cbn [set_upd y_upd]. rewrite list_lookup_insert; [done|by eapply lookup_lt_Some]. }
      inversion Hs; subst.
      - exfalso. cbn [set_upd y_objs] in Hso. rewrite Hno in Hso. by destruct Hso.
      - eexists. split; [|done]. cbn [publish y_upd]. by eapply Hl. }
    assert (yrun (l3 ++ [YUpd K m UFinish]) s2) as H2 by (by econstructor).
    assert (l3 ++ YUpd K m UFinish :: l4 = (l3 ++ [YUpd K m UFinish]) ++ l4) as E' by (by rewrite <- app_assoc). rewrite E, E' in Hr.
    destruct (returned_stays K X U parse cf t0 n nk nj nu calls _ _ _ _ _ _ H2 Hr Hu2 Hret2) as (u3 & Hu3 & Hret3).
    rewrite Hu' in Hu3. injection Hu3 as <-. rewrite Hret3 in Hret. by destruct Hret.
  Qed.

  (** When it ends, the caches are those there were, the one in use stays in use, and the caller gets
      the error of a domain. *)
  Theorem C98_failed_update_leaves_the_cache ls s m w e s' : yrun ls s -> YUpd K m (UWork w (IFetch (Err e))) ∈ ls -> ystep (YUpd K m UFinish) s s' ->
    y_cur K s' = y_cur K s /\ y_objs K s' = y_objs K s /\ exists u, y_upd K s' !! m = Some u /\ u_ret u <> None /\ u_ret u <> Some (Ok tt).
  Proof.
    intros Hr Hin Hs. assert (yrun (ls ++ [YUpd K m UFinish]) s') as Hr' by (by econstructor).
    assert (forall u, y_upd K s' !! m = Some u -> u_ret u <> Some (Ok tt)) as Hnot.
    { intros u Hu. destruct (upd_labels _ _ Hr' _ _ Hu) as (uls & Hrun & Hall). eapply (update_any_error _ _ _ _ _ _ _ _ Hrun). apply Hall. rewrite elem_of_app. by left. }
    assert (forall u u', y_upd K s !! m = Some u -> y_upd K (set_upd K m u' s) !! m = Some u') as Hl.
    { intros u u' Hu. cbn [set_upd y_upd]. rewrite list_lookup_insert; [done|by eapply lookup_lt_Some]. }
    inversion Hs as [| | | | |? ? ? u u' Hu Hstep Hinp Hfin| |? ? u u' Hu Hstep Hret| | | | |]; subst.
    - split; [done|]. split; [done|]. exists u'. split; [by eapply Hl|]. split; [|by apply Hfin].
      cbn [ustep] in Hstep. destruct (u_ret u); [done|]. case_decide; [|done]. destruct (forallb _ _); [|done]. destruct (u_err u); by injection Hstep as <-.
    - exfalso. apply (Hnot u'); [|done]. cbn [publish y_upd]. by eapply Hl.
  Qed.
End claims.

(** ** An execution
    Update 0 publishes the first cache; Update 1 cannot get the policy and leaves it in use. *)
From Verif Require Import SystemExec PolicyCheckers Prop_Window.
From Verif Require Prop_PubKey Prop_Fetcher Prop_Authorizer.
From Verif Require Import GoStrings.
Section example.
  Import Prop_PubKey Prop_Fetcher Prop_Authorizer.
  Definition fcmds : list (@cmd unit) :=
    keys_cmds 0 (B "ZTSKEY") ++ keys_cmds 1 (B "ZMSKEY") ++
    [DSend 0 0; DReply 0 0 (Response 200 (B "a") (Doc (pol1 (B "dom") wdoc (60 * second)))); DSpawn 0; DTake 0 0 0] ++
    replicate 5 (DWork 0 0) ++ [DFinish 0; DSpawn 1].
  Definition ferr : error := ErrFetchPolicy.
  Definition after_failure (s : sys K1) : option (option (outcome unit)) :=
    match y_upd K1 s !! 1%nat with
    | Some u => match ustep U0 (UWork 0 (IFetch (Err ferr))) u with
                | Some u1 => option_map u_ret (ustep U0 UFinish u1)
                | None => None end
    | None => None end.
  Example C98_failed_update_nonvacuous : exists ls s s', System.yrun K1 X0 U0 parse1 wcf hk_init ls s /\
    YUpd K1 1 (UWork 0 (IFetch (Err ferr))) ∈ ls /\ System.ystep K1 X0 U0 parse1 wcf (YUpd K1 1 UFinish) s s' /\
    y_cur K1 s = 1%nat /\ y_cur K1 s' = 1%nat /\
    exists u, y_upd K1 s' !! 1%nat = Some u /\ u_ret u = Some (Err ferr).
  Proof.
    assert (option_map (fun '(tr, s) => (after_failure s, y_cur K1 s, granted_at 0 s, length (y_objs K1 s))) (drive K1 X0 U0 parse1 wcf fcmds [] hk_init) =
      Some (Some (Some (Err ferr)), 1%nat, None, 2%nat)) as Ho by (vm_compute; reflexivity).
    destruct (drive K1 X0 U0 parse1 wcf fcmds [] hk_init) as [[tr s]|] eqn:E; [|discriminate Ho].
    pose proof (drive_run _ _ _ _ _ _ _ _ _ E) as [Hr _]. clear E. cbn [option_map] in Ho.
    assert (forall A C D F (a a' : A) (b b' : C) (c c' : D) (f f' : F), Some (a, b, c, f) = Some (a', b', c', f') -> a = a' /\ b = b' /\ c = c' /\ f = f') as Hinj.
    { intros. injection H as -> -> -> ->. done. }
    apply Hinj in Ho as (Ha & Hcur & _ & Hlen). unfold after_failure in Ha.
    destruct (y_upd K1 s !! 1%nat) as [u|] eqn:Eu; [|discriminate Ha]. destruct (ustep U0 (UWork 0 (IFetch (Err ferr))) u) as [u1|] eqn:E1; [|discriminate Ha].
    destruct (ustep U0 UFinish u1) as [u2|] eqn:E2; [|discriminate Ha]. cbn [option_map] in Ha. injection Ha as Ha.
    assert (1 < length (y_upd K1 s))%nat as Hlt by (by eapply lookup_lt_Some).
    set (lw := YUpd K1 (O := unit) 1 (UWork 0 (IFetch (Err ferr)))). set (s1 := set_upd K1 1 u1 s).
    assert (System.yrun K1 X0 U0 parse1 wcf hk_init (rev tr.*1 ++ [lw]) s1) as Hr1.
    { apply (Y_snoc _ _ _ _ _ _ _ _ _ _ Hr). apply (S_upd _ _ _ _ _ _ _ _ u); [done|done| |done]. intros w inp [= <- <-]. exact I. }
    exists (rev tr.*1 ++ [lw]), s1, (set_upd K1 1 u2 s1). split; [done|]. split; [rewrite elem_of_app, elem_of_list_singleton; by right|]. split.
    { apply (S_upd _ _ _ _ _ _ _ _ u1); [unfold s1; cbn [set_upd y_upd]; by rewrite list_lookup_insert|done|by intros|]. intros _. by rewrite Ha. }
    split; [done|]. split; [done|]. exists u2. split; [|done]. unfold s1. cbn [set_upd y_upd]. by rewrite list_insert_insert, list_lookup_insert.
  Qed.
  (** The first Update is through; the context of the second ends before its only goroutine is started. *)
  Definition ccmds : list (@cmd unit) :=
    keys_cmds 0 (B "ZTSKEY") ++ keys_cmds 1 (B "ZMSKEY") ++
    [DSend 0 0; DReply 0 0 (Response 200 (B "a") (Doc (pol1 (B "dom") wdoc (60 * second)))); DSpawn 0; DTake 0 0 0] ++
    replicate 5 (DWork 0 0) ++ [DFinish 0].
  Definition after_cancel (s : sys K1) : option (bool * nat * nat * option (outcome unit) * option (outcome unit)) :=
    match y_upd K1 s !! 1%nat with
    | Some u => match ustep U0 UCancel u with
                | Some u1 => option_map (fun u2 => (u_cancel u1, u_spawned u1, length (c_work (u_c u1)), u_ret u1, u_ret u2)) (ustep U0 USpawn u1)
                | None => None end
    | None => None end.
  Example C105_system_nonvacuous : exists l1 l2 s1 s u u', System.yrun K1 X0 U0 parse1 wcf hk_init l1 s1 /\
    System.yrun K1 X0 U0 parse1 wcf hk_init (l1 ++ l2) s /\ y_upd K1 s1 !! 1%nat = Some u /\
    Prop_Cancel.interrupted (length (s_f wcf)) u /\ u_ret u = None /\
    y_upd K1 s !! 1%nat = Some u' /\ u_ret u' = Some (Err ErrCanceled) /\ y_cur K1 s = 1%nat.
  Proof.
    assert (option_map (fun '(tr, s) => (after_cancel s, y_cur K1 s, length (y_objs K1 s), 0%nat)) (drive K1 X0 U0 parse1 wcf ccmds [] hk_init) =
      Some (Some (true, 0%nat, 1%nat, None, Some (Err ErrCanceled)), 1%nat, 2%nat, 0%nat)) as Ho by (vm_compute; reflexivity).
    destruct (drive K1 X0 U0 parse1 wcf ccmds [] hk_init) as [[tr s]|] eqn:E; [|discriminate Ho].
    pose proof (drive_run _ _ _ _ _ _ _ _ _ E) as [Hr _]. clear E. cbn [option_map] in Ho.
    assert (forall A C D F (a a' : A) (b b' : C) (c c' : D) (f f' : F), Some (a, b, c, f) = Some (a', b', c', f') -> a = a' /\ b = b' /\ c = c' /\ f = f') as Hinj.
    { intros. injection H as -> -> -> ->. done. }
    apply Hinj in Ho as (Ha & Hcur & _ & _). unfold after_cancel in Ha.
    destruct (y_upd K1 s !! 1%nat) as [u|] eqn:Eu; [|discriminate Ha]. destruct (ustep U0 UCancel u) as [u1|] eqn:E1; [|discriminate Ha].
    destruct (ustep U0 USpawn u1) as [u2|] eqn:E2; [|discriminate Ha]. cbn [option_map] in Ha. injection Ha as H1 H2 H3 H4 H5.
    assert (1 < length (y_upd K1 s))%nat as Hlt by (by eapply lookup_lt_Some).
    set (s1 := set_upd K1 1 u1 s).
    assert (System.yrun K1 X0 U0 parse1 wcf hk_init (rev tr.*1 ++ [YUpd K1 (O := unit) 1 UCancel]) s1) as Hr1.
    { apply (Y_snoc _ _ _ _ _ _ _ _ _ _ Hr). by apply (S_upd _ _ _ _ _ _ _ _ u). }
    assert (y_upd K1 s1 !! 1%nat = Some u1) as Hu1 by (unfold s1; cbn [set_upd y_upd]; by rewrite list_lookup_insert).
    exists (rev tr.*1 ++ [YUpd K1 (O := unit) 1 UCancel]), [YUpd K1 (O := unit) 1 USpawn], s1, (set_upd K1 1 u2 s1), u1, u2.
    split; [done|]. split; [apply (Y_snoc _ _ _ _ _ _ _ _ _ _ Hr1); by apply (S_upd _ _ _ _ _ _ _ _ u1)|]. split; [done|].
    split; [split; [done|]; rewrite H2, H3; cbn; split; [lia|done]|]. split; [done|].
    split; [cbn [set_upd y_upd]; rewrite list_lookup_insert; [done|by eapply lookup_lt_Some]|]. done.
  Qed.
End example.
Print Assumptions C98_failed_update_publishes_nothing.
Print Assumptions C98_failed_update_leaves_the_cache.
Print Assumptions C98_failed_update_nonvacuous.
Print Assumptions C105_interrupted_update_publishes_nothing.
Print Assumptions C105_system_nonvacuous.
