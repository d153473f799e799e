(** * Property C88: how long a revoked key may still count *)
From Verif Require Import Running Prop_Timed Prop_System Prop_Revoke Prop_KeyRevoke Prop_Latency SystemFacts PubKeyFacts SystemExec.
From Verif Require Import Jwk Prop_Jwk Prop_Access Prop_PubKey.
From Verif Require Import GoStrings.

(** ** The key daemon *)
Section keys.
  Context {V : Type} (parse : str -> option V) (cf : pconf).
  Notation pst := (@pst V). Notation ptask := (@ptask V).
  Lemma task_step l (s s' : pst) i t : pstep parse cf l s = Some s' -> p_tasks s !! i = Some t -> task_of l <> i -> p_tasks s' !! i = Some t.
  Proof. intros E Ht Hne. apply pstep_inv in E as (t0 & t1 & _ & Htasks & _). by rewrite Htasks, list_lookup_insert_ne. Qed.
  Lemma inactive_step l (s s' : pst) i t : pstep parse cf l s = Some s' -> p_tasks s !! i = Some t -> active t = false ->
    (forall u, l <> PBegin i u) -> p_tasks s' !! i = Some t.
  Proof.
    intros E Ht Ha Hb. destruct (decide (task_of l = i)) as [Hi|Hi]; [|by eapply task_step].
    exfalso. apply pstep_inv in E as (t0 & t1 & Ht0 & _ & Hm & _). rewrite Hi, Ht in Ht0. injection Ht0 as <-.
    destruct l as [j u|j r u|j k|j k|j]; cbn [moves task_of] in *; subst j.
    - by apply (Hb u).
    - by destruct Hm as (? & -> & _).
    - by destruct Hm as (? & ? & ? & -> & _).
    - by destruct Hm as (? & ? & -> & _).
    - by destruct Hm as (_ & [(? & -> & _)|(? & -> & _)]).
  Qed.
  Lemma done_stays ls (s s' : pst) i e : prun parse cf ls s = Some s' -> p_tasks s !! i = Some (PDone e) -> p_tasks s' !! i = Some (PDone e).
  Proof.
    revert s. induction ls as [|l ls IH]; intros s H Hi; cbn [prun] in H; [by injection H as <-|]. destruct (pstep parse cf l s) as [s1|] eqn:E; [|done].
    apply (IH s1); [done|]. eapply inactive_step; [exact E|done|done|]. intros u ->. cbn [pstep] in E. by rewrite Hi in E.
  Qed.
  (** A run that has received a list ends well or is still at it. *)
  Lemma underway_step l (s s' : pst) i t : pstep parse cf l s = Some s' -> p_tasks s !! i = Some t -> underway t ->
    exists t', p_tasks s' !! i = Some t' /\ underway t'.
  Proof.
    intros E Ht Hu. destruct (decide (task_of l = i)) as [Hi|Hi]; [|exists t; split; [by eapply task_step|done]].
    apply pstep_inv in E as (t0 & t1 & Ht0 & Htasks & Hm & _). rewrite Hi, Ht in Ht0. injection Ht0 as <-. exists t1.
    split; [rewrite Htasks, Hi; apply list_lookup_insert; by apply lookup_lt_Some in Ht|].
    destruct l as [j u|j r u|j k|j k|j]; cbn [moves task_of] in *.
    - by destruct Hm as (-> & _).
    - by destruct Hm as (? & -> & _).
    - by destruct Hm as (? & ? & ? & -> & _ & -> & _).
    - by destruct Hm as (? & ? & -> & _ & -> & _).
    - by destruct Hm as (_ & [(? & -> & ->)|(? & -> & ->)]).
  Qed.
  Lemma underway_run ls (s s' : pst) i t : prun parse cf ls s = Some s' -> p_tasks s !! i = Some t -> underway t ->
    exists t', p_tasks s' !! i = Some t' /\ underway t'.
  Proof.
    revert s t. induction ls as [|l ls IH]; intros s t H Ht Hu; cbn [prun] in H; [injection H as <-; eauto|].
    destruct (pstep parse cf l s) as [s1|] eqn:E; [|done]. destruct (underway_step _ _ _ _ _ E Ht Hu) as (t' & Ht' & Hu'). by eapply IH.
  Qed.
  (** A run that has ended well has received an answer since it had not begun. *)
  Lemma answer_of_run ls (s s' : pst) i : prun parse cf ls s = Some s' -> p_tasks s !! i = Some PIdle \/ (exists e, p_tasks s !! i = Some (PSent e)) ->
    p_tasks s' !! i = Some (PDone None) ->
    exists a r u b s1 e, ls = a ++ PResp i r u :: b /\ prun parse cf a s = Some s1 /\ p_tasks s1 !! i = Some (PSent e) /\
      ((exists tag bd, r = Response 304 tag bd) \/ exists tag kl, r = Response 200 tag (Doc kl)).
  Proof.
    revert s. induction ls as [|l ls IH]; intros s H Hi Hd; cbn [prun] in H.
    - injection H as ->. rewrite Hd in Hi. destruct Hi as [?|[? ?]]; done.
    - destruct (pstep parse cf l s) as [s1|] eqn:E; [|done].
      assert ((p_tasks s1 !! i = Some PIdle \/ exists e, p_tasks s1 !! i = Some (PSent e)) ->
        exists a r u b s2 e, l :: ls = a ++ PResp i r u :: b /\ prun parse cf a s = Some s2 /\ p_tasks s2 !! i = Some (PSent e) /\
          ((exists tag bd, r = Response 304 tag bd) \/ exists tag kl, r = Response 200 tag (Doc kl))) as Hgo.
      { intros Hi1. destruct (IH _ H Hi1 Hd) as (a & r & u & b & s2 & e & -> & Ha & Hr). exists (l :: a), r, u, b, s2, e. cbn [app prun]. by rewrite E. }
      destruct (decide (task_of l = i)) as [Ht|Ht].
      2:{ apply Hgo. destruct Hi as [Hi|[e Hi]]; [left|right; exists e]; by eapply task_step. }
      pose proof E as E0. apply pstep_inv in E as (t & t' & Ht0 & Htasks & Hm & _). rewrite Ht in Ht0.
      assert (p_tasks s1 !! i = Some t') as Ht' by (rewrite Htasks, Ht; apply list_lookup_insert; by apply lookup_lt_Some in Ht0).
      destruct l as [j u|j r u|j k|j k|j]; cbn [moves task_of] in *; subst j.
      + destruct Hm as (-> & _ & ->). apply Hgo. rewrite Ht'. destruct (pc_url_ok cf); [right; by eexists|].
        exfalso. pose proof (failure_is_final parse cf _ _ _ _ _ H Ht') as Hx. by rewrite Hd in Hx.
      + destruct Hm as (e & -> & Hr & _). exists [], r, u, ls, s, e. split; [done|]. split; [done|]. split; [done|].
        destruct t' as [|e'|cm todo|cm todo|[er|]|].
        * symmetry in Hr. by apply respond_doc in Hr.
        * symmetry in Hr. by apply respond_doc in Hr.
        * symmetry in Hr. apply respond_doc in Hr as (_ & tag & kl & -> & _). right. by exists tag, kl.
        * symmetry in Hr. by apply respond_doc in Hr.
        * exfalso. pose proof (failure_is_final parse cf _ _ _ _ _ H Ht') as Hx. by rewrite Hd in Hx.
        * left. destruct r as [?|status tag bd]; [done|]. cbn [respond] in Hr. destruct (Z.eqb_spec status 304) as [->|]; [by exists tag, bd|].
          destruct (negb (status =? 200)); [done|]. destruct bd as [| |l]; [done|done|]. cbn [fst] in Hr. by destruct (decode_keys parse l ∅).
        * exfalso. clear -H Ht' Hd. revert s1 H Ht'. induction ls as [|l ls IH]; intros s1 H Ht'; cbn [prun] in H; [injection H as ->; by rewrite Hd in Ht'|].
          destruct (pstep parse cf l s1) as [s2|] eqn:E; [|done]. apply (IH s2); [done|]. eapply inactive_step; [exact E|exact Ht'|done|].
          intros u ->. cbn [pstep] in E. by rewrite Ht' in E.
      + destruct Hi as [Hi|[e Hi]]; rewrite Hi in Ht0; injection Ht0 as <-; by destruct Hm as (? & ? & ? & ? & _).
      + destruct Hi as [Hi|[e Hi]]; rewrite Hi in Ht0; injection Ht0 as <-; by destruct Hm as (? & ? & ? & _).
      + destruct Hi as [Hi|[e Hi]]; rewrite Hi in Ht0; injection Ht0 as <-; by destruct Hm as (_ & [(? & ? & _)|(? & ? & _)]).
  Qed.
  Lemma result_ended (s : pst) m r : update_result s m = Some r -> r <> Panic ->
    exists e e', p_tasks s !! (2 * m)%nat = Some (PDone e) /\ p_tasks s !! (2 * m + 1)%nat = Some (PDone e').
  Proof.
    unfold update_result. intros H Hr. destruct (p_tasks s !! (2 * m)%nat) as [[| | | |[]|]|], (p_tasks s !! (2 * m + 1)%nat) as [[| | | |[]|]|]; try done; eauto; by injection H as <-.
  Qed.
  (** A list that decodes sets its run to work. *)
  Lemma good_underway (s s' : pst) i tag kl u : pstep parse cf (PResp i (Response 200 tag (Doc kl)) u) s = Some s' -> good_list parse kl ->
    exists t, p_tasks s' !! i = Some t /\ underway t.
  Proof.
    intros E Hg. apply pstep_inv in E as (t & t' & Ht0 & Htasks & (e & -> & -> & _) & _). cbn [task_of] in *. eexists. split; [rewrite Htasks; apply list_lookup_insert; by apply lookup_lt_Some in Ht0|].
    apply (decode_keys_ok parse _ ∅) in Hg as [cm Hcm]. cbn. by rewrite Hcm.
  Qed.
End keys.

Section claims.
  Context (K : crypto) (X : jwt_ext) {O : Type} (U : unicode) (parse : str -> option (verifier K)).
  Context (cf : @sconf O) (t0 : time) (n nk nj nu : nat) (calls : nat -> list bool).
  Notation s0 := (yinit K cf t0 n nk nj nu calls).
  Notation yrun := (yrun K X U parse cf s0).
  Notation happened := (happened K X U parse cf s0).
  Notation passed := (passed K X U parse cf s0).
  Notation key_published := (key_published K parse).
  Notation genuine := (genuine K X parse cf).
  Notation ylabel := (@ylabel K O).
  Notation world_label := (@world_label K O).
  Notation now := (now K).
  Notation ystep := (ystep K X U parse cf).
  Context (on : daemon -> bool) (c : daemon -> timing).
  Notation world_step := (world_step K X U parse cf on c).
  Notation wsysl := (wsysl K).
  Notation wloopl := (wloopl K).

  (** ** Specification *)
  (** No Update of the two key daemons is at work, and those from [nx] on have not been called. *)
  Definition keys_ready (s : sys K) (nx : nat) : Prop := forall i t, p_tasks (y_keys K s) !! i = Some t ->
    active t = false /\ ((nx <= Nat.div2 i)%nat -> t = PIdle).
  (** The loop of [d] goes on, is read from, and from [t] on the Updates it calls succeed. *)
  Definition healthy (d : daemon) (s : sys K) (ws : list world_label) (t : time) : Prop :=
    sensible (c d) /\ uncancelled (wloopl d ws) /\ (d <> DJwks -> read (c d) (kind_of d) (text_of d) (tinit (c d) (now s)) (wloopl d ws)) /\
    (forall v e, (v, Some (RUpdated (Some e))) ∈ wloopl d ws -> v <= t).
  Definition delay (d : daemon) : duration := c_refresh (c d) + turn (c d) + c_update (c d).
  (** During [x] the server says "not modified" for the environment only after it has sent a list that
      decodes.  (So it is when the list was changed at the beginning of [x], got a new ETag, and all
      entries of the new lists can be decoded.) *)
  Definition renewed (x : list ylabel) (z : bool) : Prop :=
    forall x1 i tag b t x2, x = x1 ++ YKey K (PResp i (Response 304 tag b) t) :: x2 -> Nat.even i = z ->
    exists i' tag' kl t', Nat.even i' = z /\ YKey K (PResp i' (Response 200 tag' (Doc kl)) t') ∈ x1 /\ good_list parse kl.
  (** Every call whose token has been validated returns within [d]. *)
  Definition returns_within (ls : list ylabel) (s : sys K) (d : duration) : Prop :=
    forall l1 s1, passed ls l1 s1 -> now s1 + d < now s ->
    exists l2 s2, passed l2 l1 s1 /\ passed ls l2 s2 /\ now s2 <= now s1 + d /\
      forall j q t, z_tasks (y_auth K s1) !! j = Some t -> validated_call q t -> exists q r, z_tasks (y_auth K s2) !! j = Some (CDone q r).

  (** ** Facts *)
  Lemma pick_place {A} (p : per A) d x : pick (place d x p) d = x.
  Proof. by destruct d. Qed.
  Lemma pick_place_ne {A} (p : per A) d d' x : d <> d' -> pick (place d x p) d' = pick p d'.
  Proof. by destruct d, d'. Qed.
  Lemma same_spec d d' : same d d' = true <-> d = d'.
  Proof. by destruct d, d'. Qed.
  Lemma per_eq {A} (p q : per A) : (forall d, pick p d = pick q d) -> p = q.
  Proof. intros H. destruct p, q. f_equal; [apply (H DPol)|apply (H DKeys)|apply (H DJwks)]. Qed.
  Lemma tstep_det' c' k pre t l s s1 s2 : tstep c' k pre t l s s1 -> tstep c' k pre t l s s2 -> s1 = s2.
  Proof. intros H1 H2. destruct H1; inversion H2; subst; [done|]. by simplify_eq. Qed.
  Lemma world_step_det l w w1 w2 : world_step l w w1 -> world_step l w w2 -> w1 = w2.
  Proof.
    assert (forall l s s1 s2, ystep l s s1 -> ystep l s s2 -> s1 = s2) as Hdet by (intros; by eapply ystep_det).
    destruct 1 as [w l s' Hs Hok|w t s' L Hs Ht|w d l a Hon Hl Ht _ _|w d m r e a Hon Ht _ _ _|w d l a Hon Hl Ht]; inversion 1; subst.
    - f_equal. by eapply Hdet.
    - f_equal; [by eapply Hdet|]. apply per_eq. intros d. specialize (Ht d). match goal with H : forall d, if on d then _ else _ |- _ => specialize (H d); rename H into Ht2 end.
      destruct (on d); [by eapply tstep_det'|congruence].
    - f_equal; [f_equal; by eapply tstep_det'].
    - exfalso. naive_solver.
    - exfalso. destruct Hl as [-> | ->]; done.
    - exfalso. naive_solver.
    - f_equal. f_equal. by eapply tstep_det'.
    - done.
    - exfalso. match goal with H : l = RRetry \/ l = RFire |- _ => destruct H as [-> | ->] end; done.
    - done.
    - f_equal. f_equal. by eapply tstep_det'.
  Qed.

  Section start.
  Context (ls0 : list ylabel) (sb : sys K) (nx0 : per nat) (Hb : yrun ls0 sb).
  Notation w0 := (wstart K c sb nx0).
  Notation world_run := (world_run K X U parse cf on c w0).
  Lemma world_run_snoc ws l w' : world_run (ws ++ [l]) w' -> exists w, world_run ws w /\ world_step l w w'.
  Proof. intros H. inversion H as [Hx|? ? ? ? ? ? Hx]; [by destruct ws|]. apply app_inj_tail in Hx as [-> ->]. eauto. Qed.
  Lemma world_run_det ws w w' : world_run ws w -> world_run ws w' -> w = w'.
  Proof.
    revert w w'. induction ws as [|l ws IH] using rev_ind; intros w w' H1 H2.
    - inversion H1 as [|? ? ? ? ? ? Hx]; [|by destruct ws]. inversion H2 as [|? ? ? ? ? ? Hx]; [done|by destruct ws].
    - apply world_run_snoc in H1 as (a & H1 & S1), H2 as (b & H2 & S2). assert (a = b) as -> by (by apply IH). by eapply world_step_det.
  Qed.
  Lemma world_run_split a b w : world_run (a ++ b) w -> exists w1, world_run a w1.
  Proof.
    revert w. induction b as [|l b IH] using rev_ind; intros w H; [rewrite app_nil_r in H; eauto|]. rewrite app_assoc in H. apply world_run_snoc in H as (w1 & H & _). by eapply IH.
  Qed.
  Lemma world_run_at a l b w : world_run (a ++ l :: b) w -> exists w1 w2, world_run a w1 /\ world_step l w1 w2 /\ world_run (a ++ [l]) w2.
  Proof.
    intros H. replace (a ++ l :: b) with ((a ++ [l]) ++ b) in H by (by rewrite <- app_assoc). destruct (world_run_split _ _ _ H) as (w2 & H2). pose proof H2 as H3. apply world_run_snoc in H3 as (w1 & H1 & Hs). eauto.
  Qed.
  Lemma wsysl_app (a b : list world_label) : wsysl (a ++ b) = wsysl a ++ wsysl b.
  Proof. apply omap_app. Qed.
  Lemma wloopl_app d (a b : list world_label) : wloopl d (a ++ b) = wloopl d a ++ wloopl d b.
  Proof. apply omap_app. Qed.
  Lemma world_run_sys ws w : world_run ws w -> yrun (ls0 ++ wsysl ws) (w_sys K w).
  Proof.
    induction 1 as [|ws l w w' _ IH Hs]; [by rewrite app_nil_r|]. rewrite wsysl_app, app_assoc.
    destruct Hs; cbn; rewrite ?app_nil_r; try done; (eapply Y_snoc; [exact IH|done]).
  Qed.
  Lemma world_run_loop d ws w : on d = true -> world_run ws w ->
    trun (c d) (kind_of d) (text_of d) (wloopl d ws) (tinit (c d) (now sb)) (pick (w_loop K w) d) /\ t_now (pick (w_loop K w) d) = now (w_sys K w).
  Proof.
    intros Hon. induction 1 as [|ws l w w' _ [IH1 IH2] Hs]; [destruct d; (split; [constructor|done])|]. rewrite wloopl_app.
    assert (forall d' t l a, on d' = true -> tstep (c d') (kind_of d') (text_of d') (now (w_sys K w)) (Some l) (pick (w_loop K w) d') a -> t = now (w_sys K w) ->
      trun (c d) (kind_of d) (text_of d) (wloopl d ws ++ wloopl d [WLoop K d' t l : world_label]) (tinit (c d) (now sb)) (pick (place d' a (w_loop K w)) d) /\ t_now (pick (place d' a (w_loop K w)) d) = now (w_sys K w)) as Hl.
    { intros d' t l' a Hon' Ht ->. cbn [Running.wloopl omap list_omap]. destruct (same d d') eqn:E.
      - apply same_spec in E as <-. rewrite pick_place. split; [apply trun_app; exists (pick (w_loop K w) d); split; [done|]; econstructor; [exact Ht|constructor]|]. by inversion Ht.
      - rewrite pick_place_ne by (intros ->; by destruct d). by rewrite app_nil_r. }
    destruct Hs as [w l s' Hs Hok|w t s' L Hs Ht|w d' l a Hon' Hcl Ht _ _|w d' m r e a Hon' Ht _ _ _|w d' l a Hon' Hcl Ht]; cbn [w_loop w_sys]; try (by apply Hl).
    - cbn [Running.wloopl omap list_omap]. rewrite app_nil_r. split; [done|]. rewrite IH2. symmetry. eapply clock_step; [exact Hs|]. by destruct l.
    - cbn [Running.wloopl omap list_omap]. specialize (Ht d). rewrite Hon in Ht. split; [apply trun_app; exists (pick (w_loop K w) d); split; [done|]; econstructor; [exact Ht|constructor]|].
      inversion Ht as [? ? Heq|]; subst. cbn [t_now]. inversion Hs as [? ? ? Hz| | | | | | | | | | | |]; subst. cbn [zstep] in Hz. case_match; [|done]. by injection Hz as <-.
  Qed.
  Lemma wnow_mono a b w1 w : world_run a w1 -> world_run (a ++ b) w -> now (w_sys K w1) <= now (w_sys K w).
  Proof. intros H1 H2. apply world_run_sys in H1, H2. rewrite wsysl_app, app_assoc in H2. by eapply yrun_clock. Qed.
  Lemma wnx_mono d a b w1 w : world_run a w1 -> world_run (a ++ b) w -> (pick (w_nx K w1) d <= pick (w_nx K w) d)%nat.
  Proof.
    intros H1. revert w. induction b as [|l b IH] using rev_ind; intros w H; [rewrite app_nil_r in H; assert (w1 = w) as -> by (by eapply world_run_det); lia|].
    rewrite app_assoc in H. apply world_run_snoc in H as (w2 & H & Hs). specialize (IH _ H). destruct Hs as [| |? d'| |]; cbn [w_nx]; try done.
    destruct (same d' d) eqn:E; [apply same_spec in E as ->; rewrite pick_place; lia|]. rewrite pick_place_ne by (intros ->; by destruct d). done.
  Qed.
  Lemma wprefixes (a b : list world_label) x y : a ++ x = b ++ y -> (exists z, b = a ++ z) \/ (exists z, a = b ++ z /\ z <> []).
  Proof.
    intros H. apply app_eq_inv in H as [(k & -> & _)|(k & -> & _)]; [|left; by eexists]. destruct k as [|z k]; [left; exists []; by rewrite !app_nil_r|right; by eexists].
  Qed.
  (** The loop is in the last Update it called. *)
  Lemma cur_inv d ws w m : world_run ws w -> pick (w_cur K w) d = Some m -> S m = pick (w_nx K w) d.
  Proof.
    intros H. revert m. induction H as [|ws l w w' _ IH Hs]; intros m; [by destruct d|].
    destruct Hs as [w l s' Hs Hok|w t s' L Hs Ht|w d' l a Hon' Hcl Ht _ _|w d' m' r e a Hon' Ht _ _ _|w d' l a Hon' Hcl Ht]; cbn [w_cur w_nx]; try apply IH.
    - destruct (same d' d) eqn:E; [apply same_spec in E as ->; rewrite !pick_place; by intros [= ->]|]. rewrite !pick_place_ne by (intros ->; by destruct d). apply IH.
    - destruct (same d' d) eqn:E; [apply same_spec in E as ->; by rewrite pick_place|]. rewrite pick_place_ne by (intros ->; by destruct d). apply IH.
  Qed.
  Lemma wcall_step d v l w w' : l = RRetry \/ l = RFire -> world_step (WLoop K d v l) w w' ->
    now (w_sys K w) = v /\ w_sys K w' = w_sys K w /\ callable K d (w_sys K w) (pick (w_nx K w) d) /\ pick (w_cur K w') d = Some (pick (w_nx K w) d) /\ pick (w_nx K w') d = S (pick (w_nx K w) d).
  Proof.
    intros Hl H. remember (WLoop K d v l) as lab eqn:E. destruct H as [| |w d' l2 a Hon Hl2 Ht Hcl Hc|w d' m r e a Hon Ht Hc Hu Hr|w d' l2 a Hon Hl2 Ht]; try discriminate E; injection E as E0 E1 E2; subst.
    - cbn [w_sys w_cur w_nx]. by rewrite !pick_place.
    - by destruct Hl.
    - by destruct Hl as [-> | ->].
  Qed.
  Lemma wreturn_step d v w w' : world_step (WLoop K d v (RUpdated None)) w w' ->
    exists m, pick (w_cur K w) d = Some m /\ outcome_of K d (w_sys K w) m = Some (Ok tt) /\ now (w_sys K w) = v.
  Proof.
    intros H. remember (WLoop K d v (RUpdated None)) as lab eqn:E. destruct H as [| |w d' l a Hon Hl Ht Hcl Hc|w d' m r e a Hon Ht Hc Hu Hr|w d' l a Hon Hl Ht]; try discriminate E; injection E as E0 E1 E2; subst.
    - by destruct Hl.
    - exists m. destruct r as [[]| |]; [done|done|by destruct Hr].
    - done.
  Qed.
  Lemma called d ws w m : world_run ws w -> pick (w_cur K w) d = Some m ->
    exists a u l b wa, ws = a ++ WLoop K d u l :: b /\ (l = RRetry \/ l = RFire) /\ world_run a wa /\ callable K d (w_sys K wa) m /\ pick (w_nx K wa) d = m.
  Proof.
    intros H. revert m. induction H as [|ws l w w' Hw IH Hs]; intros m; [by destruct d|].
    assert (pick (w_cur K w) d = Some m -> exists a u l' b wa, ws ++ [l] = a ++ WLoop K d u l' :: b /\ (l' = RRetry \/ l' = RFire) /\ world_run a wa /\ callable K d (w_sys K wa) m /\ pick (w_nx K wa) d = m) as Hold.
    { intros Hc. destruct (IH _ Hc) as (a & u & l' & b & wa & -> & Hr). exists a, u, l', (b ++ [l]), wa. by rewrite <- app_assoc. }
    destruct Hs as [w l s' Hs Hok|w t s' L Hs Ht|w d' l a Hon' Hcl Ht Hcall _|w d' m' r e a Hon' Ht _ _ _|w d' l a Hon' Hcl Ht]; cbn [w_cur]; try apply Hold.
    - destruct (same d' d) eqn:E; [|rewrite pick_place_ne by (intros ->; by destruct d); apply Hold].
      apply same_spec in E as ->. rewrite pick_place. intros [= <-]. by exists ws, (now (w_sys K w)), l, [], w.
    - destruct (same d' d) eqn:E; [apply same_spec in E as ->; by rewrite pick_place|]. rewrite pick_place_ne by (intros ->; by destruct d). apply Hold.
  Qed.
  (** An Update that begins after [t] and returns nil, in time. *)
  Lemma fresh_update d ws w wr sr x t : on d = true -> world_run ws w -> ws = wr ++ x -> world_run wr sr -> now (w_sys K sr) <= t ->
    healthy d sb ws t -> t + delay d < now (w_sys K w) ->
    exists a b x' wa wv m, x = a ++ b ++ x' /\ world_run (wr ++ a) wa /\ world_run (wr ++ a ++ b) wv /\
      callable K d (w_sys K wa) m /\ pick (w_nx K wa) d = m /\ pick (w_cur K wv) d = Some m /\ outcome_of K d (w_sys K wv) m = Some (Ok tt) /\ now (w_sys K wv) <= t + delay d.
  Proof.
    intros Hon Hw -> Hwr Ht (Hc & Hunc & Hread & Hfail) Hlate. destruct (world_run_loop d _ _ Hon Hw) as [Htr Hnow].
    assert (now sb <= now (w_sys K sr)) as Hsb by (eapply yrun_clock; [exact Hb|exact (world_run_sys _ _ Hwr)]).
    assert (read (c d) (kind_of d) (text_of d) (tinit (c d) (now sb)) (wloopl d (wr ++ x))) as Hread'.
    { destruct d; try (by apply Hread). apply C84_jwk_needs_no_reader. }
    destruct (C84_freshness (c d) _ _ (now sb) _ _ t Hc Htr Hunc Hread' Hfail) as (tr1 & u & l & tr2 & v & tr3 & Etr & Hbe & Hu & Hv); [lia|rewrite Hnow; unfold delay in *; lia|].
    apply omap_split in Etr as (a & lab & rest & Ea & _ & Hlab & Erest). apply omap_split in Erest as (b & lab2 & r3 & -> & _ & Hlab2 & _).
    assert (exists l', lab = WLoop K d u l' /\ (l' = RRetry \/ l' = RFire)) as (l' & -> & Hl').
    { destruct lab as [|t'|d' t' l']; simplify_eq; [by destruct Hbe|]. destruct (same d d') eqn:E; [|done]. apply same_spec in E as <-. simplify_eq. exists l'. split; [done|]. destruct Hbe as [[= ->]|[= ->]]; auto. }
    assert (lab2 = WLoop K d v (RUpdated None)) as ->.
    { destruct lab2 as [|t'|d' t' l2]; simplify_eq. destruct (same d d') eqn:E; [|done]. apply same_spec in E as <-. by simplify_eq. }
    clear Hlab Hlab2. rewrite Ea in Hw. destruct (world_run_at _ _ _ _ Hw) as (wa & wa' & Hwa & Hsa & Hwa').
    assert (world_run ((a ++ WLoop K d u l' :: b) ++ WLoop K d v (RUpdated None) :: r3) w) as Hw2 by (by rewrite <- app_assoc).
    destruct (world_run_at _ _ _ _ Hw2) as (wv & wv' & Hwv & Hsv & _).
    destruct (wcall_step _ _ _ _ _ Hl' Hsa) as (Hna & _ & Hcl & _ & Hnx). destruct (wreturn_step _ _ _ _ Hsv) as (m & Hcur & Hout & Hnv).
    assert (exists a', a = wr ++ a') as [a' ->].
    { destruct (wprefixes _ _ _ _ Ea) as [[y ->]|(y & -> & _)]; [by eexists|]. pose proof (wnow_mono _ _ _ _ Hwa Hwr). lia. }
    assert (pick (w_nx K sr) d <= pick (w_nx K wa) d)%nat as Hle by (by eapply wnx_mono).
    assert (pick (w_nx K wa) d < pick (w_nx K wv) d)%nat as Hlt.
    { assert (pick (w_nx K wa') d <= pick (w_nx K wv) d)%nat; [|lia]. eapply (wnx_mono d ((wr ++ a') ++ [WLoop K d u l']) b); [done|]. by rewrite <- app_assoc. }
    pose proof (cur_inv _ _ _ _ Hwv Hcur) as Hm.
    destruct (called _ _ _ _ Hwv Hcur) as (pa & ul & pl & pb & wp & Ep & Hpl & Hwp & Hclp & Hnxp).
    assert (exists y, pa = wr ++ y) as [y ->].
    { rewrite <- app_assoc in Ep. destruct (wprefixes _ _ _ _ Ep) as [[y ->]|(y & Hy & Hne)]; [by eexists|]. exfalso.
      destruct y as [|y0 y]; [done|]. subst wr. rewrite <- app_assoc in Ep. apply app_inv_head in Ep. cbn in Ep. injection Ep as -> _.
      pose proof Hwr as Hwr2. apply world_run_at in Hwr2 as (w1 & w2 & Hw1 & Hs1 & Hwr2). assert (w1 = wp) as -> by (by eapply world_run_det).
      destruct (wcall_step _ _ _ _ _ Hpl Hs1) as (_ & _ & _ & _ & Hn2).
      replace (pa ++ WLoop K d ul pl :: y) with ((pa ++ [WLoop K d ul pl]) ++ y) in Hwr by (by rewrite <- app_assoc).
      pose proof (wnx_mono d _ _ _ _ Hwr2 Hwr). lia. }
    exists y, (WLoop K d ul pl :: pb), (WLoop K d v (RUpdated None) :: r3), wp, wv, m.
    rewrite Ep, <- app_assoc in Hwv. split_and!; try done; [|unfold delay; lia].
    apply (app_inv_head wr). rewrite Ea. transitivity (((wr ++ a') ++ WLoop K d u l' :: b) ++ WLoop K d v (RUpdated None) :: r3); [by rewrite <- !app_assoc|]. rewrite Ep. by rewrite <- !app_assoc.
  Qed.
  Lemma keys_other l s s' : ystep l s s' -> match l with YKey _ _ => False | _ => True end -> y_keys K s' = y_keys K s.
  Proof. destruct 1; intros Hl; done. Qed.
  Lemma keys_inv ws w : keys_ready sb (pick nx0 DKeys) -> world_run ws w -> forall i t, p_tasks (y_keys K (w_sys K w)) !! i = Some t ->
    (active t = true -> pick (w_cur K w) DKeys = Some (Nat.div2 i)) /\ ((pick (w_nx K w) DKeys <= Nat.div2 i)%nat -> t = PIdle).
  Proof.
    intros H0. induction 1 as [|ws l w w' Hw IH Hs]; intros i t Hi.
    { destruct (H0 _ _ Hi) as [Ha Hn]. split; [by rewrite Ha|done]. }
    destruct Hs as [w l s' Hs Hok|w u s' L Hs Ht|w d' l a Hon' Hcl Ht Hcall Hcur|w d' m r e a Hon' Ht Hcur Hout Hsh|w d' l a Hon' Hcl Ht]; cbn [w_sys w_cur w_nx] in *.
    - destruct l as [| l | | | | | | | | | |]; try (rewrite (keys_other _ _ _ Hs) in Hi by done; by apply IH).
      inversion Hs as [|? ? k Hp Hkt| | | | | | | | | | |]; subst. cbn [set_keys y_keys] in Hi.
      destruct (decide (task_of l = i)) as [Hti|Hti].
      + pose proof Hp as Hp0. apply pstep_inv in Hp as (t1 & t2 & Ht1 & Htasks & Hm & _). rewrite Hti in Ht1. destruct (IH _ _ Ht1) as [I1 I2].
        destruct (decide (active t1 = true)) as [Ha|Ha].
        * specialize (I1 Ha). split; [done|]. intros Hge. pose proof (cur_inv _ _ _ _ Hw I1). lia.
        * assert (exists u, l = PBegin i u) as [u ->].
          { destruct l as [j u|j r u|j k'|j k'|j]; cbn [task_of moves] in *; subst j; [by eexists|exfalso..]; apply Ha.
            - by destruct Hm as (? & -> & _).
            - by destruct Hm as (? & ? & ? & -> & _).
            - by destruct Hm as (? & ? & -> & _).
            - by destruct Hm as (_ & [(? & -> & _)|(? & -> & _)]). }
          cbn [may] in Hok. split; [done|]. intros Hge. pose proof (cur_inv _ _ _ _ Hw Hok). lia.
      + apply IH. apply pstep_inv in Hp as (t1 & t2 & _ & Htasks & _). by rewrite Htasks, list_lookup_insert_ne in Hi.
    - rewrite (keys_other _ _ _ Hs) in Hi by done. by apply IH.
    - destruct (same d' DKeys) eqn:E; [|rewrite !pick_place_ne by (by destruct d'); by apply IH]. apply same_spec in E as ->. rewrite !pick_place.
      destruct (IH _ _ Hi) as [I1 I2]. split; [intros Ha; specialize (I1 Ha); by rewrite Hcur in I1|]. intros Hge. apply I2. lia.
    - destruct (same d' DKeys) eqn:E; [|rewrite !pick_place_ne by (by destruct d'); by apply IH]. apply same_spec in E as ->. rewrite pick_place.
      destruct (IH _ _ Hi) as [I1 I2]. split; [|done]. intros Ha. exfalso. specialize (I1 Ha). rewrite Hcur in I1. injection I1 as ->. cbn [outcome_of] in Hout.
      assert (i = 2 * Nat.div2 i \/ i = 2 * Nat.div2 i + 1)%nat as Hpar.
      { pose proof (Nat.div2_odd i) as Hx. destruct (Nat.odd i); cbn [Nat.b2n] in Hx; lia. }
      assert (r <> Panic) as Hr by (by intros ->). destruct (result_ended _ _ _ Hout Hr) as (e1 & e2 & He1 & He2).
      destruct Hpar as [Hpar|Hpar]; [rewrite <- Hpar, Hi in He1; injection He1 as ->|rewrite <- Hpar, Hi in He2; injection He2 as ->]; done.
    - by apply IH.
  Qed.
  (** At most one run of an environment is at work. *)
  Lemma one_run ws w i j t t' : keys_ready sb (pick nx0 DKeys) -> world_run ws w -> Nat.even i = Nat.even j ->
    p_tasks (y_keys K (w_sys K w)) !! i = Some t -> p_tasks (y_keys K (w_sys K w)) !! j = Some t' -> active t = true -> active t' = true -> i = j.
  Proof.
    intros H0 Hw Hz Hi Hj Ha Ha'. destruct (keys_inv _ _ H0 Hw _ _ Hi) as [I1 _], (keys_inv _ _ H0 Hw _ _ Hj) as [J1 _].
    specialize (I1 Ha). specialize (J1 Ha'). rewrite I1 in J1. injection J1 as Hd.
    rewrite (Nat.div2_odd i), (Nat.div2_odd j), Hd, <- !Nat.negb_even, Hz. done.
  Qed.
  Lemma settled_at ws w i e z : keys_ready sb (pick nx0 DKeys) -> world_run ws w -> p_tasks (y_keys K (w_sys K w)) !! i = Some (PSent e) -> Nat.even i = z -> settled K (w_sys K w) z.
  Proof.
    intros H0 Hw Hi Hz j t Hj Ht. destruct (applying t) eqn:Ea; [|done]. assert (i = j) as <-; [|by rewrite Hi in Ht; injection Ht as <-].
    eapply (one_run _ _ i j); try done; [congruence|by apply applying_active].
  Qed.
  (** The part of a run that concerns the key daemon. *)
  Lemma keyls_split (x : list world_label) (a : list plabel) l b : keyls K (wsysl x) = a ++ l :: b ->
    exists x1 x2, x = x1 ++ WSys K (YKey K l) :: x2 /\ keyls K (wsysl x1) = a /\ keyls K (wsysl x2) = b.
  Proof.
    revert a. induction x as [|lab x IH]; intros a H; [by destruct a|].
    assert ((exists l', lab = WSys K (YKey K l')) \/ keyls K (wsysl (lab :: x)) = keyls K (wsysl x)) as [[l' ->]|Hn].
    { destruct lab as [y| |]; [|by right|by right]. destruct y; try (by right). left. by eexists. }
    - change (keyls K (wsysl (WSys K (YKey K l') :: x))) with (l' :: keyls K (wsysl x)) in H. destruct a as [|a0 a]; cbn in H.
      + injection H as -> <-. by exists [], x.
      + injection H as -> H. destruct (IH _ H) as (x1 & x2 & -> & <- & <-). by exists (WSys K (YKey K a0) :: x1), x2.
    - rewrite Hn in H. destruct (IH _ H) as (x1 & x2 & -> & Ha & <-). exists (lab :: x1), x2. split; [done|]. split; [|done].
      rewrite <- Ha. clear -Hn. destruct lab as [y| |]; [|done|done]. destruct y; try done.
      exfalso. change (keyls K (wsysl (WSys K (YKey K l) :: ?x))) with (l :: keyls K (wsysl x)) in Hn. 
      assert (forall (A : Type) (a : A) l, a :: l <> l) as Hx. { intros A a l'. induction l' as [|b l' IHl]; [done|]. intros [= -> Hc]. by apply IHl. }
      by apply Hx in Hn.
  Qed.
  Lemma run_between a b w1 w2 : world_run a w1 -> world_run (a ++ b) w2 -> prun parse (s_p cf) (keyls K (wsysl b)) (y_keys K (w_sys K w1)) = Some (y_keys K (w_sys K w2)).
  Proof.
    intros H1 H2. apply world_run_sys, run_keys in H1, H2. rewrite wsysl_app, app_assoc, keyls_app, prun_app, H1 in H2. done.
  Qed.
  Lemma renewal wr a b x' wa wv m z : keys_ready sb (pick nx0 DKeys) -> world_run (wr ++ a) wa -> world_run (wr ++ a ++ b) wv ->
    callable K DKeys (w_sys K wa) m -> outcome_of K DKeys (w_sys K wv) m = Some (Ok tt) -> renewed (wsysl (a ++ b ++ x')) z ->
    exists y1 y2 w1, a ++ b = y1 ++ y2 /\ world_run (wr ++ y1) w1 /\ settled K (w_sys K w1) z /\ refreshed K (wsysl y2) (w_sys K wv) z.
  Proof.
    intros H0 Ha Hv [Hc1 Hc2] Hout Hren. cbn [outcome_of] in Hout. apply Prop_PubKey.C29_update_nil_iff in Hout as [Hd1 Hd2].
    set (i := if z then (2 * m)%nat else (2 * m + 1)%nat).
    assert (Nat.even i = z) as Hz by (subst i; destruct z; [by rewrite Nat.even_mul|by rewrite Nat.even_add, Nat.even_mul]).
    assert (p_tasks (y_keys K (w_sys K wa)) !! i = Some PIdle) as Hidle by (by destruct z).
    assert (p_tasks (y_keys K (w_sys K wv)) !! i = Some (PDone None)) as Hdone by (by destruct z). clearbody i. clear Hc1 Hc2 Hd1 Hd2.
    assert (world_run ((wr ++ a) ++ b) wv) as Hv' by (by rewrite <- app_assoc). pose proof (run_between _ _ _ _ Ha Hv') as Hrun.
    destruct (answer_of_run parse (s_p cf) _ _ _ _ Hrun (or_introl Hidle) Hdone) as (ka & r & u & kb & s1 & e & Ek & Hs1 & Hsent & Hr).
    apply keyls_split in Ek as (b1 & b2 & -> & <- & <-).
    assert (world_run (((wr ++ a) ++ b1) ++ WSys K (YKey K (PResp i r u)) :: b2) wv) as Hv2 by (by rewrite <- app_assoc).
    destruct (world_run_at _ _ _ _ Hv2) as (w1 & w1' & Hw1 & Hst1 & Hw1').
    assert (s1 = y_keys K (w_sys K w1)) as -> by (pose proof (run_between _ _ _ _ Ha Hw1) as Hx; rewrite Hs1 in Hx; by injection Hx).
    destruct Hr as [(tag & bd & ->)|(tag & kl & ->)].
    - (* not modified: a list came before *)
      destruct (Hren (wsysl (a ++ b1)) i tag bd u (wsysl (b2 ++ x'))) as (i' & tag' & kl & t' & Hz' & Hin & Hgood).
      { rewrite <- app_assoc. cbn [app]. rewrite app_assoc, wsysl_app. done. }
      { done. }
      apply (elem_of_keyls K nu calls), elem_of_list_split in Hin as (k1 & k2 & Ek). apply keyls_split in Ek as (c1 & c2 & Ec & _ & _).
      assert (world_run (wr ++ c1 ++ WSys K (YKey K (PResp i' (Response 200 tag' (Doc kl)) t')) :: c2) w1) as Hw2 by (by rewrite <- Ec, app_assoc).
      rewrite app_assoc in Hw2. destruct (world_run_at _ _ _ _ Hw2) as (w2 & w3 & Hwr2 & Hst & Hwr3).
      inversion Hst as [? ? s' Hys _| | | |]; subst. inversion Hys as [|? ? k Hp Hkt| | | | | | | | | | |]; subst.
      assert (exists e', p_tasks (y_keys K (w_sys K w2)) !! i' = Some (PSent e')) as [e' He'].
      { cbn [pstep] in Hp. destruct (p_tasks (y_keys K (w_sys K w2)) !! i') as [[]|]; try done. by eexists. }
      destruct (good_underway parse (s_p cf) _ _ _ _ _ _ Hp Hgood) as (t3 & Ht3 & Hu3).
      replace ((wr ++ c1) ++ WSys K (YKey K (PResp i' (Response 200 tag' (Doc kl)) t')) :: c2) with (((wr ++ c1) ++ [WSys K (YKey K (PResp i' (Response 200 tag' (Doc kl)) t'))]) ++ c2) in Hw2 by (by rewrite <- app_assoc).
      pose proof (run_between _ _ _ _ Hwr3 Hw2) as Hr3. cbn [w_sys set_keys y_keys] in Hr3.
      destruct (underway_run parse (s_p cf) _ _ _ _ _ Hr3 Ht3 Hu3) as (t4 & Ht4 & Hu4).
      assert (t4 = PDone None) as ->.
      { destruct (active t4) eqn:Ea; [|by destruct t4 as [| | | |[]|]]. exfalso. assert (i' = i) as -> by (eapply (one_run _ _ i' i t4 (PSent e) H0 Hw1); [congruence|done|done|done|done]).
        rewrite Hsent in Ht4. by injection Ht4 as <-. }
      assert (p_tasks (y_keys K (w_sys K wv)) !! i' = Some (PDone None)) as Hfin.
      { eapply done_stays; [|exact Ht4]. eapply run_between; [exact Hw1|exact Hv2]. }
      exists c1, (WSys K (YKey K (PResp i' (Response 200 tag' (Doc kl)) t')) :: c2 ++ WSys K (YKey K (PResp i (Response 304 tag bd) u)) :: b2), w2.
      split; [rewrite app_assoc, Ec, <- app_assoc; done|]. split; [done|]. split; [by eapply settled_at|].
      exists i', tag', kl, t'. split; [done|]. split; [left|done].
    - exists (a ++ b1), (WSys K (YKey K (PResp i (Response 200 tag (Doc kl)) u)) :: b2), w1. split; [by rewrite <- app_assoc|]. split; [by rewrite app_assoc|].
      split; [by eapply settled_at|]. exists i, tag, kl, u. split; [done|]. split; [left|done].
  Qed.

  Lemma published_more (x y z' : list ylabel) z id v : key_published y z id v -> key_published (x ++ y ++ z') z id v.
  Proof. intros (i & tag & kl & t & key & Hin & Hr). exists i, tag, kl, t, key. split; [|done]. apply elem_of_app. right. apply elem_of_app. by left. Qed.
  Lemma keys_from ws w wr sr x t z : on DKeys = true -> keys_ready sb (pick nx0 DKeys) ->
    world_run ws w -> ws = wr ++ x -> world_run wr sr -> now (w_sys K sr) <= t -> healthy DKeys sb ws t -> renewed (wsysl x) z ->
    t + delay DKeys < now (w_sys K w) ->
    exists y x' wv, x = y ++ x' /\ world_run (wr ++ y) wv /\ now (w_sys K wv) <= t + delay DKeys /\
      forall l s id v, yrun ((ls0 ++ wsysl (wr ++ y)) ++ l) s -> get_pub_key (y_keys K s) (env_of z) id = Some v -> key_published (wsysl y ++ l) z id v.
  Proof.
    intros Hon H0 Hw Ews Hwr Ht Hh Hren Hlate. destruct (fresh_update DKeys ws w wr sr x t Hon Hw Ews Hwr Ht Hh Hlate) as (a & b & x' & wa & wv & m & -> & Hwa & Hwv & Hcl & Hnx & Hcur & Hout & Hnv).
    destruct (renewal _ _ _ _ _ _ _ z H0 Hwa Hwv Hcl Hout Hren) as (y1 & y2 & w1 & Ey & Hw1 & Hset & Href).
    exists (a ++ b), x', wv. split; [by rewrite <- app_assoc|]. split; [done|]. split; [done|]. intros l s id v Hs Hg.
    rewrite Ey in *. clear Ey. apply world_run_sys in Hw1, Hwv.
    rewrite (app_assoc wr), (wsysl_app (wr ++ y1)), app_assoc in Hwv, Hs. rewrite wsysl_app, <- app_assoc.
    rewrite <- (app_nil_r (wsysl y2 ++ l)). apply published_more. by eapply (C87_keys_in_force_are_recent K X U parse cf t0 n nk nj nu calls _ _ _ _ _ _ z id v Hw1 Hset Hwv Href Hs).
  Qed.
  Lemma sets_from ws w wr sr x t : on DJwks = true -> world_run ws w -> ws = wr ++ x -> world_run wr sr -> now (w_sys K sr) <= t -> healthy DJwks sb ws t ->
    t + delay DJwks < now (w_sys K w) ->
    exists y x' wv, x = y ++ x' /\ world_run (wr ++ y) wv /\ now (w_sys K wv) <= t + delay DJwks /\ refetched K cf (wsysl y).
  Proof.
    intros Hon Hw Ews Hwr Ht Hh Hlate. destruct (fresh_update DJwks ws w wr sr x t Hon Hw Ews Hwr Ht Hh Hlate) as (a & b & x' & wa & wv & m & -> & Hwa & Hwv & Hcl & Hnx & Hcur & Hout & Hnv).
    exists (a ++ b), x', wv. split; [by rewrite <- app_assoc|]. split; [done|]. split; [done|]. cbn [outcome_of callable] in Hcl, Hout.
    destruct (j_tasks (y_jwk K (w_sys K wv)) !! m) as [tk|] eqn:Etk; [|done].
    apply world_run_sys in Hwa, Hwv. rewrite (app_assoc wr), (wsysl_app (wr ++ a)), app_assoc in Hwv.
    intros u Hu. destruct (C87_one_update_fetches_all K X U parse cf t0 n nk nj nu calls _ _ _ _ _ _ Hwa Hwv Hcl Etk Hout u Hu) as (i & set & Hin).
    exists i, set. rewrite wsysl_app. apply elem_of_app. by right.
  Qed.

  (** ** Theorems *)
  (** The public keys in force.  [wr]: the state when the list is changed at the server; [t]: any later
      time from which on the Updates succeed.  Later than [t] by a refresh period, a turn of the loop
      and an Update, every key in force was in a list received after [wr]. *)
  Theorem C88_keys_in_force ws w wr sr x t z id v : on DKeys = true -> keys_ready sb (pick nx0 DKeys) ->
    world_run ws w -> ws = wr ++ x -> world_run wr sr -> now (w_sys K sr) <= t -> healthy DKeys sb ws t -> renewed (wsysl x) z ->
    t + delay DKeys < now (w_sys K w) ->
    get_pub_key (y_keys K (w_sys K w)) (env_of z) id = Some v -> key_published (wsysl x) z id v.
  Proof.
    intros Hon H0 Hw Ews Hwr Ht Hh Hren Hlate Hg. destruct (keys_from ws w wr sr x t z Hon H0 Hw Ews Hwr Ht Hh Hren Hlate) as (y & x' & wv & -> & Hwv & _ & H).
    rewrite wsysl_app. apply (H _ (w_sys K w)); [|done]. rewrite <- app_assoc, <- wsysl_app, <- app_assoc. rewrite <- Ews. by apply world_run_sys.
  Qed.
  (** The JWK sets in force.  These requests carry no ETag, so nothing is asked of the server. *)
  Theorem C88_key_sets_in_force ws w wr sr x t kid jku k : on DJwks = true ->
    world_run ws w -> ws = wr ++ x -> world_run wr sr -> now (w_sys K sr) <= t -> healthy DJwks sb ws t ->
    t + delay DJwks < now (w_sys K w) ->
    get_key (s_j cf) (y_jwk K (w_sys K w)) kid jku = Some k ->
    exists set, last_download (jwks K (wsysl x)) (effective_url (s_j cf) jku) set /\ first_entry set kid k.
  Proof.
    intros Hon Hw Ews Hwr Ht Hh Hlate Hg. destruct (sets_from ws w wr sr x t Hon Hw Ews Hwr Ht Hh Hlate) as (y & x' & wv & -> & Hwv & _ & H).
    rewrite wsysl_app. eapply (C87_key_sets_in_force_are_recent K X U parse cf t0 n nk nj nu calls (ls0 ++ wsysl wr)); [exact H| |done|exact Hg].
    rewrite <- !app_assoc, <- !wsysl_app, <- Ews. by apply world_run_sys.
  Qed.
  Lemma later_of (x y1 x1 y2 x2 : list world_label) w1 w2 wr : x = y1 ++ x1 -> x = y2 ++ x2 -> world_run (wr ++ y1) w1 -> world_run (wr ++ y2) w2 ->
    exists y x3 w3, x = y ++ x3 /\ world_run (wr ++ y) w3 /\ (exists a, y = y1 ++ a) /\ (exists b, y = y2 ++ b) /\ (w3 = w1 \/ w3 = w2).
  Proof.
    intros -> E H1 H2. destruct (wprefixes _ _ _ _ E) as [[a ->]|(b & -> & _)].
    - exists (y1 ++ a), x2, w2. split; [done|]. split; [done|]. split; [by eexists|]. split; [exists []; by rewrite app_nil_r|by right].
    - exists (y2 ++ b), x1, w1. split; [done|]. split; [done|]. split; [exists []; by rewrite app_nil_r|]. split; [by eexists|by left].
  Qed.
  Lemma genuine_by l1 x s q p : yrun (l1 ++ x) s ->
    (z_role (s_z cf) = true -> forall id v, get_pub_key (y_keys K s) (env_of true) id = Some v -> key_published x true id v) ->
    (z_access (s_z cf) = true -> refetched K cf x) ->
    process K X (s_z cf) (keys_now K cf s) (now s) q = Ok p -> genuine x (now s) q p.
  Proof.
    intros H2 Hrole Hacc H. unfold process in H. unfold Prop_System.genuine. destruct (q_mode q).
    - destruct (z_role (s_z cf)); [|done]. specialize (Hrole eq_refl). cbn [keys_now ks_pub] in H.
      destruct (parse_and_validate K _ (now s) (q_tok q)) as [t| |] eqn:E; cbn [obind] in H; try done. injection H as <-.
      apply Prop_Role.C34_accept_iff in E as (fs & sig & v & A1 & A2 & A3 & -> & A5 & A6 & A7). exists fs, sig, v.
      split_and!; try done. by apply Hrole.
    - destruct (z_access (s_z cf)); [|done]. cbn [keys_now ks_jwk] in H.
      destruct (parse_access X _ _ (now s) (q_tok q) _) as [ac| |] eqn:E; cbn [obind] in H; try done. injection H as <-.
      pose proof (C37_accepted_is_signed _ _ _ _ _ _ _ E) as (Hc & Hd & _).
      apply (C42_key_from_configured_set _ _ _ _ _ _ _ _ _ _ (run_jwk K X U parse cf t0 n nk nj nu calls _ _ H2)) in E
        as (h & kid & url & set & k & A1 & A2 & A3 & A4 & A5 & A6 & A7 & A8).
      exists ac, h, kid, url, set, k. split_and!; try done. destruct (Hacc eq_refl _ A5) as (i & set0 & Hin).
      rewrite jwks_app in A6. eapply download_since; [|exact A6]. by apply elem_of_jwks.
  Qed.
  (** Tokens.  [D]: the delays of the daemons in use; [d]: how long a call takes once its token has been
      validated.  A call made later than [t + D + d] by the time results are cached, if accepted, rests
      on a token verified with a key received after [wr]. *)
  Theorem C88_key_revocation_latency ws w wr sr x t D d i q p lc sc : 0 <= d -> 0 <= D ->
    world_run ws w -> ws = wr ++ x -> world_run wr sr -> now (w_sys K sr) <= t ->
    0 < z_exp (s_z cf) -> 0 <= t0 -> now (w_sys K w) + z_exp (s_z cf) <= max_int64 -> returns_within (ls0 ++ wsysl ws) (w_sys K w) d ->
    (z_role (s_z cf) = true -> on DKeys = true /\ keys_ready sb (pick nx0 DKeys) /\ healthy DKeys sb ws t /\ renewed (wsysl x) true /\ delay DKeys <= D) ->
    (z_access (s_z cf) = true -> on DJwks = true /\ healthy DJwks sb ws t /\ delay DJwks <= D) ->
    happened (ls0 ++ wsysl ws) (YAuth K (ZCall K i q)) lc sc -> t + D + d + z_exp (s_z cf) < now sc ->
    z_tasks (y_auth K (w_sys K w)) !! i = Some (CDone q (Ok p)) ->
    exists j q' p0 y s3, cache_key (s_z cf) q' = cache_key (s_z cf) q /\
      happened (ls0 ++ wsysl ws) (YAuth K (ZParse K j (keys_now K cf s3))) ((ls0 ++ wsysl wr) ++ y) s3 /\ genuine y (now s3) q' p0 /\
      pr_domain p = pr_domain p0 /\ pr_roles p = pr_roles p0 /\ pr_name p = pr_name p0.
  Proof.
    intros Hd HD Hw Ews Hwr Ht Hexp Ht0 Hmax Hret Hrole Hacc Hcall Hlate Hi.
    pose proof (world_run_sys _ _ Hw) as Hy. pose proof Hcall as [[rest Hrest] Hrc].
    assert (now sc <= now (w_sys K w)) as Hsc by (rewrite Hrest in Hy; by eapply yrun_clock).
    assert (exists y x' wv, x = y ++ x' /\ world_run (wr ++ y) wv /\ now (w_sys K wv) <= t + D /\ (z_role (s_z cf) = true ->
      forall l s id v, yrun ((ls0 ++ wsysl (wr ++ y)) ++ l) s -> get_pub_key (y_keys K s) (env_of true) id = Some v -> key_published (wsysl y ++ l) true id v)) as (y1 & x1 & w1 & E1 & Hw1 & Hn1 & H1).
    { destruct (z_role (s_z cf)); [|exists [], x, sr; rewrite app_nil_r; split_and!; try done; lia]. destruct (Hrole eq_refl) as (A1 & A2 & A3 & A4 & A5).
      destruct (keys_from ws w wr sr x t true A1 A2 Hw Ews Hwr Ht A3 A4) as (y & x' & wv & B1 & B2 & B3 & B4); [lia|]. exists y, x', wv. split_and!; try done. lia. }
    assert (exists y x' wv, x = y ++ x' /\ world_run (wr ++ y) wv /\ now (w_sys K wv) <= t + D /\ (z_access (s_z cf) = true -> refetched K cf (wsysl y))) as (y2 & x2 & w2 & E2 & Hw2 & Hn2 & H2).
    { destruct (z_access (s_z cf)); [|exists [], x, sr; rewrite app_nil_r; split_and!; try done; lia]. destruct (Hacc eq_refl) as (A1 & A2 & A3).
      destruct (sets_from ws w wr sr x t A1 Hw Ews Hwr Ht A2) as (y & x' & wv & B1 & B2 & B3 & B4); [lia|]. exists y, x', wv. split_and!; try done. lia. }
    destruct (later_of _ _ _ _ _ _ _ _ E1 E2 Hw1 Hw2) as (y & x3 & w3 & E3 & Hw3 & (a & Ea) & (b & Eb) & Hor).
    assert (now (w_sys K w3) <= t + D) as Hn3 by (by destruct Hor as [-> | ->]).
    assert (passed (ls0 ++ wsysl ws) (ls0 ++ wsysl (wr ++ y)) (w_sys K w3)) as Hp3.
    { split; [|by apply world_run_sys]. exists (wsysl x3). rewrite <- app_assoc, <- wsysl_app, <- app_assoc, <- E3. by rewrite Ews. }
    destruct (Hret _ _ Hp3) as (l2 & s2 & Hp1 & Hp2 & Hns2 & Hends); [lia|].
    destruct (C87_old_validations_stop_counting K X U parse cf t0 n nk nj nu calls _ _ _ _ _ _ i q p _ _ Hy Hexp Ht0 Hmax Hp1 Hp2 (fun j q' t' _ => Hends j q' t') Hcall) as (j & q' & p0 & z & s3 & A1 & A2 & A3 & A4); [lia|done|].
    exists j, q', p0, (wsysl y ++ z), s3. split; [done|]. assert ((ls0 ++ wsysl wr) ++ wsysl y ++ z = (ls0 ++ wsysl (wr ++ y)) ++ z) as El by (by rewrite wsysl_app, !app_assoc).
    rewrite El. split; [done|]. split; [|done]. destruct A2 as [_ Hr3].
    apply (genuine_by (ls0 ++ wsysl wr)); [by rewrite El| | |done].
    - intros Hz id v Hg. rewrite Ea, wsysl_app, <- app_assoc. apply (H1 Hz _ s3); [|done]. rewrite Ea in Hr3. rewrite (app_assoc wr), (wsysl_app (wr ++ y1)), !app_assoc in Hr3. by rewrite !app_assoc.
    - intros Hz u Hu. destruct (H2 Hz u Hu) as (i' & set & Hin). exists i', set. rewrite Eb, wsysl_app. apply elem_of_app. left. apply elem_of_app. by left.
  Qed.

  (** The policy daemon.  What Joint.v tells of its loop is true of the running authorizer, and so is C85. *)
  Definition jpol (ws : list world_label) : list (@joint_label K O) :=
    omap (fun l => match l with WSys _ l => Some (JSys K l) | WTick _ t => Some (JTick K t) | WLoop _ DPol t l => Some (JLoop K t l) | WLoop _ _ _ _ => None end) ws.
  Lemma sysl_jpol ws : sysl K (jpol ws) = wsysl ws.
  Proof. induction ws as [|[l|t|[] t l] ws IH]; cbn; try done; by f_equal. Qed.
  Lemma loopl_jpol ws : loopl K (jpol ws) = wloopl DPol ws.
  Proof. induction ws as [|[l|t|[] t l] ws IH]; cbn; try done; by f_equal. Qed.
  Lemma jpol_app a b : jpol (a ++ b) = jpol a ++ jpol b.
  Proof. apply omap_app. Qed.
  Definition jpart (w : world K) : joint K := Joint K (w_sys K w) (pick (w_loop K w) DPol) (pick (w_cur K w) DPol) (pick (w_nx K w) DPol).
  Lemma joint_part ws w : on DPol = true -> world_run ws w ->
    joint_run K X U parse cf (c DPol) (text_of DPol) (jstart K (c DPol) sb (pick nx0 DPol)) (jpol ws) (jpart w).
  Proof.
    intros Hon. induction 1 as [|ws l w w' _ IH Hs]; [constructor|]. rewrite jpol_app.
    assert (forall w'', jpart w'' = jpart w -> joint_run K X U parse cf (c DPol) (text_of DPol) (jstart K (c DPol) sb (pick nx0 DPol)) (jpol ws ++ []) (jpart w'')) as Hstay by (intros w'' ->; by rewrite app_nil_r).
    destruct Hs as [w l s' Hs Hok|w t s' L Hs Ht|w d' l a Hon' Hcl Ht Hcall Hcur|w d' m r e a Hon' Ht Hcur Hout Hsh|w d' l a Hon' Hcl Ht].
    - eapply J_snoc; [exact IH|]. apply (JS_sys K X U parse cf (c DPol) (text_of DPol) (jpart w) l s'); [done|]. destruct l as [z| | | | | | | | | | |]; try done; cbn [upd_ok may j_cur j_nx jpart] in *; by destruct z || done.
    - eapply J_snoc; [exact IH|]. specialize (Ht DPol). rewrite Hon in Ht. by apply (JS_tick K X U parse cf (c DPol) (text_of DPol) (jpart w) t s' (pick L DPol)).
    - destruct d'; [|by apply Hstay|by apply Hstay]. eapply J_snoc; [exact IH|]. by apply (JS_call K X U parse cf (c DPol) (text_of DPol) (jpart w) l a).
    - destruct d'; [|by apply Hstay|by apply Hstay]. eapply J_snoc; [exact IH|]. cbn [outcome_of] in Hout. destruct (y_upd K (w_sys K w) !! m) as [u|] eqn:Eu; [|done].
      apply (JS_return K X U parse cf (c DPol) (text_of DPol) (jpart w) m u r e a); try done. unfold reported. destruct r as [[]| |]; cbn in Hsh; [subst e; done|naive_solver|done].
    - destruct d'; [|by apply Hstay|by apply Hstay]. eapply J_snoc; [exact IH|]. by apply (JS_loop K X U parse cf (c DPol) (text_of DPol) (jpart w) l a).
  Qed.
  Theorem C88_policy_revocation_latency ws w wr sr x t d P i q p lc sc : on DPol = true -> uncalled K sb (pick nx0 DPol) -> 0 <= d ->
    world_run ws w -> ws = wr ++ x -> world_run wr sr ->
    z_policy (s_z cf) = true -> 0 < z_exp (s_z cf) -> 0 <= t0 -> now (w_sys K w) + z_exp (s_z cf) <= max_int64 ->
    own_calls K X U parse cf t0 n nk nj nu calls (ls0 ++ wsysl ws) -> checks_within K X U parse cf t0 n nk nj nu calls (ls0 ++ wsysl ws) (w_sys K w) d ->
    healthy DPol sb ws t -> served K X U parse cf t0 n nk nj nu calls (ls0 ++ wsysl ws) (ls0 ++ wsysl wr) P -> now (w_sys K sr) <= t ->
    happened (ls0 ++ wsysl ws) (YAuth K (ZCall K i q)) lc sc -> t + delay DPol + d + z_exp (s_z cf) < now sc ->
    z_tasks (y_auth K (w_sys K w)) !! i = Some (CDone q (Ok p)) ->
    exists q' p0 o a r, cache_key (s_z cf) q' = cache_key (s_z cf) q /\ target (s_z cf) o p0 q' = Ok (a, r) /\
      pr_domain p = pr_domain p0 /\ pr_roles p = pr_roles p0 /\ pr_auth p <> [] /\
      forall role, role ∈ pr_auth p -> role ∈ pr_roles p /\
        exists sp exp doc, P sp /\ content sp exp doc /\ doc_allows U (pr_domain p) a r doc role.
  Proof.
    intros Hon Hnew Hd Hw -> Hwr Hpol Hexp Ht0 Hmax Hown Hchk (Hc & Hunc & Hread & Hfail) Hsv Ht Hcall Hlate Hi.
    rewrite <- !sysl_jpol in *. rewrite <- loopl_jpol in *.
    eapply (C85_revocation_latency K X U parse cf t0 n nk nj nu calls (c DPol) (text_of DPol) ls0 sb (pick nx0 DPol) Hb Hnew (jpol (wr ++ x)) (jpart w) (jpol wr) (jpart sr) (jpol x) t d P i q p lc sc Hc Hd); try done.
    - by apply joint_part.
    - apply jpol_app.
    - by apply joint_part.
    - by apply Hread.
  Qed.
  End start.
End claims.

(** ** Running the machine *)
Section exec.
  Context (K : crypto) (X : jwt_ext) {O : Type} (U : unicode) (parse : str -> option (verifier K)) (cf : @sconf O).
  Context (on : daemon -> bool) (c : daemon -> timing).
  Inductive wcmd := WC (d : @cmd O) | WL (d : daemon) (l : rlabel).
  Definition mayb (w : world K) (l : @ylabel K O) : bool :=
    match l with
    | YUpd _ m USpawn | YUpd _ m UFinish => bool_decide (pick (w_cur K w) DPol = Some m)
    | YUpd _ m _ | YTake _ m _ _ _ => bool_decide (m < pick (w_nx K w) DPol)%nat
    | YKey _ (PBegin i _) => bool_decide (pick (w_cur K w) DKeys = Some (Nat.div2 i))
    | YJwk _ (JBegin i) => bool_decide (pick (w_cur K w) DJwks = Some i)
    | YAuth _ (ZTick _ _) => false
    | _ => true
    end.
  Definition callableb (d : daemon) (s : sys K) (m : nat) : bool :=
    match d with
    | DPol => match y_upd K s !! m with Some _ => true | None => false end
    | DKeys => match p_tasks (y_keys K s) !! (2 * m)%nat, p_tasks (y_keys K s) !! (2 * m + 1)%nat with Some PIdle, Some PIdle => true | _, _ => false end
    | DJwks => match j_tasks (y_jwk K s) !! m with Some JIdle => true | _ => false end
    end.
  Definition shownb (r : option (outcome unit)) (e : option str) : bool :=
    match r, e with Some (Ok _), None | Some (Err _), Some _ => true | _, _ => false end.
  Definition tickf (t : time) (w : world K) (d : daemon) : option tst :=
    if on d then tstepf (c d) (kind_of d) (text_of d) (t, None) (pick (w_loop K w) d) else Some (pick (w_loop K w) d).
  Definition wexec (d : wcmd) (w : world K) : option (@world_label K O * world K) :=
    match d with
    | WC d =>
        match yexec K X U parse cf d (w_sys K w) with
        | Some (YAuth _ (ZTick _ t) as l, s') =>
            match tickf t w DPol, tickf t w DKeys, tickf t w DJwks with
            | Some a, Some b, Some e => Some (WTick K t, World K s' (Per a b e) (w_cur K w) (w_nx K w))
            | _, _, _ => None
            end
        | Some (l, s') => if mayb w l then Some (WSys K l, World K s' (w_loop K w) (w_cur K w) (w_nx K w)) else None
        | None => None
        end
    | WL d l =>
        if on d then
          match tstepf (c d) (kind_of d) (text_of d) (now K (w_sys K w), Some l) (pick (w_loop K w) d) with
          | Some a =>
              match l with
              | RRetry | RFire =>
                  match pick (w_cur K w) d, callableb d (w_sys K w) (pick (w_nx K w) d) with
                  | None, true => Some (WLoop K d (now K (w_sys K w)) l,
                      World K (w_sys K w) (place d a (w_loop K w)) (place d (Some (pick (w_nx K w) d)) (w_cur K w)) (place d (S (pick (w_nx K w) d)) (w_nx K w)))
                  | _, _ => None
                  end
              | RUpdated e =>
                  match pick (w_cur K w) d with
                  | Some m => if shownb (outcome_of K d (w_sys K w) m) e then
                      Some (WLoop K d (now K (w_sys K w)) l, World K (w_sys K w) (place d a (w_loop K w)) (place d None (w_cur K w)) (w_nx K w)) else None
                  | None => None
                  end
              | _ => Some (WLoop K d (now K (w_sys K w)) l, World K (w_sys K w) (place d a (w_loop K w)) (w_cur K w) (w_nx K w))
              end
          | None => None
          end
        else None
    end.
  Fixpoint wdrive (cs : list wcmd) (acc : list (@world_label K O * world K)) (w : world K) : option (list (@world_label K O * world K) * world K) :=
    match cs with
    | [] => Some (acc, w)
    | d :: cs => match wexec d w with Some (l, w') => wdrive cs ((l, w) :: acc) w' | None => None end
    end.
  Lemma tickf_sound t w d a : tickf t w d = Some a -> if on d then tstep (c d) (kind_of d) (text_of d) t None (pick (w_loop K w) d) a else a = pick (w_loop K w) d.
  Proof. unfold tickf. destruct (on d); [by intros ?%tstepf_sound|by intros [= <-]]. Qed.
  Lemma callableb_sound d s m : callableb d s m = true -> callable K d s m.
  Proof.
    destruct d; cbn [callableb callable].
    - destruct (y_upd K s !! m); [by eexists|done].
    - destruct (p_tasks (y_keys K s) !! (2 * m)%nat) as [[]|]; try done. destruct (p_tasks (y_keys K s) !! (2 * m + 1)%nat) as [[]|]; done.
    - destruct (j_tasks (y_jwk K s) !! m) as [[]|]; done.
  Qed.
  Lemma wexec_sound d w l w' : wexec d w = Some (l, w') -> world_step K X U parse cf on c l w w'.
  Proof.
    destruct d as [d|d r]; cbn [wexec].
    - destruct (yexec K X U parse cf d (w_sys K w)) as [[y s']|] eqn:E; [|done]. apply yexec_sound in E. intros H.
      assert ((exists t, y = YAuth K (ZTick K t)) \/ (if mayb w y then Some (WSys K y, World K s' (w_loop K w) (w_cur K w) (w_nx K w)) else None) = Some (l, w')) as [[t ->]|Hx].
      { destruct y as [zl| | | | | | | | | | |]; try (by right). destruct zl; try (by right). left. by eexists. }
      + destruct (tickf t w DPol) as [a|] eqn:Ea; [|done]. destruct (tickf t w DKeys) as [b|] eqn:Eb; [|done]. destruct (tickf t w DJwks) as [e|] eqn:Ee; [|done].
        injection H as <- <-. constructor; [done|]. intros [| |]; by apply tickf_sound.
      + destruct (mayb w y) eqn:Eo; [|done]. injection Hx as <- <-. constructor; [done|]. unfold mayb in Eo. unfold may.
        destruct y; try done; repeat case_match; try done; by apply bool_decide_eq_true in Eo.
    - destruct (on d) eqn:Hon; [|done]. destruct (tstepf _ _ _ _ _) as [a|] eqn:Et; [|done]. apply tstepf_sound in Et. cbn [fst snd] in Et. destruct r as [| | | | |e| |]; intros H.
      + injection H as <- <-. by apply WS_loop.
      + injection H as <- <-. by apply WS_loop.
      + injection H as <- <-. by apply WS_loop.
      + destruct (pick (w_cur K w) d) eqn:Ec; [done|]. destruct (callableb _ _ _) eqn:Eu; [|done]. injection H as <- <-. apply WS_call; auto. by apply callableb_sound.
      + destruct (pick (w_cur K w) d) eqn:Ec; [done|]. destruct (callableb _ _ _) eqn:Eu; [|done]. injection H as <- <-. apply WS_call; auto. by apply callableb_sound.
      + destruct (pick (w_cur K w) d) as [m|] eqn:Ec; [|done]. destruct (shownb _ _) eqn:Es; [|done]. injection H as <- <-. destruct (outcome_of K d (w_sys K w) m) as [r|] eqn:Er; [|done].
        eapply WS_return; try done. by destruct r, e.
      + injection H as <- <-. by apply WS_loop.
      + injection H as <- <-. by apply WS_loop.
  Qed.
  (** The system's part of a trace. *)
  Definition wproj (tr : list (@world_label K O * world K)) : list (@ylabel K O * sys K) :=
    omap (fun '(l, w) => match l with WSys _ y => Some (y, w_sys K w) | WTick _ t => Some (YAuth K (ZTick K t), w_sys K w) | WLoop _ _ _ _ => None end) tr.
  Lemma wproj_sysl tr : rev (wproj tr).*1 = wsysl K (rev tr.*1).
  Proof.
    induction tr as [|[l w] tr IH]; [done|]. cbn [fmap list_fmap rev fst]. unfold wsysl. rewrite omap_app. fold (wsysl K (rev tr.*1)). rewrite <- IH. destruct l; cbn; rewrite ?app_nil_r; done.
  Qed.
  Context (s0 : sys K).
  Notation yrun := (System.yrun K X U parse cf s0).
  Notation chain := (chain K X U parse cf s0).
  Lemma wdrive_sound w0 cs acc w acc' w' T : wdrive cs acc w = Some (acc', w') -> chain (wproj acc ++ T) (w_sys K w) -> world_run K X U parse cf on c w0 (rev acc.*1) w ->
    chain (wproj acc' ++ T) (w_sys K w') /\ world_run K X U parse cf on c w0 (rev acc'.*1) w' /\ exists x, acc' = x ++ acc.
  Proof.
    revert acc w. induction cs as [|d cs IH]; intros acc w; cbn [wdrive]; [intros [= <- <-]; split; [done|]; split; [done|]; by exists []|].
    destruct (wexec d w) as [[l w1]|] eqn:E; [|done]. apply wexec_sound in E. intros H Hc Hr. destruct (IH _ _ H) as (H1 & H2 & x & H3).
    - destruct E; cbn; try done.
    - cbn. by econstructor.
    - split; [done|]. split; [done|]. exists (x ++ [(l, w)]). by rewrite H3, <- app_assoc.
  Qed.

  (** *** Checks of the hypotheses *)
  Definition in_check (t : ctask) : bool := match t with CTrans _ _ | CCheck _ _ _ _ | CStore _ _ => true | _ => false end.
  Definition over_by (d : duration) (s1 s2 : sys K) : bool :=
    (now K s2 <=? now K s1 + d) &&
    forallb (fun j => match z_tasks (y_auth K s1) !! j with
                      | Some t => negb (in_check t) || match z_tasks (y_auth K s2) !! j with Some (CDone _ _) => true | _ => false end
                      | None => true end) (seq 0 (length (z_tasks (y_auth K s1)))).
  Fixpoint overb (d : duration) (T : list (@ylabel K O * sys K)) (s : sys K) (later : list (sys K)) : bool :=
    existsb (over_by d s) (s :: later) && match T with [] => true | (_, s1) :: T => overb d T s1 (s :: later) end.
  Lemma overb_sound d full sf T s later : chain full sf -> (exists A, full = A ++ T) -> chain T s ->
    (forall s2, s2 ∈ later -> exists A Bx, full = A ++ Bx ++ T /\ chain (Bx ++ T) s2) -> overb d T s later = true ->
    forall T2 T1 s1, T = T2 ++ T1 -> chain T1 s1 -> exists A Bx s2, full = A ++ Bx ++ T1 /\ chain (Bx ++ T1) s2 /\ over_by d s1 s2 = true.
  Proof.
    intros Hf. revert s later. induction T as [|[l sp] T IH]; intros s later (A & EA) Hc Hlat Ho T2 T1 s1 ET H1.
    - symmetry in ET. apply app_nil in ET as [-> ->]. assert (s1 = s) as -> by (cbn in *; congruence). cbn [overb] in Ho. apply andb_true_iff in Ho as [Ho _].
      apply existsb_exists in Ho as (s2 & Hin & Ho). destruct Hin as [<-|Hin]; [by exists A, [], s|]. apply elem_of_list_In, Hlat in Hin as (A' & Bx & E & H2). by exists A', Bx, s2.
    - cbn [overb] in Ho. apply andb_true_iff in Ho as [Ho1 Ho2]. destruct T2 as [|e T2]; cbn in ET.
      + subst T1. assert (s1 = s) as -> by (eapply (yrun_det K X U parse cf s0); apply chain_run; done).
        apply existsb_exists in Ho1 as (s2 & Hin & Ho1). destruct Hin as [<-|Hin]; [by exists A, [], s|]. apply elem_of_list_In, Hlat in Hin as (A' & Bx & E & H2). by exists A', Bx, s2.
      + injection ET as <- ->. cbn [Prop_Latency.chain] in Hc. destruct Hc as [Hst Hc]. eapply (IH sp (s :: later)); [exists (A ++ [(l, sp)]); by rewrite <- app_assoc|done| |done|done|done].
        intros s2 [->|Hin]%elem_of_cons; [by exists A, [(l, sp)]|]. destruct (Hlat _ Hin) as (A' & Bx & E & H2). exists A', (Bx ++ [(l, sp)]). by rewrite <- app_assoc.
  Qed.
  Lemma over_returns d T s : chain T s -> overb d T s [] = true ->
    forall l1 s1, passed K X U parse cf s0 (rev T.*1) l1 s1 ->
    exists l2 s2, passed K X U parse cf s0 l2 l1 s1 /\ passed K X U parse cf s0 (rev T.*1) l2 s2 /\ now K s2 <= now K s1 + d /\
      forall j q t, z_tasks (y_auth K s1) !! j = Some t -> validated_call q t -> exists q r, z_tasks (y_auth K s2) !! j = Some (CDone q r).
  Proof.
    intros Hc Ho l1 s1 Hp. destruct (chain_passed K X U parse cf s0 _ _ _ _ Hc Hp) as (T2 & T1 & ET & -> & H1).
    destruct (overb_sound d T s T s [] Hc ltac:(by exists []) Hc ltac:(intros ? ?%elem_of_nil; done) Ho T2 T1 s1 ET H1) as (A & Bx & s2 & EB & H2 & Hov).
    apply andb_true_iff in Hov as [Hov1 Hov2]. exists (rev (Bx ++ T1).*1), s2.
    split; [split; [rewrite fmap_app, rev_app_distr; by eexists|by apply chain_run]|]. split; [split; [rewrite EB, (fmap_app _ A), rev_app_distr; by eexists|by apply chain_run]|]. split; [lia|].
    intros j q t Ht Hv. rewrite forallb_forall in Hov2. specialize (Hov2 j). rewrite Ht in Hov2.
    assert (In j (seq 0 (length (z_tasks (y_auth K s1))))) as Hj by (apply in_seq; apply lookup_lt_Some in Ht; lia). specialize (Hov2 Hj).
    assert (in_check t = true) as Hic by (by destruct t). rewrite Hic in Hov2. cbn in Hov2. destruct (z_tasks (y_auth K s2) !! j) as [[]|]; try done. eauto.
  Qed.
  Definition goodb (l : key_list) : bool :=
    forallb (fun x => match x with Some (_, k) => match parse k with Some _ => true | None => false end | None => false end) l.
  Lemma goodb_sound l : goodb l = true -> good_list parse l.
  Proof.
    intros H x Hx. unfold goodb in H. rewrite forallb_forall in H. apply elem_of_list_In in Hx. specialize (H _ Hx).
    destruct x as [[id key]|]; [|done]. destruct (parse key) as [v|] eqn:E; [|done]. by exists id, key, v.
  Qed.
  Fixpoint renewedb (z seen : bool) (x : list (@ylabel K O)) : bool :=
    match x with
    | [] => true
    | YKey _ (PResp i (Response status _ b) _) :: x =>
        if Bool.eqb (Nat.even i) z then
          if status =? 304 then seen && renewedb z seen x
          else if status =? 200 then renewedb z (seen || match b with Doc kl => goodb kl | _ => false end) x
          else renewedb z seen x
        else renewedb z seen x
    | _ :: x => renewedb z seen x
    end.
  Lemma renewedb_sound z x : renewedb z false x = true -> renewed K parse x z.
  Proof.
    assert (forall x pre seen, (seen = true -> exists i' tag' kl t', Nat.even i' = z /\ YKey K (PResp i' (Response 200 tag' (Doc kl)) t') ∈ pre /\ good_list parse kl) ->
      renewedb z seen x = true -> forall x1 i tag b t x2, x = x1 ++ YKey K (PResp i (Response 304 tag b) t) :: x2 -> Nat.even i = z ->
      exists i' tag' kl t', Nat.even i' = z /\ YKey K (PResp i' (Response 200 tag' (Doc kl)) t') ∈ pre ++ x1 /\ good_list parse kl) as Hgen.
    { clear x. induction x as [|l x IH]; intros pre seen Hpre Hr x1 i tag b t x2 E Hz; [by destruct x1|].
      destruct x1 as [|l1 x1]; cbn in E.
      - injection E as -> ->. cbn [renewedb] in Hr. rewrite Hz, eqb_reflx in Hr. change (304 =? 304) with true in Hr. apply andb_true_iff in Hr as [Hs _]. rewrite app_nil_r. by apply Hpre.
      - injection E as <- ->.
        assert (forall seen', (seen' = true -> exists i' tag' kl t', Nat.even i' = z /\ YKey K (PResp i' (Response 200 tag' (Doc kl)) t') ∈ pre ++ [l] /\ good_list parse kl) ->
          renewedb z seen' (x1 ++ YKey K (PResp i (Response 304 tag b) t) :: x2) = true -> exists i' tag' kl t', Nat.even i' = z /\ YKey K (PResp i' (Response 200 tag' (Doc kl)) t') ∈ pre ++ l :: x1 /\ good_list parse kl) as Hgo.
        { intros seen' H1 H2. replace (pre ++ l :: x1) with ((pre ++ [l]) ++ x1) by (by rewrite <- app_assoc). by eapply IH. }
        assert (seen = true -> exists i' tag' kl t', Nat.even i' = z /\ YKey K (PResp i' (Response 200 tag' (Doc kl)) t') ∈ pre ++ [l] /\ good_list parse kl) as Hkeep.
        { intros Hs. destruct (Hpre Hs) as (i' & tag' & kl & t' & H1 & H2 & H3). exists i', tag', kl, t'. split; [done|]. split; [|done]. apply elem_of_app. by left. }
        destruct l as [| l | | | | | | | | | |]; try (by apply (Hgo seen)). destruct l as [|j r u| | |]; try (by apply (Hgo seen)). destruct r as [|status etag bd]; try (by apply (Hgo seen)). cbn [renewedb] in Hr.
        destruct (Bool.eqb (Nat.even j) z) eqn:Ej; [|by apply (Hgo seen)]. apply eqb_prop in Ej. destruct (Z.eqb_spec status 304) as [->|]; [apply andb_true_iff in Hr as [_ Hr]; by apply (Hgo seen)|].
        destruct (Z.eqb_spec status 200) as [->|]; [|by apply (Hgo seen)]. eapply Hgo; [|exact Hr]. intros [Hs|Hs]%orb_true_iff; [by apply Hkeep|].
        destruct bd as [| |kl]; try done. exists j, etag, kl, u. split; [done|]. split; [|by apply goodb_sound]. apply elem_of_app. right. left. }
    intros H x1 i tag b t x2 E Hz. destruct (Hgen x [] false ltac:(done) H _ _ _ _ _ _ E Hz) as (i' & tag' & kl & t' & H1 & H2 & H3). by exists i', tag', kl, t'.
  Qed.
  Definition loopb (d : daemon) (ws : list (@world_label K O)) (t : time) : bool :=
    forallb (fun e => match snd e with Some (RCancel _) => false | Some (RUpdated (Some _)) => fst e <=? t | _ => true end) (wloopl K d ws) && (length (wloopl K d ws) <? 100)%nat.
  Lemma loopb_sound d s ws t : sensible (c d) -> loopb d ws t = true -> healthy K c d s ws t.
  Proof.
    intros Hs [Hl Hn]%andb_true_iff. rewrite forallb_forall in Hl. split; [done|]. split; [|split].
    - intros u e He. apply elem_of_list_In in He. by apply Hl in He.
    - intros _ tr1 tr2 s1 Etr H b m _. apply ech_length in H. apply Nat.ltb_lt in Hn. rewrite Etr, app_length in Hn. cbn in H. lia.
    - intros v e He. apply elem_of_list_In in He. apply Hl in He. cbn in He. lia.
  Qed.
End exec.

(** ** An example: Init at 150 s, Start; the keys are changed at 153 s; at 160 s both loops fetch the
    new ones, at 170 s and 180 s there is nothing new.  From 183 s on the old tokens are refused. *)
Section example.
  Import Prop_Fetcher Prop_Authorizer.
  Definition onV (d : daemon) : bool := match d with DPol => false | _ => true end.
  Definition cV (_ : daemon) : timing := cL.
  Lemma cL_sensible : sensible cL.
  Proof. unfold sensible, cL. cbn. unfold second. lia. Qed.
  Definition winit : sys K1 := yinit K1 vcf vt 8 5 4 0 (fun _ => []).
  Definition nxV : per nat := Per 0%nat 1%nat 1%nat.
  Definition zms_tok : str := B "ZMSKEY".
  Definition same_keys (i : nat) (t : time) : list (@cmd unit) := map DKey [PBegin i t; PResp i (Response 304 [] BadBody) t].
  Definition ws0 : list (@cmd unit) := vkeys 0 vt (B "a") (B "0") (B "ZTSKEY") [B "0"] ++ vkeys 1 vt (B "a") (B "0") (B "ZMSKEY") [B "0"] ++ vjwk 0 [(B "1", Some (KRSA (B "K1")))].
  Definition wsA : list (@wcmd unit) := map WC (DTick (151 * second) :: vcall 0 (vr old_tok) ++ vcall 1 (va old_acc) ++ [DTick (153 * second)]).
  Definition wturn (m : nat) (t : time) (keys : list (@cmd unit)) : list (@wcmd unit) :=
    [WC (DTick t); WL DKeys RTick; WL DJwks RTick; WL DKeys RFire] ++ map WC (keys ++ same_keys (2 * m + 1) t) ++
    [WL DJwks RFire] ++ map WC (vjwk m [(B "2", Some (KRSA (B "K2")))]) ++ [WL DJwks (RUpdated None)].
  Definition wsC : list (@wcmd unit) := map WC ([DTick (154 * second)] ++ vlook 2 (vr old_tok) ++ vlook 3 (va old_acc)) ++
    wturn 1 (160 * second) (vkeys 2 (160 * second) (B "b") (B "1") (B "NEWKEY") [B "0"; B "1"]) ++ [WL DKeys (RUpdated None)] ++
    wturn 2 (170 * second) (same_keys 4 (170 * second)) ++ [WL DKeys (RUpdated None)] ++
    wturn 3 (180 * second) (same_keys 6 (180 * second)) ++ [WL DKeys (RUpdated None); WC (DTick (183 * second))].
  Definition wsD : list (@wcmd unit) := map WC (vcall 4 (vr new_tok)).
  Definition wsE : list (@wcmd unit) := map WC (vcall 5 (va new_acc) ++ [DCall 6 (vr old_tok); DLook 6; DParse 6; DCall 7 (va old_acc); DLook 7; DParse 7]).
  (** The variant: the new list has an entry which cannot be decoded. *)
  Definition bad_keys : list (@cmd unit) := map DKey [PBegin 2 (160 * second); PResp 2 (Response 200 (B "b") (Doc [Some (B "1", B "NEWKEY"); Some (B "2", [])])) (160 * second)].
  Definition wsF : list (@wcmd unit) :=
    wturn 1 (160 * second) bad_keys ++ [WL DKeys (RUpdated (Some (B "undecodable"))); WL DKeys RStep; WL DKeys RStep; WL DKeys RRetry] ++
    map WC (same_keys 4 (160 * second) ++ same_keys 5 (160 * second)) ++ [WL DKeys (RUpdated None)] ++
    [WC (DTick (170 * second)); WL DKeys RTick; WL DJwks RTick; WL DKeys RFire] ++ map WC (same_keys 6 (170 * second) ++ same_keys 7 (170 * second)) ++ [WL DKeys (RUpdated None); WL DJwks RFire] ++
    map WC (vjwk 2 [(B "2", Some (KRSA (B "K2")))]) ++ [WL DJwks (RUpdated None)] ++
    [WC (DTick (180 * second)); WL DKeys RTick; WL DJwks RTick; WL DKeys RFire] ++ map WC (same_keys 8 (180 * second) ++ same_keys 9 (180 * second)) ++ [WL DKeys (RUpdated None); WL DJwks RFire] ++
    map WC (vjwk 3 [(B "2", Some (KRSA (B "K2")))]) ++ [WL DJwks (RUpdated None)] ++
    [WC (DTick (190 * second))].
  Notation driveV := (drive K1 X0 U0 parse1 vcf).
  Notation wdriveV := (wdrive K1 X0 U0 parse1 vcf onV cV).
  Notation wrunV sb := (world_run K1 X0 U0 parse1 vcf onV cV (wstart K1 cV sb nxV)).
  Notation happenedW := (happened K1 X0 U0 parse1 vcf winit).
  Definition readyb (s : sys K1) : bool :=
    forallb (fun i => match p_tasks (y_keys K1 s) !! i with Some t => negb (active t) && ((Nat.div2 i <? 1)%nat || match t with PIdle => true | _ => false end) | None => true end)
      (seq 0 (length (p_tasks (y_keys K1 s)))).
  Lemma readyb_sound s : readyb s = true -> keys_ready K1 s 1.
  Proof.
    intros H i t Ht. unfold readyb in H. rewrite forallb_forall in H. specialize (H i). rewrite Ht in H.
    assert (In i (seq 0 (length (p_tasks (y_keys K1 s))))) as Hi by (apply in_seq; apply lookup_lt_Some in Ht; lia). specialize (H Hi).
    apply andb_true_iff in H as [H1 H2]. split; [by destruct (active t)|]. intros Hd. apply orb_true_iff in H2 as [H2|H2]; [apply Nat.ltb_lt in H2; lia|by destruct t].
  Qed.
  Definition made (T : list (@ylabel K1 unit * sys K1)) : list (nat * request * time) :=
    omap (fun '(l, s) => match l with YAuth _ (ZCall _ i q) => Some (i, q, now K1 s) | _ => None end) T.
  Lemma made_in T i q t : (i, q, t) ∈ made T -> exists s, (YAuth K1 (ZCall K1 i q), s) ∈ T /\ now K1 s = t.
  Proof. intros ([l s] & Hin & Hl)%elem_of_list_omap. destruct l as [l| | | | | | | | | | |]; try done. destruct l; try done. assert (i0 = i /\ q0 = q /\ now K1 s = t) as (-> & -> & <-) by (by injection Hl). by exists s. Qed.
  Definition since {A} (old new : list A) : list A := take (length new - length old) new.
  Lemma since_app {A} (x old : list A) : since old (x ++ old) = x.
  Proof. unfold since. rewrite app_length. replace (length x + length old - length old)%nat with (length x) by lia. apply take_app. Qed.
  Lemma list2 {A} (a b c d : A) : [a; b] = [c; d] -> a = c /\ b = d.
  Proof. by intros [= -> ->]. Qed.
  Definition key_in_force (s : sys K1) : option str := get_pub_key (y_keys K1 s) (env_of true) (B "0").
  Lemma the_world_run : exists tr0 sb trA wA trC wC trD wD trE wE,
    driveV ws0 [] winit = Some (tr0, sb) /\ wdriveV wsA [] (wstart K1 cV sb nxV) = Some (trA, wA) /\ wdriveV wsC trA wA = Some (trC, wC) /\
    wdriveV wsD trC wC = Some (trD, wD) /\ wdriveV wsE trD wD = Some (trE, wE) /\
    readyb sb = true /\ map (fun w => now K1 (w_sys K1 w)) [wA; wE] = [153 * second; 183 * second] /\
    overb K1 second (wproj K1 trE ++ tr0) (w_sys K1 wE) [] = true /\ renewedb K1 parse1 true false (wsysl K1 (rev (since trA trE).*1)) = true /\
    forallb (fun d => loopb K1 d (rev trE.*1) (153 * second)) [DKeys; DJwks] = true /\
    verdicts (w_sys K1 wE) = [Some true; Some true; Some true; Some true; Some true; Some true; Some false; Some false] /\
    map (asked (w_sys K1 wE)) (seq 0 8) = map Some [vr old_tok; va old_acc; vr old_tok; va old_acc; vr new_tok; va new_acc; vr old_tok; va old_acc] /\
    take 4 (made (wproj K1 trE ++ tr0)) = [(7%nat, va old_acc, 183 * second); (6%nat, vr old_tok, 183 * second); (5%nat, va new_acc, 183 * second); (4%nat, vr new_tok, 183 * second)].
  Proof.
    assert (
      match driveV ws0 [] winit with None => None | Some (tr0, sb) =>
      match wdriveV wsA [] (wstart K1 cV sb nxV) with None => None | Some (trA, wA) =>
      match wdriveV wsC trA wA with None => None | Some (trC, wC) =>
      match wdriveV wsD trC wC with None => None | Some (trD, wD) =>
      match wdriveV wsE trD wD with None => None | Some (trE, wE) =>
        Some (readyb sb, map (fun w => now K1 (w_sys K1 w)) [wA; wE], overb K1 second (wproj K1 trE ++ tr0) (w_sys K1 wE) [], renewedb K1 parse1 true false (wsysl K1 (rev (since trA trE).*1)),
          forallb (fun d => loopb K1 d (rev trE.*1) (153 * second)) [DKeys; DJwks], verdicts (w_sys K1 wE), map (asked (w_sys K1 wE)) (seq 0 8), take 4 (made (wproj K1 trE ++ tr0)))
      end end end end end =
      Some (true, [153 * second; 183 * second], true, true, true, [Some true; Some true; Some true; Some true; Some true; Some true; Some false; Some false],
        map Some [vr old_tok; va old_acc; vr old_tok; va old_acc; vr new_tok; va new_acc; vr old_tok; va old_acc],
        [(7%nat, va old_acc, 183 * second); (6%nat, vr old_tok, 183 * second); (5%nat, va new_acc, 183 * second); (4%nat, vr new_tok, 183 * second)])) as Ho by (vm_compute; reflexivity).
    destruct (driveV ws0 [] winit) as [[tr0 sb]|]; [|discriminate Ho].
    destruct (wdriveV wsA [] (wstart K1 cV sb nxV)) as [[trA wA]|] eqn:EA; [|discriminate Ho].
    destruct (wdriveV wsC trA wA) as [[trC wC]|] eqn:EC; [|discriminate Ho].
    destruct (wdriveV wsD trC wC) as [[trD wD]|] eqn:ED; [|discriminate Ho].
    destruct (wdriveV wsE trD wD) as [[trE wE]|] eqn:EE; [|discriminate Ho].
    exists tr0, sb, trA, wA, trC, wC, trD, wD, trE, wE. apply inj8 in Ho as (H1 & H2 & H3 & H4 & H5 & H6 & H7 & H8).
    do 5 (split; [first [assumption|reflexivity]|]). do 7 (split; [assumption|]). assumption.
  Qed.
  Example C88_nonvacuous : exists ls0 sb ws w wr sr x,
    System.yrun K1 X0 U0 parse1 vcf winit ls0 sb /\ wrunV sb ws w /\ ws = wr ++ x /\ wrunV sb wr sr /\ now K1 (w_sys K1 sr) <= 153 * second /\
    0 < z_exp (s_z vcf) /\ 0 <= vt /\ now K1 (w_sys K1 w) + z_exp (s_z vcf) <= max_int64 /\
    (forall l1 s1, passed K1 X0 U0 parse1 vcf winit (ls0 ++ wsysl K1 ws) l1 s1 -> now K1 s1 + second < now K1 (w_sys K1 w) ->
     exists l2 s2, passed K1 X0 U0 parse1 vcf winit l2 l1 s1 /\ passed K1 X0 U0 parse1 vcf winit (ls0 ++ wsysl K1 ws) l2 s2 /\ now K1 s2 <= now K1 s1 + second /\
       forall j q t, z_tasks (y_auth K1 s1) !! j = Some t -> validated_call q t -> exists q r, z_tasks (y_auth K1 s2) !! j = Some (CDone q r)) /\
    keys_ready K1 sb (pick nxV DKeys) /\ healthy K1 cV DKeys sb ws (153 * second) /\ healthy K1 cV DJwks sb ws (153 * second) /\ renewed K1 parse1 (wsysl K1 x) true /\
    (forall i q, (i, q) ∈ [(4%nat, vr new_tok); (5%nat, va new_acc)] -> exists lc sc p,
       happenedW (ls0 ++ wsysl K1 ws) (YAuth K1 (ZCall K1 i q)) lc sc /\ 153 * second + delay cV DKeys + second + z_exp (s_z vcf) < now K1 sc /\
       z_tasks (y_auth K1 (w_sys K1 w)) !! i = Some (CDone q (Ok p))) /\
    verdicts (w_sys K1 w) = [Some true; Some true; Some true; Some true; Some true; Some true; Some false; Some false] /\
    map (asked (w_sys K1 w)) [0; 1; 2; 3; 6; 7]%nat = map Some [vr old_tok; va old_acc; vr old_tok; va old_acc; vr old_tok; va old_acc].
  Proof.
    destruct the_world_run as (tr0 & sb & trA & wA & trC & wC & trD & wD & trE & wE & E0 & EA & EC & ED & EE & O1 & O2 & O3 & O4 & O5 & O6 & O7 & O8).
    pose proof (drive_chain K1 X0 U0 parse1 vcf winit _ _ _ _ _ E0 eq_refl) as C0.
    destruct (wdrive_sound K1 X0 U0 parse1 vcf onV cV winit (wstart K1 cV sb nxV) _ _ _ _ _ tr0 EA C0 ltac:(constructor)) as (CA & WA & _).
    destruct (wdrive_sound K1 X0 U0 parse1 vcf onV cV winit (wstart K1 cV sb nxV) _ _ _ _ _ tr0 EC CA WA) as (CC & WC & xC & XC).
    destruct (wdrive_sound K1 X0 U0 parse1 vcf onV cV winit (wstart K1 cV sb nxV) _ _ _ _ _ tr0 ED CC WC) as (CD & WD & xD & XD).
    destruct (wdrive_sound K1 X0 U0 parse1 vcf onV cV winit (wstart K1 cV sb nxV) _ _ _ _ _ tr0 EE CD WD) as (CE & WE & xE & XE).
    clear EA EC ED EE. assert (trE = (xE ++ xD ++ xC) ++ trA) as XA by (by rewrite XE, XD, XC, <- !app_assoc).
    assert (now K1 (w_sys K1 wA) = 153 * second /\ now K1 (w_sys K1 wE) = 183 * second) as [NA NE] by (apply list2; exact O2). clear O2 E0.
    assert (forall d, d = DKeys \/ d = DJwks -> healthy K1 cV d sb (rev trE.*1) (153 * second)) as Hh.
    { intros d Hd. apply (loopb_sound K1 parse1 onV); [exact cL_sensible|]. cbn [forallb] in O5. apply andb_true_iff in O5 as [O51 O52]. apply andb_true_iff in O52 as [O52 _]. by destruct Hd as [-> | ->]. }
    assert (rev tr0.*1 ++ wsysl K1 (rev trE.*1) = rev (wproj K1 trE ++ tr0).*1) as Els by (by rewrite fmap_app, rev_app_distr, wproj_sysl).
    exists (rev tr0.*1), sb, (rev trE.*1), wE, (rev trA.*1), wA, (rev (xE ++ xD ++ xC).*1).
    split; [by apply chain_run|]. split; [done|]. split; [by rewrite XA, (fmap_app _ (xE ++ _)), rev_app_distr|]. split; [done|]. split; [by rewrite NA|]. split; [done|]. split; [done|]. split; [by rewrite NE|].
    split. { intros l1 s1 H1 _. rewrite Els in *. exact (over_returns K1 X0 U0 parse1 vcf winit second _ _ CE O3 l1 s1 H1). }
    split; [by apply readyb_sound|]. split; [by apply Hh; left|]. split; [by apply Hh; right|].
    split. { rewrite XA, since_app in O4. by apply renewedb_sound. }
    split; [|split; [done|]].
    - cbn [map seq] in O7. injection O7 as Q0 Q1 Q2 Q3 Q4 Q5 Q6 Q7.
      assert (forall i q, (i, q, 183 * second) ∈ take 4 (made (wproj K1 trE ++ tr0)) -> exists lc sc, happenedW (rev tr0.*1 ++ wsysl K1 (rev trE.*1)) (YAuth K1 (ZCall K1 i q)) lc sc /\ now K1 sc = 183 * second) as Hm.
      { intros i q Hiq. assert ((i, q, 183 * second) ∈ made (wproj K1 trE ++ tr0)) as Hin by (rewrite <- (take_drop 4 (made _)); apply elem_of_app; by left).
        apply made_in in Hin as (sc & Hin & Hsc). rewrite Els. apply elem_of_list_split in Hin as (T2 & T1 & ET). exists (rev T1.*1), sc. split; [|done]. rewrite ET in *. eapply chain_at. exact CE. }
      rewrite O8 in Hm. intros i q Hiq. rewrite !elem_of_cons, elem_of_nil in Hiq. destruct Hiq as [Hiq|[Hiq|[]]].
      + assert (i = 4%nat /\ q = vr new_tok) as [-> ->] by (injection Hiq; done). destruct (Hm 4%nat (vr new_tok)) as (lc & sc & H1 & H2); [right; right; right; left|].
        destruct (asked_done (w_sys K1 wE) 4 (vr new_tok) Q4) as [p Hp]; [by rewrite O6|]. exists lc, sc, p. split; [done|]. split; [by rewrite H2|done].
      + assert (i = 5%nat /\ q = va new_acc) as [-> ->] by (injection Hiq; done). destruct (Hm 5%nat (va new_acc)) as (lc & sc & H1 & H2); [right; right; left|].
        destruct (asked_done (w_sys K1 wE) 5 (va new_acc) Q5) as [p Hp]; [by rewrite O6|]. exists lc, sc, p. split; [done|]. split; [by rewrite H2|done].
    - cbn [map seq] in O7 |- *. injection O7 as Q0 Q1 Q2 Q3 Q4 Q5 Q6 Q7. by rewrite Q0, Q1, Q2, Q3, Q6, Q7.
  Qed.

  (** Without [renewed] it is false: the server's new list has an entry which cannot be decoded, the
      fetch fails, but the ETag of the list has been remembered; from then on the server says "not
      modified", every Update succeeds, and the key which is gone stays in force. *)
  Definition published_ids (z : bool) (x : list (@ylabel K1 unit)) : list str :=
    flat_map (fun l => match l with
                       | YKey _ (PResp i (Response status _ (Doc kl)) _) => if (status =? 200) && Bool.eqb (Nat.even i) z then map fst (omap id kl) else []
                       | _ => [] end) x.
  Theorem C88_undecodable_list_keeps_the_old_key : exists ls0 sb ws w wr sr x v,
    System.yrun K1 X0 U0 parse1 vcf winit ls0 sb /\ keys_ready K1 sb (pick nxV DKeys) /\ wrunV sb ws w /\ ws = wr ++ x /\ wrunV sb wr sr /\
    now K1 (w_sys K1 sr) <= 160 * second /\ healthy K1 cV DKeys sb ws (160 * second) /\ 160 * second + delay cV DKeys < now K1 (w_sys K1 w) /\
    get_pub_key (y_keys K1 (w_sys K1 w)) (env_of true) (B "0") = Some v /\ ~ key_published K1 parse1 (wsysl K1 x) true (B "0") v /\
    exists i tag kl t, Nat.even i = true /\ YKey K1 (PResp i (Response 200 tag (Doc kl)) t) ∈ wsysl K1 x.
  Proof.
    assert (
      match driveV ws0 [] winit with None => None | Some (tr0, sb) =>
      match wdriveV wsA [] (wstart K1 cV sb nxV) with None => None | Some (trA, wA) =>
      match wdriveV wsF trA wA with None => None | Some (trF, wF) =>
        Some (readyb sb, now K1 (w_sys K1 wA), now K1 (w_sys K1 wF), loopb K1 DKeys (rev trF.*1) (160 * second), key_in_force (w_sys K1 wF), published_ids true (wsysl K1 (rev (since trA trF).*1)), tt, tt)
      end end end =
      Some (true, 153 * second, 190 * second, true, Some (B "ZTSKEY"), [B "1"; B "2"], tt, tt)) as Ho by (vm_compute; reflexivity).
    destruct (driveV ws0 [] winit) as [[tr0 sb]|] eqn:E0; [|discriminate Ho].
    destruct (wdriveV wsA [] (wstart K1 cV sb nxV)) as [[trA wA]|] eqn:EA; [|discriminate Ho].
    destruct (wdriveV wsF trA wA) as [[trF wF]|] eqn:EF; [|discriminate Ho].
    apply inj8 in Ho as (O1 & O2 & O3 & O4 & O5 & O6 & _ & _).
    pose proof (drive_chain K1 X0 U0 parse1 vcf winit _ _ _ _ _ E0 eq_refl) as C0.
    destruct (wdrive_sound K1 X0 U0 parse1 vcf onV cV winit (wstart K1 cV sb nxV) _ _ _ _ _ tr0 EA C0 ltac:(constructor)) as (CA & WA & _).
    destruct (wdrive_sound K1 X0 U0 parse1 vcf onV cV winit (wstart K1 cV sb nxV) _ _ _ _ _ tr0 EF CA WA) as (CF & WF & xF & XF).
    clear EA EF E0. rewrite XF, since_app in O6.
    exists (rev tr0.*1), sb, (rev trF.*1), wF, (rev trA.*1), wA, (rev xF.*1), (B "ZTSKEY").
    split; [by apply chain_run|]. split; [by apply readyb_sound|]. split; [done|]. split; [by rewrite XF, fmap_app, rev_app_distr|]. split; [done|]. split; [by rewrite O2|].
    split; [apply (loopb_sound K1 parse1 onV); [exact cL_sensible|done]|]. split; [by rewrite O3|]. split; [exact O5|].
    set (l := wsysl K1 (rev xF.*1)) in *. clearbody l. split.
    - intros (i & tag & kl & t & key & Hin & Hz & Hkl & _).
      assert (B "0" ∈ published_ids true l) as H0.
      { unfold published_ids. apply elem_of_list_In, in_flat_map. eexists. split; [apply elem_of_list_In; exact Hin|]. cbn. rewrite Hz. cbn. apply elem_of_list_In, elem_of_list_fmap. exists (B "0", key). split; [done|]. apply elem_of_list_omap. by eexists. }
      rewrite O6 in H0. by apply elem_of_cons in H0 as [[=]|[[=]|[]%elem_of_nil]%elem_of_cons].
    - assert (B "1" ∈ published_ids true l) as H0 by (rewrite O6; left).
      unfold published_ids in H0. apply elem_of_list_In, in_flat_map in H0 as (y & Hy & H0). apply elem_of_list_In in Hy.
      destruct y as [| y | | | | | | | | | |]; try done. destruct y as [|i r t| | |]; try done. destruct r as [|status tag [| |kl]]; try done.
      destruct ((status =? 200) && Bool.eqb (Nat.even i) true) eqn:Ei; [|done]. apply andb_true_iff in Ei as [Es Ei]. apply eqb_prop in Ei. apply Z.eqb_eq in Es as ->. by exists i, tag, kl, t.
  Qed.

  (** For the policies, the example of C85 with the other daemons switched off. *)
  Definition onP (d : daemon) : bool := match d with DPol => true | _ => false end.
  Definition emb (l : @joint_label K1 unit) : @world_label K1 unit :=
    match l with JSys _ l => WSys K1 l | JTick _ t => WTick K1 t | JLoop _ t l => WLoop K1 DPol t l end.
  Definition embw (L1 L2 : tst) (k : nat) (j : joint K1) : world K1 :=
    World K1 (j_sys K1 j) (Per (j_loop K1 j) L1 L2) (Per (j_cur K1 j) None None) (Per (j_nx K1 j) k k).
  Definition quiet (l : @joint_label K1 unit) : Prop :=
    (forall i t, l <> JSys K1 (YKey K1 (PBegin i t))) /\ (forall i, l <> JSys K1 (YJwk K1 (JBegin i))) /\ forall t e, l <> JLoop K1 t (RUpdated (Some e)).
  Lemma emb_run c L1 L2 k j0 js j : joint_run K1 X0 U0 parse1 rcf c (text_of DPol) j0 js j -> (forall l, l ∈ js -> quiet l) ->
    world_run K1 X0 U0 parse1 rcf onP (fun _ => c) (embw L1 L2 k j0) (map emb js) (embw L1 L2 k j).
  Proof.
    induction 1 as [|js l j j' H IH Hs]; intros Hq; [constructor|]. rewrite map_app. cbn [map].
    econstructor; [apply IH; intros l' Hl'; apply Hq, elem_of_app; by left|].
    assert (quiet l) as (Q1 & Q2 & Q3) by (apply Hq, elem_of_app; right; by apply elem_of_list_singleton). clear IH H Hq.
    destruct Hs as [j l s' Hy Hok|j t s' d' Hy Ht|j l d' Hl Ht Hu Hc|j m u r e d' Ht Hc Hu Hr He|j l d' Hl Ht]; cbn [emb].
    - apply (WS_sys K1 X0 U0 parse1 rcf onP (fun _ => c) (embw L1 L2 k j) l s'); [done|]. unfold may. unfold upd_ok in Hok. cbn [embw w_cur w_nx pick at_pol at_keys at_jwks].
      destruct l as [|l| |l| | | | | | | |]; try done; destruct l; try done; exfalso; [by eapply Q1|by eapply Q2].
    - apply (WS_tick K1 X0 U0 parse1 rcf onP (fun _ => c) (embw L1 L2 k j) t s' (Per d' L1 L2)); [done|]. by intros [].
    - by apply (WS_call K1 X0 U0 parse1 rcf onP (fun _ => c) (embw L1 L2 k j) DPol l d').
    - destruct e as [e|]; [by edestruct Q3|]. apply (WS_return K1 X0 U0 parse1 rcf onP (fun _ => c) (embw L1 L2 k j) DPol m r None d'); try done; [cbn; by rewrite Hu|]. destruct He as [_ He]. by rewrite (He eq_refl).
    - by apply (WS_loop K1 X0 U0 parse1 rcf onP (fun _ => c) (embw L1 L2 k j) DPol l d').
  Qed.
  Lemma emb_sysl js : wsysl K1 (map emb js) = sysl K1 js.
  Proof. induction js as [|[]]; cbn; by f_equal. Qed.
  Lemma emb_loopl js : wloopl K1 DPol (map emb js) = loopl K1 js.
  Proof. induction js as [|[]]; cbn; by f_equal. Qed.
  Notation lcalls := (fun _ : nat => [false; false; false; false]).
  Notation wrunP sb := (world_run K1 X0 U0 parse1 rcf onP (fun _ => cL) (wstart K1 (fun _ => cL) sb (Per 1 1 1)%nat)).
  Example C88_policy_nonvacuous : exists ls0 sb ws w wr sr x lc sc p,
    System.yrun K1 X0 U0 parse1 rcf linit ls0 sb /\ uncalled K1 sb 1 /\ wrunP sb ws w /\ ws = wr ++ x /\ wrunP sb wr sr /\
    z_policy (s_z rcf) = true /\ 0 < z_exp (s_z rcf) /\ 0 <= t0 /\ now K1 (w_sys K1 w) + z_exp (s_z rcf) <= max_int64 /\
    own_calls K1 X0 U0 parse1 rcf t0 3 2 0 4 lcalls (ls0 ++ wsysl K1 ws) /\ checks_within K1 X0 U0 parse1 rcf t0 3 2 0 4 lcalls (ls0 ++ wsysl K1 ws) (w_sys K1 w) (2 * second) /\
    healthy K1 (fun _ => cL) DPol sb ws (53 * second) /\ served K1 X0 U0 parse1 rcf t0 3 2 0 4 lcalls (ls0 ++ wsysl K1 ws) (ls0 ++ wsysl K1 wr) (eq rpol2) /\ now K1 (w_sys K1 sr) <= 53 * second /\
    happened K1 X0 U0 parse1 rcf linit (ls0 ++ wsysl K1 ws) (YAuth K1 (ZCall K1 1 q1)) lc sc /\ 53 * second + delay (fun _ => cL) DPol + 2 * second + z_exp (s_z rcf) < now K1 sc /\
    z_tasks (y_auth K1 (w_sys K1 w)) !! 1%nat = Some (CDone q1 (Ok p)) /\ pr_auth p = [B "r2"] /\
    exists p0, z_tasks (y_auth K1 (w_sys K1 sr)) !! 0%nat = Some (CDone q1 (Ok p0)) /\ pr_auth p0 = [B "r1"].
  Proof.
    destruct C85_nonvacuous as (ls0 & sb & js & j & jr & sr & x & lc & sc & p & H1 & H2 & H3 & H4 & H5 & H6 & H7 & H8 & H9 & H10 & H11 & H12 & H13 & H14 & H15 & H16 & H17 & H18 & H19 & H20 & H21 & H22 & H23).
    exists ls0, sb, (map emb js), (embw (tinit cL (now K1 sb)) (tinit cL (now K1 sb)) 1 j), (map emb jr), (embw (tinit cL (now K1 sb)) (tinit cL (now K1 sb)) 1 sr), (map emb x), lc, sc, p.
    unfold healthy. rewrite !emb_sysl, emb_loopl. cbn [embw w_sys].
    split; [exact H1|]. split; [exact H2|]. split; [exact (emb_run cL _ _ 1 _ _ _ H4 H22)|]. split; [by rewrite H5, map_app|].
    split; [apply (emb_run cL _ _ 1 _ _ _ H6); intros l Hl; apply H22; rewrite H5; apply elem_of_app; by left|].
    do 6 (split; [assumption|]). split; [split; [exact H3|]; split; [exact H13|]; split; [intros _; exact H14|exact H17]|].
    split; [exact H15|]. split; [exact H16|]. split; [exact H18|]. split; [exact H19|]. split; [exact H20|]. split; [exact H21|]. exact H23.
  Qed.
End example.
Print Assumptions C88_keys_in_force.
Print Assumptions C88_key_sets_in_force.
Print Assumptions C88_key_revocation_latency.
Print Assumptions C88_policy_revocation_latency.
Print Assumptions C88_undecodable_list_keeps_the_old_key.
