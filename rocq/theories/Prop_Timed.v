(** * Property C84: how often the daemons update *)
From Verif Require Import Timed.
From Verif Require Export GoStrings.

(** ** Specification *)
(** Update is called; it returns. *)
Definition begins (l : option rlabel) : Prop := l = Some RRetry \/ l = Some RFire.
Definition returns (r : option str) (l : option rlabel) : Prop := l = Some (RUpdated r).
Notation trace := (list (time * option rlabel)).
(** The context is not cancelled. *)
Definition uncancelled (tr : trace) : Prop := forall t e, (t, Some (RCancel e)) ∉ tr.
(** The reader of the error channel keeps up: there is room whenever the loop is about to send. *)
Definition read (c : timing) (k : kind) (pre : str) (s0 : tst) (tr : trace) : Prop :=
  forall tr1 tr2 s, tr = tr1 ++ tr2 -> trun c k pre tr1 s0 s -> forall b m, r_loc (t_s s) = LSend b m -> (length (r_ech (t_s s)) < 100)%nat.
Definition sensible (c : timing) : Prop := 0 < c_refresh c /\ 0 <= c_lag c /\ 0 <= c_update c /\ 0 <= c_retry c <= c_sleep c.
(** The longest time from the end of one select to the next call of Update, when one is wanted. *)
Definition turn (c : timing) : duration := c_update c + c_sleep c + 4 * c_lag c.

(** ** Facts *)
#[local] Instance rlabel_dec : EqDecision rlabel.
Proof. solve_decision. Defined.
Section facts.
  Context (c : timing) (k : kind) (pre : str) (Hc : sensible c).
  (** An Update is to come without anything else happening. *)
  Definition armed (s : rst) : Prop :=
    match r_loc s with
    | LSelect | LUpdate _ => r_tick s = true \/ (0 < r_retry s)%nat
    | LSend _ _ | LSleep _ | LPut _ | LQueue => True
    | LBye _ | LEnd => False
    end.
  Definition budget (s : rst) : duration :=
    match r_loc s with
    | LSelect => c_lag c
    | LQueue => 2 * c_lag c
    | LPut _ => 3 * c_lag c
    | LSleep _ => c_sleep c + 3 * c_lag c
    | LSend _ _ => c_sleep c + 4 * c_lag c
    | LUpdate _ => c_update c + c_sleep c + 4 * c_lag c
    | _ => 0
    end.
  Lemma trun_app tr1 tr2 s s' : trun c k pre (tr1 ++ tr2) s s' <-> exists s1, trun c k pre tr1 s s1 /\ trun c k pre tr2 s1 s'.
  Proof.
    revert s. induction tr1 as [|[t l] tr1 IH]; intros s; cbn [app].
    - split; [intros H; exists s; split; [constructor|done]|]. intros (s1 & H1 & H2). by inversion H1; subst.
    - split.
      + intros H. inversion H as [|? ? ? ? s2 ? H1 H2]; subst. apply IH in H2 as (s3 & H3 & H4). exists s3. split; [by econstructor|done].
      + intros (s1 & H1 & H2). inversion H1 as [|? ? ? ? s2 ? H3 H4]; subst. econstructor; [done|]. apply IH. by exists s1.
  Qed.
  Definition good (s : tst) : Prop := t_since s <= t_now s <= t_next s /\ t_next s <= t_now s + c_refresh c /\ (r_loc (t_s s) <> LEnd /\ (forall m, r_loc (t_s s) <> LBye m)) /\ r_ctx (t_s s) = None.
  Lemma rstep_ctx l s s' : rstep k pre l s = Some s' -> (forall e, l <> RCancel e) -> r_ctx s = None -> r_ctx s' = None.
  Proof.
    intros H Hl Hx. destruct s as [lo re ti ec bu go cx]. cbn in Hx. subst cx. destruct l; try (by destruct (Hl e)); cbn in H; destruct lo; try done; try (destruct r); try (destruct re); try (destruct ti); try (destruct ec);
      repeat (case_match; try done); simplify_eq; done.
  Qed.
  Lemma rstep_alive l s s' : rstep k pre l s = Some s' -> r_ctx s = None -> r_loc s <> LEnd -> (forall m, r_loc s <> LBye m) -> r_loc s' <> LEnd /\ forall m, r_loc s' <> LBye m.
  Proof.
    intros H Hx H1 H2. destruct s as [lo re ti ec bu go cx]. cbn in *. subst cx. destruct l; cbn in H; destruct lo; try done; try (by destruct (H2 m)); try (destruct r); try (destruct re); try (destruct ti); try (destruct ec);
      repeat (case_match; try done); simplify_eq; cbn; split; intros; discriminate.
  Qed.
  Lemma alive_ticks s : r_loc s <> LEnd -> (forall m, r_loc s <> LBye m) -> ticking s.
  Proof. intros H1 H2. unfold ticking. destruct (r_loc s); try done. by destruct (H2 m). Qed.
  Lemma good_step t l s s' : good s -> (forall e, l <> Some (RCancel e)) -> tstep c k pre t l s s' -> good s' /\ t_now s' = t /\ t_now s <= t <= t_next s.
  Proof.
    intros (H1 & H2 & (H3 & H4) & H5) Hl H. destruct H as [s (Ht1 & Ht2 & Hd)|s l s' (Ht1 & Ht2 & Hd) Hr Htick Hs]; specialize (Ht2 (alive_ticks _ H3 H4)).
    - unfold good. cbn [t_s t_since t_next t_now]. split_and!; try done; lia.
    - assert (r_ctx s' = None) as Hx by (eapply rstep_ctx; [done| |done]; intros e ->; by apply (Hl e)). destruct (rstep_alive _ _ _ Hr H5 H3 H4) as [H6 H7]. unfold good. cbn [t_s t_since t_next t_now]. destruct Hc as (? & _).
      assert (t_since s <= t) by lia. split_and!; try done.
      all: first [ destruct (own l); [lia|]; destruct (due c (t_s s)); lia | destruct l; first [ lia | specialize (Htick eq_refl); lia ] ].
  Qed.
  Lemma good_run tr s s' : good s -> uncancelled tr -> trun c k pre tr s s' -> good s' /\ t_now s <= t_now s'.
  Proof.
    intros Hg Hu H. induction H as [s|t l tr s s1 s2 Hs _ IH]; [split; [done|lia]|].
    destruct (good_step t l s s1 Hg ltac:(intros e ->; apply (Hu t e); left) Hs) as (Hg1 & Hn & Hle). destruct IH as [IH1 IH2]; [done|intros t' e Hin; by apply (Hu t' e); right|]. split; [done|lia].
  Qed.
  (** The goroutine reaches its next call of Update in time. *)
  Lemma rstep_armed l s s' : rstep k pre l s = Some s' -> l <> RRetry -> l <> RFire -> (forall e, l <> RCancel e) -> r_ctx s = None -> armed s -> (forall b m, r_loc s = LSend b m -> (length (r_ech s) < 100)%nat) ->
    armed s' /\ (if own l then exists d, due c s = Some d /\ budget s' + d <= budget s else budget s' = budget s /\ is_Some (due c s)).
  Proof.
    intros H N1 N2 N3 Hx Ha Hr. destruct Hc as (C1 & C2 & C3 & C4). destruct s as [lo re ti ec bu go cx]. cbn in Hx, Hr. subst cx. unfold armed, budget, due in *. cbn [r_goto r_loc r_tick r_retry r_ech r_ctx] in *.
    assert (forall b m, lo = LSend b m -> (length ec <? ecap)%nat = true) as Hroom by (intros b m Hl; apply Nat.ltb_lt; unfold ecap; exact (Hr b m Hl)).
    destruct l; try done; try (by destruct (N3 e)); cbn [rstep r_loc r_tick r_retry r_ech r_ctx r_buf r_got own] in *.
    - destruct lo; try done; try (rewrite ?(Hroom _ _ eq_refl) in H |- *); injection H as <-; cbn [r_goto r_loc r_tick r_retry r_ech r_ctx] in *; (split; [try done; by left|]); (split; [done|]); try done; try (rewrite (Hroom _ _ eq_refl)); try (by eexists).
      destruct Ha as [-> |Ha]; [by eexists|]. destruct ti; [by eexists|]. apply Nat.ltb_lt in Ha. rewrite Ha. by eexists.
    - by destruct lo.
    - destruct lo; try done. destruct r as [e|]; injection H as <-; [|cbn [r_goto r_loc r_tick r_retry r_ech r_ctx] in *; split; [done|]; eexists; split; [done|lia]]. destruct k; cbn [r_goto r_loc r_tick r_retry r_ech r_ctx] in *; (split; [done|]); eexists; (split; [done|lia]).
    - destruct lo; try done; try (rewrite ?(Hroom _ _ eq_refl) in H |- *).
      + injection H as <-. destruct r; cbn [r_goto r_loc r_tick r_retry r_ech r_ctx] in *; (split; [done|]); eexists; (split; [done|lia]).
      + injection H as <-. destruct k; cbn [r_goto r_loc r_tick r_retry r_ech r_ctx] in *; (split; [done|]); eexists; (split; [done|lia]).
      + destruct (length ec <? ecap)%nat; injection H as <-; cbn [r_goto r_loc r_tick r_retry r_ech r_ctx] in *; (split; [done|]); eexists; (split; [done|lia]).
      + injection H as <-. cbn [r_goto r_loc r_tick r_retry r_ech r_ctx] in *. split; [|eexists; split; [done|lia]]. right. destruct (re <? fcap)%nat eqn:E; [lia|]. apply Nat.ltb_ge in E. unfold fcap in E. lia.
    - destruct ec as [|m q]; [done|]. injection H as <-. cbn [r_goto r_loc r_tick r_retry r_ech r_ctx] in *. split; [done|]. split; [done|].
      destruct lo; try done; try (rewrite (Hroom _ _ eq_refl)); try (by eexists). destruct Ha as [-> |Ha]; [by eexists|]. destruct ti; [by eexists|]. apply Nat.ltb_lt in Ha. rewrite Ha. by eexists.
  Qed.
  Lemma armed_due s : armed s -> (forall b m, r_loc s = LSend b m -> (length (r_ech s) < 100)%nat) -> exists d, due c s = Some d /\ d <= budget s.
  Proof.
    intros Ha Hr. destruct Hc as (C1 & C2 & C3 & C4). destruct s as [lo re ti ec bu go cx]. unfold armed, due, budget in *. cbn [r_goto r_loc r_tick r_retry r_ech r_ctx] in *.
    destruct lo as [| |b0 m0| | | | |]; try done; try (eexists; split; [done|lia]).
    2:{ assert (length ec <? ecap = true)%nat as -> by (apply Nat.ltb_lt; unfold ecap; exact (Hr b0 m0 eq_refl)). eexists; split; [done|lia]. }
    destruct Ha as [-> |Ha]; [eexists; split; [done|lia]|]. destruct ti; [eexists; split; [done|lia]|]. apply Nat.ltb_lt in Ha. rewrite Ha. eexists. split; [done|lia].
  Qed.
  Lemma read_tail t l tr s s1 : tstep c k pre t l s s1 -> read c k pre s ((t, l) :: tr) -> read c k pre s1 tr.
  Proof. intros Hs Hr tr1 tr2 s2 -> H. apply (Hr ((t, l) :: tr1) tr2 s2); [done|]. by econstructor. Qed.
  Lemma read_here tr s : read c k pre s tr -> forall b m, r_loc (t_s s) = LSend b m -> (length (r_ech (t_s s)) < 100)%nat.
  Proof. intros H. apply (H [] tr); [done|constructor]. Qed.
  (** From an armed state: either Update is called by the deadline, or the deadline is not over. *)
  Lemma armed_run tr s s' : good s -> armed (t_s s) -> uncancelled tr -> read c k pre s tr -> trun c k pre tr s s' ->
    (exists tr1 u l tr2, tr = tr1 ++ (u, l) :: tr2 /\ begins l /\ t_now s <= u <= t_since s + budget (t_s s)) \/ t_now s' <= Z.max (t_now s) (t_since s + budget (t_s s)).
  Proof.
    intros Hg Ha Hu Hr H. induction H as [s|t l tr s s1 s2 Hs H IH]; [right; lia|].
    pose proof (read_here _ _ Hr) as Hroom. destruct (armed_due _ Ha Hroom) as (d & Hd & Hdb).
    assert (forall e, l <> Some (RCancel e)) as Hl by (intros e ->; apply (Hu t e); left).
    destruct (good_step _ _ _ _ Hg Hl Hs) as (Hg1 & Hn & Hle). destruct (decide (l = Some RRetry \/ l = Some RFire)) as [Hb|Hb].
    { left. exists [], t, l, tr. split; [done|]. split; [done|]. inversion Hs as [? (_ & _ & Hx)|? ? ? (_ & _ & Hx)]; subst; specialize (Hx _ Hd); lia. }
    assert (armed (t_s s1) /\ t_since s1 + budget (t_s s1) <= t_since s + budget (t_s s) /\ t <= t_since s + budget (t_s s)) as (Ha1 & Hb1 & Ht).
    { inversion Hs as [? (_ & _ & Hx)|? l' s' (_ & _ & Hx) Hst]; subst; specialize (Hx _ Hd); cbn [t_s t_since]; [split_and!; [done|lia|lia]|].
      destruct (rstep_armed l' (t_s s) s' Hst) as [Q1 Q2]; [intros ->; apply Hb; by left|intros ->; apply Hb; by right|intros e ->; by apply (Hl e)|apply Hg|done|done|].
      split; [done|]. destruct (own l'); [destruct Q2 as (d' & Hd' & Q2); rewrite Hd in Hd'; injection Hd' as <-; lia|]. destruct Q2 as [-> _]. rewrite Hd. lia. }
    destruct IH as [(tr1 & u & l' & tr2 & -> & Hbe & Hu1)|IH]; [done|done|intros t' e Hin; by apply (Hu t' e); right|by eapply read_tail| |].
    - left. exists ((t, l) :: tr1), u, l', tr2. split; [done|]. split; [done|]. lia.
    - right. lia.
  Qed.
  Lemma split_time (tr : trace) (t : time) : exists a b, tr = a ++ b /\ Forall (fun e => fst e <= t) a /\ match b with [] => True | e :: _ => t < fst e end.
  Proof.
    induction tr as [|e tr (a & b & -> & Ha & Hb)]; [by exists [], []; repeat constructor|]. destruct (decide (fst e <= t)) as [He|He].
    - exists (e :: a), b. split; [done|]. split; [by constructor|done].
    - exists [], (e :: a ++ b). split; [done|]. split; [constructor|]. lia.
  Qed.
  Lemma now_le tr s s' (t : time) : good s -> t_now s <= t -> uncancelled tr -> trun c k pre tr s s' -> Forall (fun e => fst e <= t) tr -> t_now s' <= t.
  Proof.
    intros Hg Hn Hu H. induction H as [s|t' l tr s s1 s2 Hs _ IH]; intros Hf; [done|]. apply Forall_cons in Hf as [Hf1 Hf2]. cbn in Hf1.
    destruct (good_step t' l s s1 Hg ltac:(intros e ->; apply (Hu t' e); left) Hs) as (Hg1 & Hn1 & _). apply IH; [done|lia| |done]. intros t2 e Hin. by apply (Hu t2 e); right.
  Qed.
  (** The next tick. *)
  Lemma tick_run tr s s' : good s -> uncancelled tr -> trun c k pre tr s s' ->
    (exists tr1 tr2 s1 s2, tr = tr1 ++ (t_next s, Some RTick) :: tr2 /\ trun c k pre tr1 s s1 /\ tstep c k pre (t_next s) (Some RTick) s1 s2 /\ trun c k pre tr2 s2 s') \/ t_now s' <= t_next s.
  Proof.
    intros Hg Hu H. induction H as [s|t l tr s s1 s2 Hs H IH]; [right; apply Hg|].
    destruct (good_step t l s s1 Hg ltac:(intros e ->; apply (Hu t e); left) Hs) as (Hg1 & Hn1 & _).
    destruct (decide (l = Some RTick)) as [-> |Hne].
    - left. assert (t = t_next s) as ->. { inversion Hs as [|? ? ? _ _ Ht]; subst. by apply Ht. } exists [], tr, s, s1. split; [done|]. split; [constructor|done].
    - assert (t_next s1 = t_next s) as En. { inversion Hs as [|? l' ? ]; subst; [done|]. cbn [t_next]. destruct l'; try done. } rewrite En in IH.
      destruct IH as [(tr1 & tr2 & s3 & s4 & -> & H1 & H2 & H3)|IH]; [done|intros t2 e Hin; by apply (Hu t2 e); right| |by right].
      left. exists ((t, l) :: tr1), tr2, s3, s4. split; [done|]. split; [by econstructor|done].
  Qed.
End facts.
Lemma good_init c t0 : sensible c -> good c (tinit c t0).
Proof. intros (H1 & _). unfold good, tinit. cbn. split_and!; try done; try lia. Qed.
Lemma uncancelled_app (tr1 tr2 : trace) : uncancelled (tr1 ++ tr2) <-> uncancelled tr1 /\ uncancelled tr2.
Proof. unfold uncancelled. setoid_rewrite elem_of_app. naive_solver. Qed.
Lemma read_app c k pre s tr1 tr2 s1 : read c k pre s (tr1 ++ tr2) -> trun c k pre tr1 s s1 -> read c k pre s1 tr2.
Proof. intros Hr H a b s2 -> Ha. apply (Hr (tr1 ++ a) b s2); [by rewrite app_assoc|]. apply trun_app. by exists s1. Qed.

Lemma rstep_update c k pre t l s s' b : tstep c k pre t (Some l) s s' -> r_loc (t_s s) = LUpdate b -> (forall e, Some l <> Some (RCancel e)) ->
  (exists r, l = RUpdated r) \/ r_loc (t_s s') = LUpdate b /\ t_since s' = t_since s.
Proof.
  intros H Hl Hc. inversion H as [|? l' s1 _ Hst]; subst. cbn [t_s t_since]. unfold due. rewrite Hl. destruct l; cbn [rstep] in Hst; rewrite ?Hl in Hst; try done; cbn [own].
  - injection Hst as <-. by right.
  - by destruct (Hc e).
  - left. by eexists.
  - destruct (r_ech (t_s s)); [done|]. injection Hst as <-. by right.
Qed.
(** ** Theorems *)
(** However long the daemon has been running, Update is called again within a refresh period and one
    turn of the loop. *)
Theorem C84_updates_keep_coming c k pre t0 tr s t : sensible c -> trun c k pre tr (tinit c t0) s -> uncancelled tr -> read c k pre (tinit c t0) tr ->
  t0 <= t -> t + c_refresh c + turn c < t_now s ->
  exists tr1 u l tr2, tr = tr1 ++ (u, l) :: tr2 /\ begins l /\ t < u <= t + c_refresh c + turn c.
Proof.
  intros Hc H Hu Hr H0 Hlong. pose proof (good_init c t0 Hc) as Hg0. pose proof Hc as (C1 & C2 & C3 & C4).
  destruct (split_time tr t) as (a & b & -> & Ha & Hb). apply uncancelled_app in Hu as [Hua Hub]. apply trun_app in H as (s1 & H1 & H2).
  destruct (good_run c k pre Hc _ _ _ Hg0 Hua H1) as [Hg1 _]. pose proof (now_le c k pre Hc _ _ _ t Hg0 H0 Hua H1 Ha) as Hn1. pose proof (read_app _ _ _ _ _ _ _ Hr H1) as Hr1.
  assert (t < t_next s1) as Hnext.
  { destruct b as [|[u l] b]; [inversion H2; subst; unfold turn in Hlong; lia|]. inversion H2 as [|? ? ? ? s2 ? Hs _]; subst. cbn in Hb.
    assert (u <= t_next s1) by (destruct Hg1 as (_ & _ & (G1 & G2) & _); pose proof (alive_ticks _ G1 G2) as G3; inversion Hs as [? (_ & Hx & _)|? ? ? (_ & Hx & _)]; subst; by apply Hx). lia. }
  assert (t_next s1 <= t + c_refresh c) as Hnext2 by (destruct Hg1 as (_ & ? & _); lia).
  destruct (tick_run c k pre Hc _ _ _ Hg1 Hub H2) as [(b1 & b2 & s2 & s3 & -> & T1 & T2 & T3)|Hend]; [|unfold turn in Hlong; lia].
  apply uncancelled_app in Hub as [Hub1 Hub2]. assert (uncancelled b2) as Hub3 by (intros t' e Hin; apply (Hub2 t' e); by right).
  destruct (good_run c k pre Hc _ _ _ Hg1 Hub1 T1) as [Hg2 _]. destruct (good_step c k pre Hc (t_next s1) (Some RTick) s2 s3 Hg2 ltac:(intros e [=]) T2) as (Hg3 & Hn3 & _).
  assert (read c k pre s3 b2) as Hr3. { eapply read_tail; [exact T2|]. eapply read_app; [exact Hr1|exact T1]. }
  assert (armed (t_s s3)) as Harm.
  { destruct Hg3 as (_ & _ & (G1 & G2) & _). inversion T2 as [|? l' s' _ Hst]; subst. cbn [t_s] in *. cbn [rstep] in Hst. unfold armed. destruct (r_loc (t_s s2)) eqn:El; try done; injection Hst as <-; cbn [r_loc r_tick]; rewrite ?El; cbn; try done; by left. }
  assert (t_since s3 + budget c (t_s s3) <= t_next s1 + turn c) as Hbud.
  { destruct Hg3 as ((G & _) & _). rewrite Hn3 in G. assert (budget c (t_s s3) <= turn c); [|lia]. unfold budget, turn. destruct (r_loc (t_s s3)); lia. }
  destruct (armed_run c k pre Hc _ _ _ Hg3 Harm Hub3 Hr3 T3) as [(d1 & u & l & d2 & -> & Hbe & Hle)|Hend].
  - exists (a ++ b1 ++ (t_next s1, Some RTick) :: d1), u, l, d2. split; [by rewrite <- !app_assoc|]. split; [done|]. lia.
  - unfold turn in *. lia.
Qed.
(** Every call returns in time (restating what is assumed of Update), so some call that began after
    [t] has returned by then. *)
Theorem C84_and_return c k pre t0 tr s t : sensible c -> trun c k pre tr (tinit c t0) s -> uncancelled tr -> read c k pre (tinit c t0) tr ->
  t0 <= t -> t + c_refresh c + turn c + c_update c < t_now s ->
  exists tr1 u l tr2 v r tr3, tr = tr1 ++ (u, l) :: tr2 ++ (v, Some (RUpdated r)) :: tr3 /\ begins l /\ t < u /\ u <= v <= t + c_refresh c + turn c + c_update c.
Proof.
  intros Hc H Hu Hr H0 Hlong. destruct (C84_updates_keep_coming c k pre t0 tr s t Hc H Hu Hr H0) as (tr1 & u & l & tr2 & -> & Hb & Hlt); [destruct Hc as (_ & _ & ? & _); lia|].
  exists tr1, u, l. pose proof (good_init c t0 Hc) as Hg0. apply uncancelled_app in Hu as [Hu1 Hu2]. apply trun_app in H as (s1 & H1 & H2). destruct (good_run c k pre Hc _ _ _ Hg0 Hu1 H1) as [Hg1 _].
  inversion H2 as [|? ? ? ? s2 ? Hs H3]; subst. assert (uncancelled tr2) as Hu3 by (intros t' e Hin; apply (Hu2 t' e); by right).
  destruct (good_step c k pre Hc u l s1 s2 Hg1 ltac:(destruct Hb as [-> | ->]; intros e [=]) Hs) as (Hg2 & Hn2 & _).
  assert (exists b, r_loc (t_s s2) = LUpdate b /\ t_since s2 = u) as (b & Hloc & Hsince).
  { destruct Hb as [-> | ->]; inversion Hs as [|? l' s' _ Hst]; subst; cbn [t_s t_since own]; cbn [rstep] in Hst; destruct (r_loc (t_s s1)); try done.
    - destruct (r_retry (t_s s1)); [done|]. injection Hst as <-. by eexists.
    - destruct (r_tick (t_s s1)); [|done]. injection Hst as <-. by eexists. }
  assert (t_now s2 <= u + c_update c) as Hn2' by (destruct Hc as (_ & _ & ? & _); lia).
  clear Hs H2 Hr Hu2 Hg1 H1. assert (u + c_update c < t_now s) as Hfin by lia.
  assert (exists tr2' v r tr3, tr2 = tr2' ++ (v, Some (RUpdated r)) :: tr3 /\ u <= v <= u + c_update c) as (tr2' & v & r & tr3 & -> & Hv).
  { assert (u <= t_now s2) as Hun by lia. clear Hn2. revert Hg2 Hloc Hsince Hn2' Hun Hu3. induction H3 as [s2|t' l' tr2 s2 s3 s4 Hs H3 IH]; intros Hg2 Hloc Hsince Hn2' Hun Hu3; [lia|].
    assert (forall e, l' <> Some (RCancel e)) as Hl by (intros e ->; apply (Hu3 t' e); left).
    destruct (good_step c k pre Hc _ _ _ _ Hg2 Hl Hs) as (Hg3 & Hn3 & Hle).
    assert (t' <= u + c_update c) as Ht'. { assert (due c (t_s s2) = Some (c_update c)) as Hd by (unfold due; by rewrite Hloc). inversion Hs as [? (_ & _ & Hx)|? ? ? (_ & _ & Hx)]; subst; apply Hx in Hd; lia. }
    destruct l' as [l'|].
    2:{ assert (t_s s3 = t_s s2 /\ t_since s3 = t_since s2) as [Q1 Q2] by (clear -Hs; inversion Hs; done).
        destruct IH as (a & v & r & d & -> & Hv); try done; try lia; [by rewrite Q1|intros t2 e Hin; by apply (Hu3 t2 e); right|]. exists ((t', None) :: a), v, r, d. by split. }
    destruct (rstep_update c k pre t' l' s2 s3 b Hs Hloc Hl) as [(r & ->)|[Q1 Q2]]; [exists [], t', r, tr2; split; [done|lia]|].
    destruct IH as (a & v & r & d & -> & Hv); try done; try lia; [intros t2 e Hin; by apply (Hu3 t2 e); right|]. exists ((t', Some l') :: a), v, r, d. by split. }
  exists tr2', v, r, tr3. split; [done|]. split; [done|]. lia.
Qed.

(** After a failed Update the next one is called within a sleep and four steps. *)
Theorem C84_failures_are_retried_soon c k pre t0 tr1 v e tr2 s : sensible c -> trun c k pre (tr1 ++ (v, Some (RUpdated (Some e))) :: tr2) (tinit c t0) s ->
  uncancelled (tr1 ++ tr2) -> read c k pre (tinit c t0) (tr1 ++ (v, Some (RUpdated (Some e))) :: tr2) ->
  v + c_sleep c + 4 * c_lag c < t_now s ->
  exists tr3 u l tr4, tr2 = tr3 ++ (u, l) :: tr4 /\ begins l /\ v <= u <= v + c_sleep c + 4 * c_lag c.
Proof.
  intros Hc H Hu Hr Hlong. pose proof (good_init c t0 Hc) as Hg0. pose proof Hc as (C1 & C2 & C3 & C4). apply uncancelled_app in Hu as [Hu1 Hu2]. apply trun_app in H as (s1 & H1 & H2).
  destruct (good_run c k pre Hc _ _ _ Hg0 Hu1 H1) as [Hg1 _]. pose proof (read_app _ _ _ _ _ _ _ Hr H1) as Hr1. inversion H2 as [|? ? ? ? s2 ? Hs H3]; subst.
  destruct (good_step c k pre Hc v (Some (RUpdated (Some e))) s1 s2 Hg1 ltac:(intros e' [=]) Hs) as (Hg2 & Hn2 & _). pose proof (read_tail _ _ _ _ _ _ _ _ Hs Hr1) as Hr2.
  assert (armed (t_s s2) /\ budget c (t_s s2) <= c_sleep c + 4 * c_lag c /\ t_since s2 = v) as (Ha & Hb & Hsi).
  { clear -Hs C2. inversion Hs as [|? l' s' _ Hst]; subst. cbn [t_s t_since own]. cbn [rstep] in Hst. destruct (r_loc (t_s s1)); try done. injection Hst as <-. unfold armed, budget. destruct k; cbn [r_goto r_loc]; split_and!; try done; lia. }
  destruct (armed_run c k pre Hc _ _ _ Hg2 Ha Hu2 Hr2 H3) as [(a & u & l & b & -> & Hbe & Hle)|Hend]; [|lia].
  exists a, u, l, b. split; [done|]. split; [done|]. lia.
Qed.
Lemma rstep_waits c k pre t l s s' (v : time) : 0 <= c_retry c ->
  (v <= t_since s /\ v <= t_now s /\ ((exists m, r_loc (t_s s) = LSend true m) \/ exists m, r_loc (t_s s) = LSleep m)) \/ v + c_retry c <= t_now s ->
  tstep c k pre t l s s' ->
  ((v <= t_since s' /\ v <= t_now s' /\ ((exists m, r_loc (t_s s') = LSend true m) \/ exists m, r_loc (t_s s') = LSleep m)) \/ v + c_retry c <= t_now s') /\ (begins l -> v + c_retry c <= t).
Proof.
  intros C4 Hi H. inversion H as [? (Ht & _ & _)|? l' s1 (Ht & _ & _) Hst _ Hsl]; subst; cbn [t_s t_since t_now].
  - split; [destruct Hi as [(? & ? & ?)|?]; [left; split_and!; [done|lia|done]|right; lia]|]. intros [[=]|[=]].
  - destruct Hi as [(H1 & H2 & Hloc)|Hi]; [|split; [right; lia|lia]]. split.
    + destruct l'; cbn [rstep own] in *.
      * left. assert (v <= match due c (t_s s) with Some _ => t_since s | None => t end) by (destruct (due c (t_s s)); lia). destruct Hloc as [[m Hl]|[m Hl]]; rewrite Hl in Hst; injection Hst as <-; (split; [done|]); (split; [lia|]); cbn [r_loc]; [left|right]; by eexists.
      * left. assert (v <= match due c (t_s s) with Some _ => t_since s | None => t end) by (destruct (due c (t_s s)); lia). destruct (r_ctx (t_s s)); [done|]. injection Hst as <-. by split_and!; [|lia|].
      * by destruct Hloc as [[m Hl]|[m Hl]]; rewrite Hl in Hst.
      * by destruct Hloc as [[m Hl]|[m Hl]]; rewrite Hl in Hst.
      * by destruct Hloc as [[m Hl]|[m Hl]]; rewrite Hl in Hst.
      * by destruct Hloc as [[m Hl]|[m Hl]]; rewrite Hl in Hst.
      * destruct Hloc as [[m Hl]|[m Hl]].
        -- left. rewrite Hl in Hst. case_match; [|done]. injection Hst as <-. split_and!; [lia|lia|]. right. by eexists.
        -- right. specialize (Hsl eq_refl m Hl). lia.
      * left. assert (v <= match due c (t_s s) with Some _ => t_since s | None => t end) by (destruct (due c (t_s s)); lia). destruct (r_ech (t_s s)); [done|]. injection Hst as <-. by split_and!; [|lia|].
    + intros [[= ->]|[= ->]]; cbn [rstep] in Hst; by destruct Hloc as [[m Hl]|[m Hl]]; rewrite Hl in Hst.
Qed.
Lemma rstep_same c k pre t l s s' b : tstep c k pre t l s s' -> ~ begins l -> (forall b', r_loc (t_s s) = LUpdate b' -> b' = b) -> forall b', r_loc (t_s s') = LUpdate b' -> b' = b.
Proof.
  intros H Hb Hi. inversion H as [|? l' s1 _ Hst]; subst; cbn [t_s]; [done|]. destruct l'; cbn [rstep] in Hst.
  - destruct (r_loc (t_s s)); try done; by injection Hst as <-.
  - destruct (r_ctx (t_s s)); [done|]. by injection Hst as <-.
  - destruct (r_loc (t_s s)); try done. destruct (r_ctx (t_s s)); [|done]. by injection Hst as <-.
  - destruct Hb. by left.
  - destruct Hb. by right.
  - destruct (r_loc (t_s s)); try done. destruct r; injection Hst as <-; [by destruct k|done].
  - destruct (r_loc (t_s s)); try done; repeat case_match; try done; injection Hst as <-; done.
  - destruct (r_ech (t_s s)); [done|]. by injection Hst as <-.
Qed.
(** The JWK daemon waits at least retryDelay after each failure; the policy and public key daemons
    do after a failed retry. *)
Theorem C84_retries_are_spaced c k pre t0 tr1 u0 l0 tr2 v e tr3 u l tr4 s : sensible c ->
  trun c k pre (tr1 ++ (u0, l0) :: tr2 ++ (v, Some (RUpdated (Some e))) :: tr3 ++ (u, l) :: tr4) (tinit c t0) s ->
  begins l0 -> (forall x, x ∈ tr2 -> ~ begins (snd x)) -> (l0 = Some RRetry \/ k = Buffering) -> begins l -> v + c_retry c <= u.
Proof.
  intros (_ & _ & _ & C4) H Hb0 Hno Hk Hb. apply trun_app in H as (s1 & _ & H). inversion H as [|? ? ? ? s2 ? Hs2 H2]; subst. apply trun_app in H2 as (s3 & H2 & H3). inversion H3 as [|? ? ? ? s4 ? Hs4 H4]; subst.
  apply trun_app in H4 as (s5 & H4 & H5). inversion H5 as [|? ? ? ? s6 ? Hs6 _]; subst.
  assert (l0 = Some RRetry -> forall b', r_loc (t_s s3) = LUpdate b' -> b' = true) as Hkind.
  { intros ->. assert (forall b', r_loc (t_s s2) = LUpdate b' -> b' = true) as Hi.
    { inversion Hs2 as [|? l' s' _ Hst]; subst. cbn [t_s]. cbn [rstep] in Hst. destruct (r_loc (t_s s1)); try done. destruct (r_retry (t_s s1)); [done|]. injection Hst as <-. cbn. by intros b' [= <-]. }
    clear -H2 Hno Hi. induction H2 as [s|t l tr s s1 s2 Hs _ IH]; [done|]. apply IH; [intros x Hx; apply Hno; by right|]. eapply rstep_same; [exact Hs| |exact Hi]. apply (Hno (t, l)). left. }
  assert (v <= t_since s4 /\ v <= t_now s4 /\ ((exists m, r_loc (t_s s4) = LSend true m) \/ exists m, r_loc (t_s s4) = LSleep m)) as Hw.
  { inversion Hs4 as [|? l' s' _ Hst]; subst. cbn [t_s t_since t_now own]. split; [done|]. split; [done|]. cbn [rstep] in Hst. destruct (r_loc (t_s s3)) as [|b| | | | | |] eqn:El; try done. injection Hst as <-. cbn [r_goto r_loc].
    destruct k; [|right; by eexists]. destruct Hk as [Hk|[=]]. left. rewrite (Hkind Hk b eq_refl). by eexists. }
  assert ((v <= t_since s5 /\ v <= t_now s5 /\ ((exists m, r_loc (t_s s5) = LSend true m) \/ exists m, r_loc (t_s s5) = LSleep m)) \/ v + c_retry c <= t_now s5) as Hw5.
  { assert (forall tr s s', trun c k pre tr s s' -> (v <= t_since s /\ v <= t_now s /\ ((exists m, r_loc (t_s s) = LSend true m) \/ exists m, r_loc (t_s s) = LSleep m)) \/ v + c_retry c <= t_now s -> (v <= t_since s' /\ v <= t_now s' /\ ((exists m, r_loc (t_s s') = LSend true m) \/ exists m, r_loc (t_s s') = LSleep m)) \/ v + c_retry c <= t_now s') as Hrun.
    { clear -C4. intros tr s s' H. induction H as [s|t l tr s s1 s2 Hs _ IH]; [done|]. intros Hi. apply IH. eapply rstep_waits; [lia|exact Hi|exact Hs]. }
    eapply Hrun; [exact H4|by left]. }
  destruct (rstep_waits c k pre u l s5 s6 v ltac:(lia) Hw5 Hs6) as [_ Hx]. by apply Hx.
Qed.
(** Once Updates succeed, what the daemon holds was fetched at most that long ago. *)
Theorem C84_freshness c k pre t0 tr s t : sensible c -> trun c k pre tr (tinit c t0) s -> uncancelled tr -> read c k pre (tinit c t0) tr ->
  (forall v e, (v, Some (RUpdated (Some e))) ∈ tr -> v <= t) -> t0 <= t -> t + c_refresh c + turn c + c_update c < t_now s ->
  exists tr1 u l tr2 v tr3, tr = tr1 ++ (u, l) :: tr2 ++ (v, Some (RUpdated None)) :: tr3 /\ begins l /\ t < u /\ u <= v <= t + c_refresh c + turn c + c_update c.
Proof.
  intros Hc H Hu Hr Hok H0 Hl. destruct (C84_and_return c k pre t0 tr s t Hc H Hu Hr H0 Hl) as (tr1 & u & l & tr2 & v & r & tr3 & -> & Hb & Hlt & Hv).
  destruct r as [e|]; [|by exists tr1, u, l, tr2, v, tr3]. specialize (Hok v e). assert (v <= t); [|lia]. apply Hok. apply elem_of_app. right. right. apply elem_of_app. right. left.
Qed.

(** The JWK daemon needs no reader (jwk/daemon.go:110-126): the bounds hold without that condition. *)
Theorem C84_jwk_needs_no_reader c pre t0 tr : read c Buffering pre (tinit c t0) tr.
Proof.
  intros tr1 tr2 s _ H b m Hl. exfalso. assert (forall tr s s', trun c Buffering pre tr s s' -> (forall b m, r_loc (t_s s) <> LSend b m) -> forall b m, r_loc (t_s s') <> LSend b m) as Hinv; [|eapply Hinv; [exact H|done|exact Hl]].
  clear. intros tr s s' H. induction H as [|t l tr s s1 s2 Hs _ IH]; [done|]. intros Hi. apply IH. inversion Hs as [|? l' s' _ Hst]; subst; cbn [t_s]; [done|].
  destruct l'; cbn [rstep] in Hst; repeat (case_match; try done); simplify_eq; cbn [r_goto r_loc]; try done; congruence.
Qed.

(** *** The end of the loop *)
(** The reader keeps up until the end: there is room for the last error as well. *)
Definition read_out (c : timing) (k : kind) (pre : str) (s0 : tst) (tr : trace) : Prop :=
  forall tr1 tr2 s, tr = tr1 ++ tr2 -> trun c k pre tr1 s0 s -> forall m, (exists b, r_loc (t_s s) = LSend b m) \/ r_loc (t_s s) = LBye m -> (length (r_ech (t_s s)) < 100)%nat.
(** How often Update is called. *)
Fixpoint calls (tr : trace) : Z :=
  match tr with
  | [] => 0
  | (_, Some RRetry) :: tr | (_, Some RFire) :: tr => 1 + calls tr
  | _ :: tr => calls tr
  end.
Definition last_budget (c : timing) (s : rst) : duration :=
  match r_loc s with
  | LBye _ => c_lag c
  | LSelect => 2 * c_lag c
  | LQueue => 3 * c_lag c
  | LPut _ => 4 * c_lag c
  | LSleep _ => c_sleep c + 4 * c_lag c
  | LSend _ _ => c_sleep c + 5 * c_lag c
  | LUpdate _ => c_update c + c_sleep c + 5 * c_lag c
  | LEnd => 0
  end.
Lemma since_now c k pre tr s s' : trun c k pre tr s s' -> t_since s <= t_now s -> t_since s' <= t_now s'.
Proof.
  intros H. induction H as [|t l tr s s1 s2 Hs _ IH]; [done|]. intros Hle. apply IH. inversion Hs as [? (H1 & _ & _)|? l' s' (H1 & _ & _)]; subst; cbn [t_since t_now]; [lia|].
  destruct (own l'); [lia|]. destruct (due c (t_s s)); lia.
Qed.
Lemma last_step c k pre l s s' e : sensible c -> rstep k pre l s = Some s' -> r_ctx s = Some e -> r_loc s <> LEnd ->
  (forall m, (exists b, r_loc s = LSend b m) \/ r_loc s = LBye m -> (length (r_ech s) < 100)%nat) ->
  r_ctx s' = Some e /\ exists d, due c s = Some d /\ d <= last_budget c s /\
  (r_loc s' = LEnd \/ if own l then last_budget c s' + d <= last_budget c s + match l with RRetry | RFire => turn c + c_lag c | _ => 0 end else last_budget c s' = last_budget c s).
Proof.
  intros (C1 & C2 & C3 & C4) H Hx Hl Hr. destruct s as [lo re ti ec bu go cx]. cbn [r_ctx r_loc r_ech] in *. subst cx.
  assert (forall m, (exists b, lo = LSend b m) \/ lo = LBye m -> (length ec <? ecap)%nat = true) as Hroom by (intros m Hm; apply Nat.ltb_lt; unfold ecap; exact (Hr m Hm)). clear Hr.
  assert (exists d, due c (RSt lo re ti ec bu go (Some e)) = Some d /\ d = match lo with LUpdate _ => c_update c | LSleep _ => c_sleep c | _ => c_lag c end) as (d & Hd & Ed).
  { unfold due. cbn [r_loc r_tick r_retry r_ech r_ctx]. destruct lo as [| |b m| | | |m|]; try done; try (by eexists); [|rewrite (Hroom m) by (left; by exists b); by eexists|rewrite (Hroom m) by (by right); by eexists]. rewrite orb_true_r. by eexists. }
  assert (d <= last_budget c (RSt lo re ti ec bu go (Some e))) as Hdb. { subst d. unfold last_budget. cbn [r_loc]. destruct lo; try done; lia. }
  assert (r_ctx s' = Some e /\ (r_loc s' = LEnd \/ if own l then last_budget c s' + d <= last_budget c (RSt lo re ti ec bu go (Some e)) + match l with RRetry | RFire => turn c + c_lag c | _ => 0 end else last_budget c s' = last_budget c (RSt lo re ti ec bu go (Some e)))) as [Hc' Hb']; [|split; [done|]; exists d; split_and!; done].
  clear Hd Hdb. unfold last_budget, turn. cbn [r_loc]. destruct l; cbn [rstep r_loc r_tick r_retry r_ech r_ctx r_buf r_got own] in *.
  - destruct lo; try done; injection H as <-; cbn [r_ctx r_loc]; (split; [done|]); by right.
  - done.
  - destruct lo; try done. injection H as <-. cbn [r_goto r_ctx r_loc]. split; [done|]. right. lia.
  - destruct lo; try done. destruct re; [done|]. injection H as <-. cbn [r_ctx r_loc]. split; [done|]. right. lia.
  - destruct lo; try done. destruct ti; [|done]. injection H as <-. cbn [r_ctx r_loc]. split; [done|]. right. lia.
  - destruct lo; try done. destruct r; injection H as <-; [destruct k|]; cbn [r_goto r_ctx r_loc]; (split; [done|]); right; lia.
  - destruct lo as [| |b m| | | |m|]; try done.
    + rewrite (Hroom m) in H by (left; by exists b). injection H as <-. cbn [r_ctx r_loc]. split; [done|]. right. destruct b; lia.
    + injection H as <-. cbn [r_goto r_ctx r_loc]. split; [done|]. right. destruct k; lia.
    + destruct (length ec <? ecap)%nat; injection H as <-; cbn [r_ctx r_loc]; (split; [done|]); right; lia.
    + injection H as <-. cbn [r_ctx r_loc]. split; [done|]. right. lia.
    + rewrite (Hroom m) in H by (by right). injection H as <-. cbn [r_ctx r_loc]. split; [done|]. by left.
  - destruct ec; [done|]. injection H as <-. cbn [r_ctx r_loc]. split; [done|]. by right.
Qed.
Lemma at_end s : r_loc s = LEnd \/ r_loc s <> LEnd.
Proof. destruct (r_loc s); (by left) || (by right). Qed.
Lemma end_stays c k pre tr s s' : trun c k pre tr s s' -> r_loc (t_s s) = LEnd -> r_loc (t_s s') = LEnd.
Proof.
  intros H. induction H as [|t l tr s s1 s2 Hs _ IH]; [done|]. intros Hl. apply IH. inversion Hs as [|? l' s' _ Hst]; subst; cbn [t_s]; [done|].
  destruct l'; cbn [rstep] in Hst; rewrite ?Hl in Hst; try done; repeat (case_match; try done); injection Hst as <-; done.
Qed.
Lemma last_run c k pre tr s s' e (D : time) : sensible c -> trun c k pre tr s s' -> read_out c k pre s tr -> r_ctx (t_s s) = Some e ->
  r_loc (t_s s) = LEnd \/ t_since s + last_budget c (t_s s) <= D /\ t_now s <= D ->
  r_loc (t_s s') = LEnd \/ t_now s' <= D + calls tr * (turn c + c_lag c).
Proof.
  intros Hc H. revert D. induction H as [s|t l tr s s1 s2 Hs H IH]; intros D Hr Hx Hi; [destruct Hi as [?|[_ ?]]; [by left|right; cbn [calls]; lia]|].
  destruct (at_end (t_s s)) as [Hend|Hend]. { left. eapply end_stays; [econstructor; [exact Hs|exact H]|done]. }
  destruct Hi as [?|[Hi Hn]]; [done|].
  pose proof (Hr [] ((t, l) :: tr) s eq_refl (T_nil _ _ _ _)) as Hroom.
  assert (read_out c k pre s1 tr) as Hr1. { intros a b s3 -> Ha. apply (Hr ((t, l) :: a) b s3); [done|]. by econstructor. }
  inversion Hs as [? (Ht & _ & Hdl)|? l' s' (Ht & _ & Hdl) Hst]; subst.
  - assert (t <= D) as HtD.
    { assert (exists d, due c (t_s s) = Some d /\ d <= last_budget c (t_s s)) as (d & Hd & Hle); [|specialize (Hdl d Hd); lia].
      (* a tick is possible or the loop says goodbye; either gives the deadline *)
      destruct (rstep k pre RTick (t_s s)) as [s'|] eqn:E.
      - destruct (last_step c k pre RTick (t_s s) s' e Hc E Hx Hend Hroom) as (_ & d & Hd & Hle & _). by exists d.
      - destruct (rstep k pre RStep (t_s s)) as [s'|] eqn:E2.
        + destruct (last_step c k pre RStep (t_s s) s' e Hc E2 Hx Hend Hroom) as (_ & d & Hd & Hle & _). by exists d.
        + exfalso. cbn [rstep] in E, E2. destruct (r_loc (t_s s)) as [| | | | | |m|]; try done. specialize (Hroom m (or_intror eq_refl)). apply Nat.ltb_lt in Hroom. unfold ecap in E2. by rewrite Hroom in E2. }
    apply (IH D Hr1 Hx). right. split; [done|]. cbn [t_now]. lia.
  - destruct (last_step c k pre l' (t_s s) s' e Hc Hst Hx Hend Hroom) as (Hx1 & d & Hd & Hle & Hb). specialize (Hdl d Hd). cbn [t_s] in IH.
    destruct Hb as [Hb|Hb]; [left; eapply end_stays; [exact H|done]|].
    assert (calls ((t, Some l') :: tr) = calls tr + match l' with RRetry | RFire => 1 | _ => 0 end) as -> by (destruct l'; cbn [calls]; lia).
    assert (0 <= turn c + c_lag c) as HT by (destruct Hc as (C1 & C2 & C3 & C4); unfold turn; lia).
    destruct (IH (D + match l' with RRetry | RFire => turn c + c_lag c | _ => 0 end) Hr1 Hx1) as [?|Hfin]; [|by left|right; destruct l'; lia].
    right. cbn [t_s t_since t_now]. rewrite Hd. destruct (own l') eqn:Eo; destruct l'; try done; lia.
Qed.
(** Once the context is cancelled, the goroutine ends within a turn of the loop for every time the
    select passes over ctx.Done(), and one more. *)
Theorem C84_ends_soon_after_cancel c k pre t0 tr1 t e tr2 s : sensible c -> trun c k pre (tr1 ++ (t, Some (RCancel e)) :: tr2) (tinit c t0) s ->
  read_out c k pre (tinit c t0) (tr1 ++ (t, Some (RCancel e)) :: tr2) -> t + (1 + calls tr2) * (turn c + c_lag c) < t_now s -> r_loc (t_s s) = LEnd.
Proof.
  intros Hc H Hr Hlong. apply trun_app in H as (s1 & H1 & H2). pose proof (since_now _ _ _ _ _ _ H1 ltac:(cbn; lia)) as Hsn. inversion H2 as [|? ? ? ? s2 ? Hs H3]; subst.
  assert (read_out c k pre s2 tr2) as Hr2. { intros a b s3 -> Ha. apply (Hr (tr1 ++ (t, Some (RCancel e)) :: a) b s3); [by rewrite <- app_assoc|]. apply trun_app. exists s1. split; [done|]. by econstructor. }
  pose proof Hc as (C1 & C2 & C3 & C4).
  inversion Hs as [|? l' s' (Ht & _ & _) Hst]; subst. cbn [rstep] in Hst. destruct (r_ctx (t_s s1)); [done|]. injection Hst as <-.
  destruct (last_run c k pre _ _ _ e (t + (turn c + c_lag c)) Hc H3 Hr2 eq_refl) as [?|Hle]; [|done|lia].
  cbn [t_s t_since t_now own r_loc]. destruct (at_end (t_s s1)) as [?|Hne]; [by left|right]. split; [|unfold turn; lia].
  assert (last_budget c (RSt (r_loc (t_s s1)) (r_retry (t_s s1)) (r_tick (t_s s1)) (r_ech (t_s s1)) (r_buf (t_s s1)) (r_got (t_s s1)) (Some e)) <= turn c + c_lag c) as Hb by (unfold last_budget, turn; cbn [r_loc]; destruct (r_loc (t_s s1)); lia).
  destruct (due c (t_s s1)); lia.
Qed.

(** *** Checking runs by computation *)
Definition in_timeb (c : timing) (s : tst) (t : time) : bool :=
  (t_now s <=? t) && match r_loc (t_s s) with LBye _ | LEnd => true | _ => t <=? t_next s end && match due c (t_s s) with Some d => t <=? t_since s + d | None => true end.
Definition tstepf (c : timing) (k : kind) (pre : str) (e : time * option rlabel) (s : tst) : option tst :=
  let t := fst e in
  if in_timeb c s t then
    match snd e with
    | None => Some (TSt (t_s s) (t_since s) (t_next s) t)
    | Some l =>
        if match l with RTick => t =? t_next s | RStep => match r_loc (t_s s) with LSleep _ => t_since s + c_retry c <=? t | _ => true end | _ => true end
        then match rstep k pre l (t_s s) with
             | Some s' => Some (TSt s' (if own l then t else match due c (t_s s) with Some _ => t_since s | None => t end) (match l with RTick => t_next s + c_refresh c | _ => t_next s end) t)
             | None => None
             end
        else None
    end
  else None.
Fixpoint trunf (c : timing) (k : kind) (pre : str) (tr : trace) (s : tst) : option tst :=
  match tr with [] => Some s | e :: tr => match tstepf c k pre e s with Some s' => trunf c k pre tr s' | None => None end end.
Lemma tstepf_sound c k pre e s s' : tstepf c k pre e s = Some s' -> tstep c k pre (fst e) (snd e) s s'.
Proof.
  unfold tstepf. destruct (in_timeb c s (fst e)) eqn:E; [|done].
  assert (in_time c s (fst e)) as Hi.
  { unfold in_timeb in E. apply andb_true_iff in E as [E E3]. apply andb_true_iff in E as [E1 E2]. unfold in_time, ticking. split_and!; [lia|destruct (r_loc (t_s s)); try done; intros _; lia|]. intros d Hd. rewrite Hd in E3. lia. }
  destruct (snd e) as [l|]; [|intros [= <-]; by constructor]. destruct (match l with RTick => _ | _ => _ end) eqn:El; [|done].
  destruct (rstep k pre l (t_s s)) as [s1|] eqn:Er; [|done]. intros [= <-]. constructor; [done|done| |].
  - intros ->. lia.
  - intros -> m Hm. rewrite Hm in El. lia.
Qed.
Lemma trunf_sound c k pre tr s s' : trunf c k pre tr s = Some s' -> trun c k pre tr s s'.
Proof.
  revert s. induction tr as [|e tr IH]; intros s; cbn [trunf]; [intros [= ->]; constructor|]. destruct (tstepf c k pre e s) as [s1|] eqn:E; [|done]. intros H. apply tstepf_sound in E. destruct e. econstructor; [exact E|]. by apply IH.
Qed.
(** Periods of ten and two seconds; a lag of one; Update takes up to three, a sleep up to three. *)
Definition c0 : timing := Timing 10 2 1 3 3.
Lemma c0_sensible : sensible c0.
Proof. unfold sensible, c0. cbn. lia. Qed.
(** Without a tick in between, a policy daemon's first retry follows the failure at once. *)
Theorem C84_first_retry_is_not_spaced : exists tr1 tr2 v e tr3 u l s,
  trun c0 Sending (B "p") (tr1 ++ tr2 ++ (v, Some (RUpdated (Some e))) :: tr3 ++ [(u, l)]) (tinit c0 0) s /\ begins l /\ uncancelled tr3 /\ ~ v + c_retry c0 <= u.
Proof.
  exists [(10, Some RTick)], [(10, Some RFire)], 11, (B "down"), [(11, Some RStep); (11, Some RStep)], 11, (Some RRetry).
  eexists. split; [apply trunf_sound; vm_compute; reflexivity|]. split; [by left|]. split; [|cbn; lia]. intros t e Hin. by repeat (apply elem_of_cons in Hin as [[=]|Hin]); apply elem_of_nil in Hin.
Qed.
(** [n] failed turns, each begun by a retry, from time [t]. *)
Fixpoint turns (n : nat) (t : time) (nt : time) : trace :=
  match n with
  | O => []
  | S n => if nt <=? t + 2
           then (t, Some RRetry) :: (t, Some (RUpdated (Some (B "down")))) :: (t, Some RStep) :: (nt, Some RTick) :: (t + 2, Some RStep) :: (t + 2, Some RStep) :: turns n (t + 2) (nt + 10)
           else (t, Some RRetry) :: (t, Some (RUpdated (Some (B "down")))) :: (t, Some RStep) :: (t + 2, Some RStep) :: (t + 2, Some RStep) :: turns n (t + 2) nt
  end.
(** Nobody reads the errors of the policy daemon (C63): no Update is called any more. *)
Definition unread : trace :=
  (10, Some RTick) :: (10, Some RFire) :: (10, Some (RUpdated (Some (B "down")))) :: (10, Some RStep) :: (10, Some RStep) ::
  turns 99 10 20 ++ [(208, Some RRetry); (208, Some (RUpdated (Some (B "down")))); (210, Some RTick); (220, Some RTick); (230, Some RTick); (240, Some RTick); (250, Some RTick); (260, Some RTick)].
Theorem C84_unread_updates_stop : exists tr s t,
  trun c0 Sending (B "p") tr (tinit c0 0) s /\ uncancelled tr /\ 0 <= t /\ t + c_refresh c0 + turn c0 < t_now s /\
  ~ exists tr1 u l tr2, tr = tr1 ++ (u, l) :: tr2 /\ begins l /\ t < u <= t + c_refresh c0 + turn c0.
Proof.
  exists unread. destruct (trunf c0 Sending (B "p") unread (tinit c0 0)) as [s|] eqn:E; [|by vm_compute in E]. exists s, 208. split; [by apply trunf_sound|].
  split; [|split; [done|split]].
  - intros t e Hin. assert (forallb (fun x => match snd x with Some (RCancel _) => false | _ => true end) unread = true) as Hf by (vm_compute; reflexivity).
    rewrite forallb_forall in Hf. apply elem_of_list_In in Hin. by apply Hf in Hin.
  - assert (match trunf c0 Sending (B "p") unread (tinit c0 0) with Some s => 208 + c_refresh c0 + turn c0 <? t_now s | None => false end = true) as Hx by (vm_compute; reflexivity). rewrite E in Hx. lia.
  - intros (tr1 & u & l & tr2 & Etr & Hb & Hu). assert (forallb (fun x => match snd x with Some RRetry | Some RFire => fst x <=? 208 | _ => true end) unread = true) as Hf by (vm_compute; reflexivity).
    rewrite forallb_forall in Hf. specialize (Hf (u, l)). rewrite Etr in Hf. specialize (Hf ltac:(apply in_or_app; right; by left)). cbn in Hf. destruct Hb as [-> | ->]; lia.
Qed.

(** A run sends at most one error per event. *)
Lemma ech_length c k pre tr a b : trun c k pre tr a b -> (length (r_ech (t_s b)) <= length (r_ech (t_s a)) + length tr)%nat.
Proof.
  intros H. induction H as [|t l tr a a1 b Hs _ IH]; [lia|]. cbn [length]. assert (length (r_ech (t_s a1)) <= length (r_ech (t_s a)) + 1)%nat; [|lia].
      inversion Hs as [|? l' s' _ Hst]; subst; cbn [t_s]; [lia|]. destruct l'; cbn [rstep] in Hst; repeat (case_match; try done); simplify_eq; cbn [r_goto r_ech]; rewrite ?app_length; cbn [length]; try lia.
      all: match goal with H : r_ech _ = _ |- _ => rewrite H; cbn [length]; lia end.
Qed.

(** There is no bound without counting the calls: select chooses among what is ready, so a loop with
    something to retry may pass over ctx.Done() any number of times (Go's choice is random, which is
    not modelled). *)
Definition shift (d : duration) (s : tst) : tst := TSt (t_s s) (t_since s + d) (t_next s + d) (t_now s + d).
Definition shift_tr (d : duration) (tr : trace) : trace := map (fun e => (fst e + d, snd e)) tr.
Lemma shift_run c k pre d tr s s' : trun c k pre tr s s' -> trun c k pre (shift_tr d tr) (shift d s) (shift d s').
Proof.
  intros H. induction H as [|t l tr s s1 s2 Hs _ IH]; [constructor|]. cbn [shift_tr map fst snd]. econstructor; [|exact IH].
  assert (forall s, in_time c s t -> in_time c (shift d s) (t + d)) as Hin.
  { intros s3 (H1 & H2 & H3). unfold in_time, shift. cbn [t_s t_since t_next t_now]. split_and!; [lia|intros Hx; specialize (H2 Hx); lia|]. intros x Hx. specialize (H3 x Hx). lia. }
  inversion Hs as [? Hi|? l' s' Hi Hst Htk Hsl]; subst; clear Hs.
  - apply Hin in Hi. exact (T_pass c k pre (t + d) (shift d s) Hi).
  - apply Hin in Hi. pose proof (T_step c k pre (t + d) (shift d s) l' s' Hi Hst) as Hx. unfold shift in Hx |- *. cbn [t_s t_since t_next t_now] in Hx |- *.
    assert (l' = RTick -> t + d = t_next s + d) as A1 by (intros Hl; by rewrite (Htk Hl)).
    assert (l' = RStep -> forall m, r_loc (t_s s) = LSleep m -> t_since s + d + c_retry c <= t + d) as A2 by (intros Hl m Hm; specialize (Hsl Hl m Hm); lia).
    specialize (Hx A1 A2). match type of Hx with tstep _ _ _ _ _ _ ?a => match goal with |- tstep _ _ _ _ _ _ ?b => replace b with a; [exact Hx|] end end.
    f_equal; [destruct (own l'); [done|]; by destruct (due c (t_s s))|destruct l'; lia].
Qed.
Lemma trun_det c k pre tr s s1 s2 : trun c k pre tr s s1 -> trun c k pre tr s s2 -> s1 = s2.
Proof.
  intros H. revert s2. induction H as [|t l tr s sa sb Hs _ IH]; intros s2 H2; inversion H2 as [|? ? ? ? sc ? Hs' H3]; subst; [done|]. apply IH.
  assert (sa = sc) as ->; [|done]. inversion Hs as [|? l1 s1 _ Hst]; subst; inversion Hs' as [|? l2 s3 _ Hst']; subst; [done|]. rewrite Hst in Hst'. by injection Hst' as ->.
Qed.
Definition retry_at (t : time) : trace :=
  [(t, Some RRetry); (t, Some (RUpdated (Some (B "down")))); (t, Some RStep); (t, Some RRecv); (t + 2, Some RStep); (t + 2, Some RStep)].
Definition retries : trace := retry_at 0 ++ retry_at 2 ++ retry_at 4 ++ retry_at 6 ++ retry_at 8 ++ [(10, Some RTick)].
Definition passing (tk : bool) (got : list str) (e : str) (t : time) : tst := TSt (RSt LSelect 1 tk [] [] got (Some e)) t (t + 10) t.
Lemma retries_run tk got e t : exists got', trun c0 Sending (B "p") (shift_tr t retries) (passing tk got e t) (passing true got' e (t + 10)).
Proof.
  eexists. assert (passing tk got e t = shift t (passing tk got e 0)) as -> by (unfold passing, shift; cbn [t_s t_since t_next t_now]; f_equal; lia).
  assert (forall got', passing true got' e (t + 10) = shift t (passing true got' e 10)) as -> by (intros got'; unfold passing, shift; cbn [t_s t_since t_next t_now]; f_equal; lia).
  apply shift_run, trunf_sound. destruct tk; vm_compute; reflexivity.
Qed.
Lemma calls_app a b : calls (a ++ b) = calls a + calls b.
Proof. induction a as [|[t [[]|]] a IH]; cbn [app calls]; lia. Qed.
Lemma calls_shift d a : calls (shift_tr d a) = calls a.
Proof. unfold shift_tr. induction a as [|[t [[]|]] a IH]; cbn [map fst snd calls]; lia. Qed.
Lemma read_out_app c k pre s0 tr1 tr2 s : read_out c k pre s0 tr1 -> trun c k pre tr1 s0 s -> r_ech (t_s s) = [] -> (length tr2 < 100)%nat -> read_out c k pre s0 (tr1 ++ tr2).
Proof.
  intros Hr H He Hl a b s' E Ha m Hm. apply app_eq_app in E as (x & [[-> ->]|[-> ->]]).
  - exact (Hr a x s' eq_refl Ha m Hm).
  - apply trun_app in Ha as (s1 & H1 & H2). rewrite (trun_det _ _ _ _ _ _ _ H1 H) in H2. apply ech_length in H2. rewrite He in H2. rewrite app_length in Hl. cbn [length] in H2. lia.
Qed.
Definition cancel_early : trace := [(10, Some RTick); (10, Some RFire); (10, Some (RUpdated (Some (B "down")))); (10, Some RStep); (10, Some RStep); (10, Some RRecv)].
Theorem C84_cancel_may_be_passed_over (n : nat) : exists tr1 t e tr2 s,
  trun c0 Sending (B "p") (tr1 ++ (t, Some (RCancel e)) :: tr2) (tinit c0 0) s /\ read_out c0 Sending (B "p") (tinit c0 0) (tr1 ++ (t, Some (RCancel e)) :: tr2) /\
  Z.of_nat n <= calls tr2 /\ t + Z.of_nat n <= t_now s /\ r_loc (t_s s) <> LEnd.
Proof.
  exists cancel_early, 10, (B "c").
  assert (exists tr2 tk got t, trun c0 Sending (B "p") (cancel_early ++ (10, Some (RCancel (B "c"))) :: tr2) (tinit c0 0) (passing tk got (B "c") t) /\ read_out c0 Sending (B "p") (tinit c0 0) (cancel_early ++ (10, Some (RCancel (B "c"))) :: tr2) /\
    Z.of_nat n <= calls tr2 /\ 10 + Z.of_nat n <= t) as (tr2 & tk & got & t & H1 & H2 & H3 & H4); [|by exists tr2, (passing tk got (B "c") t)].
  induction n as [|n (tr2 & tk & got & t & H1 & H2 & H3 & H4)].
  - exists [], false, [B "p: down"], 10. split; [apply trunf_sound; vm_compute; reflexivity|]. split; [|split; [done|lia]].
    apply (read_out_app c0 Sending (B "p") (tinit c0 0) [] (cancel_early ++ [(10, Some (RCancel (B "c")))]) (tinit c0 0)); [|constructor|done|cbn; lia].
    intros a b s E Ha m Hm. symmetry in E. apply app_eq_nil in E as [-> _]. inversion Ha; subst. cbn. lia.
  - destruct (retries_run tk got (B "c") t) as (got' & Hr). exists (tr2 ++ shift_tr t retries), true, got', (t + 10). rewrite app_comm_cons, app_assoc. split; [apply trun_app; by eexists|]. split.
    + eapply read_out_app; [exact H2|exact H1|done|]. unfold shift_tr. rewrite map_length. cbn. lia.
    + rewrite calls_app, calls_shift. assert (calls retries = 5) as -> by reflexivity. lia.
Qed.
(** After the end, time goes on and nothing is called. *)
Theorem C84_after_the_end c k pre t0 tr s t l s' : trun c k pre tr (tinit c t0) s -> r_loc (t_s s) = LEnd -> tstep c k pre t l s s' ->
  (l = None \/ l = Some RRecv \/ exists e, l = Some (RCancel e)) /\ r_loc (t_s s') = LEnd.
Proof.
  intros _ Hl Hs. split; [|eapply end_stays; [econstructor; [exact Hs|constructor]|done]]. inversion Hs as [|? l' s1 _ Hst]; subst; [by left|].
  destruct l'; cbn [rstep] in Hst; rewrite ?Hl in Hst; try done; right; [right; by eexists|by left].
Qed.
(** *** Time never stops *)
(** The bounds do not hold by lack of runs: every run can be continued as far as one likes. *)
Definition timely (c : timing) (s : tst) : Prop :=
  t_since s <= t_now s /\ (ticking (t_s s) -> t_now s <= t_next s) /\ forall d, due c (t_s s) = Some d -> t_now s <= t_since s + d.
Lemma timely_step c k pre t l s s' : sensible c -> timely c s -> tstep c k pre t l s s' -> timely c s'.
Proof.
  intros (C1 & C2 & C3 & C4) (H1 & H2 & H3) Hs. inversion Hs as [? (I1 & I2 & I3)|? l' s1 (I1 & I2 & I3) Hst Htk Hsl]; subst; unfold timely; cbn [t_s t_since t_next t_now].
  - split_and!; [lia|done|done].
  - assert (ticking s1 -> ticking (t_s s)) as Htt.
    { unfold ticking. destruct l'; cbn [rstep] in Hst; destruct (r_loc (t_s s)) eqn:El; try done; repeat (case_match; try done); injection Hst as <-; cbn [r_goto r_loc] in *; try done; congruence. }
    assert (forall d, due c s1 = Some d -> 0 <= d) as Hd0 by (intros d; unfold due; repeat (case_match; try done); intros [= <-]; lia).
    split_and!; [destruct (own l'); [lia|]; destruct (due c (t_s s)); lia| |].
    + intros Hx. specialize (I2 (Htt Hx)). destruct l'; lia.
    + intros d Hd. specialize (Hd0 d Hd). destruct (own l') eqn:Eo; [lia|]. destruct (due c (t_s s)) as [d'|] eqn:Ed; [|lia]. specialize (I3 d' eq_refl).
      assert (d' <= d); [|lia]. destruct s as [[lo re ti ec bu go cx] si nx nw]. cbn [t_s] in *. unfold due in *.
      destruct l'; try done; cbn [rstep r_loc r_tick r_retry r_ech r_ctx] in *; [destruct lo; try done|destruct cx; [done|]|destruct ec; [done|]]; injection Hst as <-; cbn [r_loc r_tick r_retry r_ech r_ctx] in *; try (simplify_eq; lia); repeat case_match; simplify_eq; lia.
Qed.
Lemma timely_run c k pre tr s s' : sensible c -> timely c s -> trun c k pre tr s s' -> timely c s'.
Proof. intros Hc Hi H. induction H as [|t l tr s s1 s2 Hs _ IH]; [done|]. apply IH. by eapply timely_step. Qed.
Definition work (s : rst) : nat :=
  match r_loc s with LEnd => 0 | LBye _ => 1 | LSelect => 2 | LUpdate _ => 3 | LQueue => 5 | LPut _ => 6 | LSleep _ => 7 | LSend _ _ => 8 end + 2 * r_retry s + if r_tick s then 2 else 0.
Lemma works c k pre s d : due c s = Some d -> 0 <= c_retry c <= c_sleep c -> exists l s', rstep k pre l s = Some s' /\ own l = true /\ l <> RTick /\ (work s' < work s)%nat /\ (l = RStep -> forall m, r_loc s = LSleep m -> c_retry c <= d).
Proof.
  intros Hd Hr. destruct s as [lo re ti ec bu go cx]. unfold due in Hd. cbn [r_loc r_tick r_retry r_ech r_ctx] in *. destruct lo as [| |b m|m|m| |m|]; cbn [r_loc] in *.
  - destruct ti; [exists RFire; eexists; split_and!; [reflexivity|done|done|unfold work; cbn; lia|done]|]. destruct re; [|exists RRetry; eexists; split_and!; [reflexivity|done|done|unfold work; cbn; lia|done]].
    destruct cx as [e|]; [|done]. exists RDone. eexists. split_and!; [reflexivity|done|done|unfold work; cbn; lia|done].
  - exists (RUpdated None). eexists. split_and!; [reflexivity|done|done|unfold work; cbn; lia|done].
  - exists RStep. cbn [rstep r_loc r_ech]. destruct (length ec <? ecap)%nat; [|done]. eexists. split_and!; [reflexivity|done|done|unfold work; destruct b; cbn; lia|done].
  - exists RStep. cbn [rstep r_loc r_ech]. eexists. split_and!; [reflexivity|done|done|unfold work; destruct k; cbn; lia|]. injection Hd as <-. intros; lia.
  - exists RStep. cbn [rstep r_loc r_ech]. eexists. split_and!; [reflexivity|done|done|destruct (length ec <? ecap)%nat; unfold work; cbn; lia|done].
  - exists RStep. cbn [rstep r_loc r_ech]. eexists. split_and!; [reflexivity|done|done|unfold work; cbn [r_loc r_retry r_tick]; destruct (re <? fcap)%nat; cbn; lia|done].
  - exists RStep. cbn [rstep r_loc r_ech]. destruct (length ec <? ecap)%nat; [|done]. eexists. split_and!; [reflexivity|done|done|unfold work; cbn; lia|done].
  - done.
Qed.
Lemma to_next c k pre s : sensible c -> timely c s -> (exists t, forall T, t <= T -> exists tr s', trun c k pre tr s s' /\ T = t_now s') \/
  exists tr s', trun c k pre tr s s' /\ t_now s' = t_next s /\ t_next s' = t_next s + c_refresh c.
Proof.
  intros Hc. remember (work (t_s s)) as n eqn:En. revert s En. induction n as [n IH] using lt_wf_ind. intros s -> Hi. pose proof Hi as (H1 & H2 & H3). pose proof Hc as (C1 & C2 & C3 & C4).
  destruct (due c (t_s s)) as [d|] eqn:Ed.
  - specialize (H3 d eq_refl). destruct (works c k pre (t_s s) d Ed C4) as (l & s1 & Hst & Ho & Hnt & Hw & Hsl).
    assert ((ticking (t_s s) -> t_since s + d <= t_next s) \/ ticking (t_s s) /\ t_next s < t_since s + d) as [Hin|[Htk Hlt]].
    { destruct (decide (t_since s + d <= t_next s)); [by left|]. unfold ticking. destruct (r_loc (t_s s)); first [by left|right; split; [done|lia]]. }
    + assert (tstep c k pre (t_since s + d) (Some l) s (TSt s1 (t_since s + d) (t_next s) (t_since s + d))) as Hs.
      { assert (in_time c s (t_since s + d)) as Hit. { unfold in_time. split_and!; [lia|done|]. intros d' Hd'. rewrite Ed in Hd'. injection Hd' as <-. lia. }
        destruct l; try done; refine (T_step c k pre (t_since s + d) s _ s1 Hit Hst _ _); try (intros; discriminate). intros Hl m Hm. specialize (Hsl Hl m Hm). lia. }
      pose proof (timely_step _ _ _ _ _ _ _ Hc Hi Hs) as Hi1. destruct (IH (work s1) Hw (TSt s1 (t_since s + d) (t_next s) (t_since s + d)) eq_refl Hi1) as [(t & HT)|(tr & s' & Hrun & Q1 & Q2)].
      * left. exists t. intros T Hle. destruct (HT T Hle) as (tr & s' & Hrun & ->). exists ((t_since s + d, Some l) :: tr), s'. split; [by econstructor|done].
      * right. exists ((t_since s + d, Some l) :: tr), s'. split; [by econstructor|]. by cbn [t_next] in Q1, Q2.
    + right. assert (exists s2, rstep k pre RTick (t_s s) = Some s2) as [s2 Ht]. { cbn [rstep]. unfold ticking in Htk. destruct (r_loc (t_s s)); try done; by eexists. }
      eexists [(t_next s, Some RTick)], _. split; [econstructor; [|constructor]|]. { eapply (T_step c k pre (t_next s) s RTick); [|exact Ht|done|done]. unfold in_time. split_and!; [by apply H2|lia|]. intros d' Hd'. rewrite Ed in Hd'. injection Hd' as <-. lia. }
      by cbn [t_now t_next].
  - assert (ticking (t_s s) \/ ~ ticking (t_s s)) as [Htk|Htk] by (unfold ticking; destruct (r_loc (t_s s)); auto).
    + right. assert (exists s2, rstep k pre RTick (t_s s) = Some s2) as [s2 Ht]. { cbn [rstep]. unfold ticking in Htk. destruct (r_loc (t_s s)); try done; by eexists. }
      eexists [(t_next s, Some RTick)], _. split; [econstructor; [|constructor]|]. { eapply (T_step c k pre (t_next s) s RTick); [|exact Ht|done|done]. unfold in_time. split_and!; [by apply H2|lia|]. intros d' Hd'. by rewrite Ed in Hd'. }
      by cbn [t_now t_next].
    + left. exists (t_now s). intros T Hle. eexists [(T, None)], _. split; [econstructor; [|constructor]|]. { apply T_pass. unfold in_time. split_and!; [done|done|]. intros d' Hd'. by rewrite Ed in Hd'. } done.
Qed.
Theorem C84_time_goes_on c k pre t0 tr s T : sensible c -> trun c k pre tr (tinit c t0) s -> exists tr' s', trun c k pre (tr ++ tr') (tinit c t0) s' /\ T <= t_now s'.
Proof.
  intros Hc H. assert (timely c s) as Hi. { eapply timely_run; [exact Hc| |exact H]. pose proof Hc as (C1 & C2 & C3 & C4). unfold timely, tinit. cbn [t_s t_since t_next t_now]. split_and!; [lia|lia|]. intros d. cbn. done. }
  assert (exists tr' s', trun c k pre tr' s s' /\ T <= t_now s') as (tr' & s' & H' & HT); [|exists tr', s'; split; [apply trun_app; by exists s|done]]. clear H tr.
  assert (forall n s, timely c s -> T <= t_next s + Z.of_nat n * c_refresh c -> exists tr' s', trun c k pre tr' s s' /\ T <= t_now s') as Hn.
  { clear s Hi. intros n. induction n as [|n IH]; intros s Hi HT; (destruct (to_next c k pre s Hc Hi) as [(t & Hx)|(tr1 & s1 & Hr & Q1 & Q2)]; [destruct (Hx (Z.max t T) ltac:(lia)) as (tr1 & s1 & Hr & E); exists tr1, s1; split; [done|lia]|]).
    - exists tr1, s1. split; [done|]. lia.
    - destruct (IH s1) as (tr2 & s2 & Hr2 & Hle); [by eapply timely_run|lia|]. exists (tr1 ++ tr2), s2. split; [apply trun_app; by exists s1|done]. }
  apply (Hn (Z.to_nat (T - t_next s)) s Hi). destruct Hc as (C1 & _). assert (Z.max 0 (T - t_next s) * 1 <= Z.max 0 (T - t_next s) * c_refresh c) by nia. lia.
Qed.

(** Cancelled during an Update, which fails: the loop ends, and time goes on. *)
Definition evening : trace :=
  [(10, Some RTick); (11, Some RFire); (12, Some (RCancel (B "c"))); (13, Some (RUpdated (Some (B "down")))); (13, Some RStep); (14, Some RStep); (15, Some RDone); (16, Some RStep); (17, Some RRecv); (40, None)].
Example C84_ends_nonvacuous : exists s, trun c0 Sending (B "p") evening (tinit c0 0) s /\ read_out c0 Sending (B "p") (tinit c0 0) evening /\
  12 + (1 + calls (drop 3 evening)) * (turn c0 + c_lag c0) < t_now s /\ r_loc (t_s s) = LEnd /\ r_got (t_s s) = [B "p: down"] /\ r_ech (t_s s) = [B "c"].
Proof.
  eexists. split; [apply trunf_sound; vm_compute; reflexivity|]. split; [|vm_compute; done].
  apply (read_out_app c0 Sending (B "p") (tinit c0 0) [] evening (tinit c0 0)); [|constructor|done|cbn; lia].
  intros a b s E Ha m Hm. symmetry in E. apply app_eq_nil in E as [-> _]. inversion Ha; subst. cbn. lia.
Qed.

(** A failed and a successful turn, with its errors read; the bounds apply. *)
Definition day : trace :=
  [(10, Some RTick); (11, Some RFire); (13, Some (RUpdated (Some (B "down")))); (13, Some RStep); (14, Some RRecv); (14, Some RStep); (15, Some RRetry); (17, Some (RUpdated (Some (B "down"))));
   (17, Some RStep); (18, Some RRecv); (20, Some RTick); (20, Some RStep); (20, Some RStep); (21, Some RRetry); (22, Some (RUpdated None)); (22, Some RFire); (24, Some (RUpdated None));
   (30, Some RTick); (31, Some RFire); (33, Some (RUpdated None)); (40, Some RTick); (40, Some RFire); (41, Some (RUpdated None)); (50, None)].
Example C84_nonvacuous :
  exists s, trun c0 Sending (B "p") day (tinit c0 0) s /\ sensible c0 /\ uncancelled day /\ read c0 Sending (B "p") (tinit c0 0) day /\
    17 + c_refresh c0 + turn c0 + c_update c0 < t_now s /\ (forall v e, (v, Some (RUpdated (Some e))) ∈ day -> v <= 17) /\
    13 + c_sleep c0 + 4 * c_lag c0 < t_now s.
Proof.
  destruct (trunf c0 Sending (B "p") day (tinit c0 0)) as [s|] eqn:E; [|by vm_compute in E]. exists s. split; [by apply trunf_sound|]. split; [exact c0_sensible|].
  split; [|split; [|split; [|split]]].
  - intros t e Hin. assert (forallb (fun x => match snd x with Some (RCancel _) => false | _ => true end) day = true) as Hf by (vm_compute; reflexivity).
    rewrite forallb_forall in Hf. apply elem_of_list_In in Hin. by apply Hf in Hin.
  - intros tr1 tr2 s1 Etr H. pose proof (ech_length c0 Sending (B "p")) as Hlen.
    intros b m _. apply Hlen in H. assert (length tr1 <= length day)%nat by (rewrite Etr, app_length; lia). cbn in *. lia.
  - vm_compute in E. injection E as <-. vm_compute. reflexivity.
  - intros v e Hin. assert (forallb (fun x => match snd x with Some (RUpdated (Some _)) => fst x <=? 17 | _ => true end) day = true) as Hf by (vm_compute; reflexivity).
    rewrite forallb_forall in Hf. apply elem_of_list_In in Hin. apply Hf in Hin. cbn in Hin. lia.
  - vm_compute in E. injection E as <-. vm_compute. reflexivity.
Qed.

Print Assumptions C84_updates_keep_coming.
Print Assumptions C84_and_return.
Print Assumptions C84_failures_are_retried_soon.
Print Assumptions C84_retries_are_spaced.
Print Assumptions C84_freshness.
Print Assumptions C84_jwk_needs_no_reader.
Print Assumptions C84_first_retry_is_not_spaced.
Print Assumptions C84_unread_updates_stop.
Print Assumptions C84_ends_soon_after_cancel.
Print Assumptions C84_cancel_may_be_passed_over.
Print Assumptions C84_after_the_end.
Print Assumptions C84_time_goes_on.
