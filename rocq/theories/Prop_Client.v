(** * Properties C66-C68: the retrying HTTP transport *)
From Coq Require Import Reals Lra.
From Verif Require Import Client GoFloat GoFloatFacts.
From Verif Require Export GoStrings.

Section client.
  Context (transport : nat -> reply) (wait : nat -> duration) (clock : nat -> time).
  Notation round_trip := (round_trip transport wait clock).

  (** ** Specification *)
  Definition busy (st : Z) : Prop := st = 429 \/ st = 500 \/ st = 503 \/ st = 504.
  (** After the [n]-th call another one is justified. *)
  Definition again (limit : Z) (n : nat) : Prop :=
    match transport n with Resp st => busy st | Fail tmp _ => tmp = true /\ wrap64 (clock n + wait n) < limit end.
  Definition answer_of (n : nat) : result := match transport n with Resp _ => GotResponse n | Fail _ e => GotError e end.
  (** The last call: the first after which none is justified, or the last allowed. *)
  Definition last_call (limit : Z) (max : nat) (n : nat) : Prop :=
    (n < max)%nat /\ (forall m, (m < n)%nat -> again limit m) /\ (again limit n -> S n = max).
  Definition calls (ev : list event) : list nat := omap (fun x => match x with Call n => Some n | _ => None end) ev.
  Definition sleeps (ev : list event) : list duration := omap (fun x => match x with Sleep d => Some d | _ => None end) ev.
  Definition consumed (ev : list event) : list nat := omap (fun x => match x with Consume n => Some n | _ => None end) ev.

  Lemma retryable_iff st : retryable st = true <-> busy st.
  Proof. unfold retryable, busy. rewrite bool_decide_eq_true, !elem_of_cons, elem_of_nil. naive_solver. Qed.
  (** The sleep after a temporary failure. *)
  Definition sleeping (n : nat) : list duration := match transport n with Resp _ => [] | Fail _ _ => [wait n] end.
  Definition final (limit : Z) (r : result) (ev : list event) (n0 max n : nat) : Prop :=
    r = answer_of n /\ calls ev = seq n0 (S n - n0) /\
    (exists tail, sleeps ev = (seq n0 (n - n0) ≫= sleeping) ++ tail /\ (again limit n -> tail = sleeping n) /\ (~ again limit n -> tail = [])) /\
    ((exists st, transport n = Resp st /\ ~ busy st) -> consumed ev = [n]) /\ ((forall st, transport n = Resp st -> busy st) -> consumed ev = []).
  Lemma attempts_spec limit fuel n0 last r ev : attempts transport wait clock limit fuel n0 last = (r, ev) ->
    (fuel = 0%nat /\ r = last /\ ev = []) \/
    exists n, (n0 <= n < n0 + fuel)%nat /\ (forall m, (n0 <= m < n)%nat -> again limit m) /\ (again limit n -> S n = n0 + fuel)%nat /\ final limit r ev n0 (n0 + fuel) n.
  Proof.
    revert n0 last r ev. induction fuel as [|fuel IH]; intros n0 last r ev H; [left; by injection H as <- <-|right]. cbn [attempts] in H.
    destruct (transport n0) as [st|tmp e] eqn:Et.
    - destruct (retryable st) eqn:Er.
      + destruct (attempts _ _ _ limit fuel (S n0) (GotResponse n0)) as [r1 ev1] eqn:E1. injection H as <- <-. apply IH in E1. apply retryable_iff in Er.
        assert (again limit n0) as Ha by (unfold again; by rewrite Et). destruct E1 as [(-> & -> & ->)|(n & H1 & H2 & H3 & H4)].
        * exists n0. split_and!; [lia|lia|lia|intros; lia|]. unfold final, answer_of, sleeping. rewrite Et. replace (S n0 - n0)%nat with 1%nat by lia. rewrite Nat.sub_diag. split_and!; try done; [exists []; by split_and!|]. intros (? & [= <-] & ?). done.
        * exists n. split_and!; [lia|lia| |intros; lia|].
          { intros m Hm. destruct (decide (m = n0)) as [-> |]; [done|]. apply H2. lia. }
          destruct H4 as (-> & Hc & (tail & Hs & Hs1 & Hs2) & Hk1 & Hk2). unfold final. split_and!; [done| | |done|done].
          { cbn [calls omap list_omap]. fold (calls ev1). rewrite Hc. replace (S n - n0)%nat with (S (S n - S n0)) by lia. done. }
          exists tail. split_and!; [|done|done]. cbn [sleeps omap list_omap]. fold (sleeps ev1). rewrite Hs. replace (n - n0)%nat with (S (n - S n0)) by lia. cbn [seq mbind list_bind]. unfold sleeping at 2. by rewrite Et.
      + injection H as <- <-. assert (~ busy st) as Hb by (by rewrite <- retryable_iff, Er). assert (~ again limit n0) as Ha by (unfold again; by rewrite Et).
        exists n0. split_and!; [lia|lia|lia|done|]. unfold final, answer_of. rewrite Et. replace (S n0 - n0)%nat with 1%nat by lia. rewrite Nat.sub_diag. split_and!; try done; [exists []; by split_and!|]. intros Hx. destruct (Hb (Hx st eq_refl)).
    - assert ((exists st, transport n0 = Resp st /\ ~ busy st) -> False) as Hno by (intros (st & H1 & _); congruence).
      destruct tmp; cbn [negb] in H.
      + unfold can_retry in H. destruct (Z.ltb_spec (wrap64 (clock n0 + wait n0)) limit) as [Hlt|Hlt]; cbn [negb] in H.
        * destruct (attempts _ _ _ limit fuel (S n0) (GotError e)) as [r1 ev1] eqn:E1. injection H as <- <-. apply IH in E1. assert (again limit n0) as Ha by (unfold again; by rewrite Et).
          destruct E1 as [(-> & -> & ->)|(n & H1 & H2 & H3 & H4)].
          -- exists n0. split_and!; [lia|lia|lia|intros; lia|]. unfold final, answer_of. rewrite Et. replace (S n0 - n0)%nat with 1%nat by lia. rewrite Nat.sub_diag. split_and!; try done; [|by intros (? & [=] & _)]. exists [wait n0]. split_and!; [done|unfold sleeping; by rewrite Et|done].
          -- exists n. split_and!; [lia|lia| |intros; lia|].
             { intros m Hm. destruct (decide (m = n0)) as [-> |]; [done|]. apply H2. lia. }
             destruct H4 as (-> & Hc & (tail & Hs & Hs1 & Hs2) & Hk1 & Hk2). unfold final. split_and!; [done| | |done|done].
             { cbn [calls omap list_omap]. fold (calls ev1). rewrite Hc. replace (S n - n0)%nat with (S (S n - S n0)) by lia. done. }
             exists tail. split_and!; [|done|done]. cbn [sleeps omap list_omap]. fold (sleeps ev1). rewrite Hs. replace (n - n0)%nat with (S (n - S n0)) by lia. cbn [seq mbind list_bind]. unfold sleeping at 2. by rewrite Et.
        * injection H as <- <-. assert (~ again limit n0) as Ha by (unfold again; rewrite Et; lia).
          exists n0. split_and!; [lia|lia|lia|done|]. unfold final, answer_of. rewrite Et. replace (S n0 - n0)%nat with 1%nat by lia. rewrite Nat.sub_diag. split_and!; try done; [|by intros (? & [=] & _)]. exists []; by split_and!.
      + injection H as <- <-. assert (~ again limit n0) as Ha by (unfold again; rewrite Et; naive_solver).
        exists n0. split_and!; [lia|lia|lia|done|]. unfold final, answer_of. rewrite Et. replace (S n0 - n0)%nat with 1%nat by lia. rewrite Nat.sub_diag. split_and!; try done; [|by intros (? & [=] & _)]. exists []; by split_and!.
  Qed.

  (** ** C66 *)
  (** Exactly which calls are made, and what is returned. *)
  Theorem C66_calls max_count max_time start r ev : round_trip max_count max_time start = (r, ev) -> 0 < max_count ->
    exists n, last_call (wrap64 (start + max_time)) (Z.to_nat max_count) n /\ calls ev = seq 0 (S n) /\ r = answer_of n.
  Proof.
    intros H Hp. apply attempts_spec in H as [(H & _)|(n & H1 & H2 & H3 & H4)]; [lia|]. exists n. destruct H4 as (-> & H4 & _). rewrite Nat.sub_0_r in H4. split_and!; [|done|done].
    split_and!; [lia| |intros Ha; apply H3 in Ha; lia]. intros m Hm. apply H2. lia.
  Qed.
  Theorem C66_last_call_unique limit max n n' : last_call limit max n -> last_call limit max n' -> n = n'.
  Proof.
    intros (H1 & H2 & H3) (H4 & H5 & H6). destruct (Nat.lt_total n n') as [H|[H|H]]; [|done|].
    - pose proof (H3 (H5 _ H)). lia.
    - pose proof (H6 (H2 _ H)). lia.
  Qed.
  Theorem C66_bound max_count max_time start r ev : round_trip max_count max_time start = (r, ev) -> Z.of_nat (length (calls ev)) <= Z.max 0 max_count.
  Proof.
    intros H. destruct (Z.ltb_spec 0 max_count) as [Hp|Hp].
    - destruct (C66_calls _ _ _ _ _ H Hp) as (n & (Hn & _) & -> & _). rewrite seq_length. lia.
    - unfold Client.round_trip in H. replace (Z.to_nat max_count) with 0%nat in H by lia. injection H as <- <-. cbn. lia.
  Qed.
  (** It sleeps only after a temporary failure, for the computed time, and only if that ends before the limit. *)
  Theorem C66_sleeps max_count max_time start r ev d : round_trip max_count max_time start = (r, ev) -> d ∈ sleeps ev ->
    exists n e, n ∈ calls ev /\ transport n = Fail true e /\ d = wait n /\ wrap64 (clock n + d) < wrap64 (start + max_time).
  Proof.
    intros H Hd. apply attempts_spec in H as [(_ & _ & ->)|(n & H1 & H2 & H3 & _ & Hc & (tail & Hs & Ht1 & Ht2) & _)]; [by apply elem_of_nil in Hd|].
    assert (forall m, again (wrap64 (start + max_time)) m -> d ∈ sleeping m -> exists e, transport m = Fail true e /\ d = wait m /\ wrap64 (clock m + d) < wrap64 (start + max_time)) as Hx.
    { clear. intros m Ha Hd. unfold again, sleeping in *. destruct (transport m) as [st|tmp e]; [by apply elem_of_nil in Hd|]. apply elem_of_list_singleton in Hd as ->. destruct Ha as [-> Ha]. by exists e. }
    rewrite Hs in Hd. apply elem_of_app in Hd as [Hd|Hd].
    - apply elem_of_list_bind in Hd as (m & Hd & Hm). apply elem_of_seq in Hm. destruct (Hx m) as (e & ? & ? & ?); [apply H2; lia|done|]. exists m, e. split_and!; try done. rewrite Hc. apply elem_of_seq. lia.
    - assert (again (wrap64 (start + max_time)) n) as Ha.
      { unfold again in *. destruct (transport n) as [st|tmp e] eqn:Et; [|].
        - destruct (decide (busy st)) as [Hb|Hb]; [done|]. rewrite Ht2 in Hd by done. by apply elem_of_nil in Hd.
        - destruct tmp; [destruct (Z.lt_ge_cases (wrap64 (clock n + wait n)) (wrap64 (start + max_time))) as [Hl|Hl]; [done|]|]; (rewrite Ht2 in Hd; [by apply elem_of_nil in Hd|intros [? ?]; done || lia]). }
      rewrite Ht1 in Hd by done. destruct (Hx n Ha Hd) as (e & ? & ? & ?). exists n, e. split_and!; try done. rewrite Hc. apply elem_of_seq. lia.
  Qed.
  (** ** C67 *)
  (** The exact condition for an unread, open body. *)
  Theorem C67_body_usable_iff max_count max_time start n ev : round_trip max_count max_time start = (GotResponse n, ev) ->
    n ∉ consumed ev <-> exists st, transport n = Resp st /\ busy st /\ S n = Z.to_nat max_count.
  Proof.
    intros H. apply attempts_spec in H as [(_ & [=] & _)|(m & H1 & H2 & H3 & Ha & Hc & _ & H4 & H5)]. unfold answer_of in Ha. destruct (transport m) as [st|] eqn:Et; [|done]. injection Ha as ->.
    split.
    - intros Hn. destruct (decide (busy st)) as [Hb|Hb].
      + exists st. split_and!; [done|done|]. apply H3. unfold again. by rewrite Et.
      + rewrite H4 in Hn by eauto. destruct Hn. by apply elem_of_list_singleton.
    - intros (st' & Hst & Hb & _). rewrite H5; [by apply not_elem_of_nil|]. intros st'' Hst''. congruence.
  Qed.
  Theorem C67_success_is_drained max_count max_time start n ev st : round_trip max_count max_time start = (GotResponse n, ev) -> transport n = Resp st -> ~ busy st -> consumed ev = [n].
  Proof.
    intros H Ht Hb. apply attempts_spec in H as [(_ & [=] & _)|(m & H1 & H2 & H3 & Ha & Hc & _ & H4 & H5)]. unfold answer_of in Ha. destruct (transport m) as [st'|] eqn:Et; [|done]. injection Ha as ->.
    rewrite Et in Ht. injection Ht as ->. apply H4. eauto.
  Qed.
  (** Responses it retries after are never closed. *)
  Theorem C67_retried_bodies_leak max_count max_time start r ev n st : round_trip max_count max_time start = (r, ev) -> transport n = Resp st -> busy st -> n ∉ consumed ev.
  Proof.
    intros H Ht Hb Hin. apply attempts_spec in H as [(_ & _ & ->)|(m & H1 & H2 & H3 & Ha & Hc & _ & H4 & H5)]; [by apply elem_of_nil in Hin|].
    destruct (transport m) as [st'|] eqn:Et; [destruct (decide (busy st')) as [Hb'|Hb']|].
    - rewrite H5 in Hin by congruence. by apply elem_of_nil in Hin.
    - rewrite H4 in Hin by eauto. apply elem_of_list_singleton in Hin as ->. congruence.
    - rewrite H5 in Hin by done. by apply elem_of_nil in Hin.
  Qed.
  Theorem C67_nothing_iff max_count max_time start : (exists ev, round_trip max_count max_time start = (GotNothing, ev)) <-> max_count <= 0.
  Proof.
    split.
    - intros [ev' H]. apply attempts_spec in H as [(H & _)|(m & H1 & H2 & H3 & Ha & _)]; [lia|]. unfold answer_of in Ha. by destruct (transport m).
    - intros H. exists []. unfold Client.round_trip. by replace (Z.to_nat max_count) with 0%nat by lia.
  Qed.
End client.


(** ** C68 *)
Open Scope R_scope.
(** The documented wait after retry [count] (client/exp_rt.go:46): the difference of two squares. *)
Definition documented (t factor : R) (count : nat) : R :=
  ((INR count + 1) / factor * R_sqrt.sqrt t) ^ 2 - (INR count / factor * R_sqrt.sqrt t) ^ 2.
(** The formula used: client/exp_rt.go:48 and :93-96, in exact arithmetic (float64 rounding and the
    truncation to nanoseconds are not represented). *)
Definition dt_factor (t factor : R) : R := t / factor ^ 2.
Definition wait_formula (t factor : R) (count : nat) : R := (2 * INR count + 1) * dt_factor t factor.
Theorem C68_formula t factor count : 0 <= t -> factor <> 0 -> wait_formula t factor count = documented t factor count.
Proof.
  intros Ht Hf. unfold wait_formula, documented, dt_factor. rewrite !Rpow_mult_distr. rewrite <- (Rsqr_pow2 (R_sqrt.sqrt t)), Rsqr_sqrt by done. field. done.
Qed.
Theorem C68_grows t factor count : 0 < t -> factor <> 0 -> wait_formula t factor count < wait_formula t factor (S count) /\ 0 < wait_formula t factor count.
Proof.
  intros Ht Hf. unfold wait_formula. rewrite S_INR. assert (0 < dt_factor t factor) as Hd.
  { unfold dt_factor. apply Rdiv_lt_0_compat; [done|]. rewrite <- Rsqr_pow2. by apply Rsqr_pos_lt. }
  pose proof (pos_INR count). split; [|apply Rmult_lt_0_compat; lra]. apply Rmult_lt_compat_r; lra.
Qed.
Fixpoint total (w : nat -> R) (n : nat) : R := match n with O => 0 | S n => total w n + w n end.
Theorem C68_total t factor n : total (wait_formula t factor) n = INR n ^ 2 * dt_factor t factor.
Proof. induction n as [|n IH]; [cbn; ring|]. cbn [total]. rewrite IH, S_INR. unfold wait_formula. ring. Qed.
(** So after [n] temporary failures the time spent waiting is the square of n/factor, in units of t. *)
Theorem C68_total_documented t factor n : 0 <= t -> factor <> 0 -> total (documented t factor) n = (INR n / factor * R_sqrt.sqrt t) ^ 2.
Proof.
  intros Ht Hf. induction n as [|n IH]; [cbn; field; done|]. cbn [total]. rewrite IH, S_INR. unfold documented. ring.
Qed.
Example C68_nonvacuous : wait_formula 1 2 3 = 7 / 4 /\ documented 1 2 3 = 7 / 4 /\ total (wait_formula 1 2) 4 = 4.
Proof.
  assert (wait_formula 1 2 3 = 7 / 4) as H by (unfold wait_formula, dt_factor; cbn [INR]; field). split_and!; [done| |].
  - rewrite <- C68_formula by lra. done.
  - rewrite C68_total. unfold dt_factor. cbn [INR]. field.
Qed.
Close Scope R_scope.
(** The float64 computation is exact for whole factors whose square divides a second (1, 2, 4, 5, 10, ...):
    the [n]-th wait is 2n+1 times second/factor^2. *)
Theorem C68_exact_waits b q n : 0 < b -> b * b * q = second -> (2 * Z.of_nat n + 1) * q < 2 ^ 53 -> go_wait (of_int b) (Z.of_nat n) = (2 * Z.of_nat n + 1) * q.
Proof. intros Hb Hq Hn. apply go_wait_exact; [done|exact Hq|lia|exact Hn]. Qed.
Example C68_waits_nonvacuous : go_wait (of_int 1) 3 = 7 * second /\ go_wait (of_int 2) 3 = 7 * 250000000 /\ go_wait (of_int 5) 0 = 40000000 /\ go_wait (of_int 3) 1 = 333333333.
Proof. split_and!; [apply (C68_exact_waits 1 second 3)|apply (C68_exact_waits 2 250000000 3)|apply (C68_exact_waits 5 40000000 0)|]; vm_compute; reflexivity. Qed.

Definition script (l : list reply) (n : nat) : reply := nth n l (Resp 200).
Definition go (l : list reply) (max : Z) : result * list event :=
  round_trip (script l) (fun n => (2 * Z.of_nat n + 1) * second) (fun n => Z.of_nat n * second) max (6 * second) 0.
Example C66_nonvacuous :
  go [Fail true (B "a"); Resp 503; Resp 200] 5 = (GotResponse 2, [Call 0; Sleep second; Call 1; Call 2; Consume 2]) /\
  go [Fail true (B "a"); Fail false (B "b")] 5 = (GotError (B "b"), [Call 0; Sleep second; Call 1]) /\
  go [Fail true (B "a"); Fail true (B "b"); Fail true (B "c"); Resp 200] 5 = (GotError (B "c"), [Call 0; Sleep second; Call 1; Sleep (3 * second); Call 2]) /\
  go [Fail true (B "a"); Fail true (B "b"); Fail true (B "c"); Resp 200] 2 = (GotError (B "b"), [Call 0; Sleep second; Call 1; Sleep (3 * second)]) /\
  go [Resp 404] 5 = (GotResponse 0, [Call 0; Consume 0]) /\ go [Resp 429; Resp 500] 2 = (GotResponse 1, [Call 0; Call 1]).
Proof. split_and!; vm_compute; reflexivity. Qed.
(** A retriable status is retried at once, whatever the time limit: no back-off. *)
Theorem C66_status_has_no_backoff : exists l ev, go l 4 = (GotResponse 3, ev) /\ l = [Resp 503; Resp 503; Resp 503] /\ sleeps ev = [] /\ calls ev = [0; 1; 2; 3]%nat.
Proof. by repeat eexists. Qed.
(** A plain 200 is returned with its body already read and closed; with no attempts allowed there is
    neither a response nor an error. *)
Theorem C67_usable_refuted : (exists ev, go [Resp 200] 3 = (GotResponse 0, ev) /\ 0%nat ∈ consumed ev) /\ go [Resp 200] 0 = (GotNothing, []).
Proof. split; [|done]. eexists. split; [vm_compute; reflexivity|]. by apply elem_of_list_singleton. Qed.
Example C67_nonvacuous : go [Resp 503; Resp 503] 2 = (GotResponse 1, [Call 0; Call 1]) /\ go [Resp 503; Resp 200] 2 = (GotResponse 1, [Call 0; Call 1; Consume 1]).
Proof. split; vm_compute; reflexivity. Qed.

Print Assumptions C66_calls.
Print Assumptions C66_last_call_unique.
Print Assumptions C66_bound.
Print Assumptions C66_sleeps.
Print Assumptions C67_body_usable_iff.
Print Assumptions C67_success_is_drained.
Print Assumptions C67_retried_bodies_leak.
Print Assumptions C67_nothing_iff.
Print Assumptions C68_exact_waits.
Print Assumptions C68_formula.
Print Assumptions C68_grows.
Print Assumptions C68_total.
Print Assumptions C68_total_documented.
Print Assumptions C68_nonvacuous.
Print Assumptions C66_nonvacuous.
Print Assumptions C66_status_has_no_backoff.
Print Assumptions C67_usable_refuted.
Print Assumptions C67_nonvacuous.
