(** * Property C02 for CheckPolicy: accepted if and only if allowed *)
From Verif Require Import PolicyCheckFacts Prop_PolicyCheck.

(** CheckPolicy (policy/daemon.go:216-219), not cancelled and with no refresh in place, returns nil if
    and only if the policy that was current at some instant of the call allows the request to one of
    the roles and denies it to none; otherwise it returns an error. *)
Theorem C02_check_policy_accepts :
  forall U domain roles action resource c0 ls s r,
  run U domain roles action resource ls (start roles c0 false) = Some s -> returned s r ->
  never_cancelled ls -> no_mutation ls -> (forall c, version c0 ls c -> deny_first_cache c) ->
  exists c, current_during U domain roles action resource c0 false ls c /\
    (check_policy_result r = Ok tt <-> spec_allowed U domain action resource c roles) /\
    (~ spec_allowed U domain action resource c roles -> exists e, check_policy_result r = Err e).
Proof.
  intros U domain roles action resource c0 ls s r Hrun Hret Hnc Hnm Hdf.
  destruct (single_snapshot _ _ _ _ _ _ _ _ _ _ Hrun Hret Hnm) as (c & Hcur & _ & Hans). exists c. split; [done|].
  pose proof (Hdf c (current_version _ _ _ _ _ _ _ _ _ Hcur)) as Hc.
  destruct r as [acc|e|]; cbn [check_policy_result]; [| |done].
  - destruct (answer_ok_spec _ _ _ _ _ _ _ _ Hc Hans) as [Hal Hnd]. destruct Hans as (Hne & _).
    assert (spec_allowed U domain action resource c roles) as Hs; [|by split].
    split; [done|]. destruct acc as [|role acc]; [done|]. exists role. apply Hal. left.
  - split; [|intros _; by eexists]. split; [done|]. intros [Hnd (role & Hin & Hal)]. exfalso.
    destruct Hans as [[_ Hn]|[(role' & l & a & Hin' & Hl & Hf & He)|[_ [?|?]]]]; [| |done|done].
    + by destruct (hitb_false U domain action resource c role (Hn _ Hin)) as [_ ?].
    + apply find_in in Hf as [Hf Hm]. apply (Hnd role' Hin'). exists a. split; [by exists l|]. split; [exact Hm|]. unfold is_deny. congruence.
Qed.

(** One accepted, one denied and one unmatched request. *)
Example C02_check_policy_nonvacuous :
  (exists s r, run U0 (B "d") ex_roles (B "read") (B "doc") (ex_run order2 (B "doc")) (start ex_roles ex_cache false) = Some s /\
     returned s r /\ check_policy_result r = Ok tt) /\
  (exists s r, run U0 (B "d") ex_roles (B "read") (B "secret/1") (ex_run order2 (B "secret/1")) (start ex_roles ex_cache false) = Some s /\
     returned s r /\ check_policy_result r = Err ErrDenyByPolicy) /\
  (forall c, version ex_cache (ex_run order2 (B "doc")) c -> deny_first_cache c) /\
  never_cancelled (ex_run order2 (B "doc")) /\ no_mutation (ex_run order2 (B "doc")).
Proof.
  assert (forall res x, option_map s_main (ex_final order2 res) = Some (MDone x) ->
    exists s r, run U0 (B "d") ex_roles (B "read") res (ex_run order2 res) (start ex_roles ex_cache false) = Some s /\ returned s r /\ r = x) as Hx.
  { intros res x H. apply some_of_map in H as (s & Hs & Hm). exists s, x. split; [exact Hs|]. split; [exact Hm|reflexivity]. }
  assert (Forall (fun l => is_env l = false) (ex_run order2 (B "doc"))) as Hf.
  { apply Forall_forall. intros x Hi. apply elem_of_list_In in Hi.
    assert (forallb (fun l => negb (is_env l)) (ex_run order2 (B "doc")) = true) as Hb by (vm_compute; reflexivity).
    rewrite forallb_forall in Hb. specialize (Hb x Hi). by destruct (is_env x). }
  rewrite Forall_forall in Hf. split_and!.
  - destruct (Hx (B "doc") (Ok [B "user"; B "admin"])) as (s & r & H1 & H2 & ->); [vm_compute; reflexivity|]. exists s. eexists. split; [exact H1|]. split; [exact H2|reflexivity].
  - destruct (Hx (B "secret/1") (Err ErrDenyByPolicy)) as (s & r & H1 & H2 & ->); [vm_compute; reflexivity|]. exists s. eexists. split; [exact H1|]. split; [exact H2|reflexivity].
  - intros c [->|(p & [Hp|Hp])]; [apply ex_cache_deny_first| |]; discriminate (Hf _ Hp).
  - intros Hp. discriminate (Hf _ Hp).
  - intros p c Hp. discriminate (Hf _ Hp).
Qed.
Print Assumptions C02_check_policy_accepts.
