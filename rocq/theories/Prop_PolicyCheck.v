(** * Properties C01 - C07: CheckPolicyRoles under every schedule *)
From Verif Require Import PolicyCheckFacts.

(** ** A scheduler, only for the examples *)
Section drive.
  Context (U : unicode) (domain : str) (roles : list str) (action resource : str).
  Definition pick (order : list label) (s : st) : option (label * st) :=
    foldr (fun l k => match step U domain roles action resource l s with Some s' => Some (l, s') | None => k end)
          None order.
  Fixpoint drive (fuel : nat) (order : list label) (s : st) : list label :=
    match fuel with
    | O => []
    | S f => match pick order s with Some (l, s') => l :: drive f order s' | None => [] end
    end.
End drive.
Definition get {A} (d : A) (o : outcome A) : A := match o with Ok a => a | _ => d end.
Definition dummy : assertion := Assertion [] [] [] None [] [].
Definition mk (act res eff : string) : assertion := get dummy (new_assertion U0 (B act) (B res) (B eff)).
Definition ex_cache : cache :=
  {[ B "d:role.admin" := [mk "read" "d:secret*" "deny"; mk "*" "d:*" "allow"];
     B "d:role.user" := [mk "read" "d:*" "allow"];
     B "d:role.none" := [mk "write" "d:*" "allow"] ]}.
Definition ex_roles := [B "user"; B "none"; B "admin"; B "ghost"].
Definition order1 := [LMain; LClose; LWork 3; LWork 2; LWork 1; LWork 0; LSpawn; LLoad].
Definition order2 := [LLoad; LWork 0; LSpawn; LWork 1; LWork 2; LWork 3; LClose; LMain].
Definition order4 := [LLoad; LSpawn; LWork 3; LWork 2; LWork 1; LWork 0; LClose; LMain].
Definition ex_run (order : list label) (res : str) : list label :=
  drive U0 (B "d") ex_roles (B "read") res 200 order (start ex_roles ex_cache false).
Definition ex_final order res := run U0 (B "d") ex_roles (B "read") res (ex_run order res) (start ex_roles ex_cache false).
Definition ex_result order res : option mst := option_map s_main (ex_final order res).

Lemma some_of_map {A C} (f : A -> C) (o : option A) v : option_map f o = Some v -> exists s, o = Some s /\ f s = v.
Proof. destruct o as [s|]; [|done]. intros [= <-]. by exists s. Qed.

(** C01.  If every version of the policy in force during the call is deny-first and
    denies the request to some requested role, the call fails, under every
    interleaving of workers, cancellation, policy swaps and cache refreshes. *)
Theorem C01_deny_overrides :
  forall U domain roles action resource c0 cancelled ls s r role,
  run U domain roles action resource ls (start roles c0 cancelled) = Some s -> returned s r ->
  role ∈ roles ->
  (forall c, version c0 ls c -> deny_first_cache c /\ role_denies U domain action resource c role) ->
  exists e, r = Err e.
Proof. exact deny_never_ok. Qed.

(** The same for CheckPolicy. *)
Theorem C01_check_policy_denies :
  forall U domain roles action resource c0 cancelled ls s r role,
  run U domain roles action resource ls (start roles c0 cancelled) = Some s -> returned s r ->
  role ∈ roles ->
  (forall c, version c0 ls c -> deny_first_cache c /\ role_denies U domain action resource c role) ->
  exists e, check_policy_result r = Err e.
Proof.
  intros U domain roles action resource c0 cancelled ls s r role Hrun Hret Hin Hall.
  destruct (deny_never_ok _ _ _ _ _ _ _ _ _ _ _ Hrun Hret Hin Hall) as [e ->]. by exists e.
Qed.

Lemma ex_cache_deny_first : deny_first_cache ex_cache.
Proof.
  intros key l H. unfold ex_cache in H.
  assert (l = [mk "read" "d:secret*" "deny"; mk "*" "d:*" "allow"] \/ l = [mk "read" "d:*" "allow"] \/
          l = [mk "write" "d:*" "allow"]) as Hl.
  {
    apply lookup_insert_Some in H as [[_ <-]|[_ H]]; [by left|].
    apply lookup_insert_Some in H as [[_ <-]|[_ H]]; [by right; left|].
    apply lookup_singleton_Some in H as [_ <-]. by right; right. }
  destruct Hl as [-> | [-> | ->]].
  - exists [mk "read" "d:secret*" "deny"], [mk "*" "d:*" "allow"].
    split; [done|]. split; repeat constructor; done.
  - exists [], [mk "read" "d:*" "allow"]. split; [done|]. split; repeat constructor; done.
  - exists [], [mk "write" "d:*" "allow"]. split; [done|]. split; repeat constructor; done.
Qed.

Example C01_nonvacuous :
  (exists s r, run U0 (B "d") ex_roles (B "read") (B "secret/1") (ex_run order1 (B "secret/1"))
                 (start ex_roles ex_cache false) = Some s /\ returned s r) /\
  B "admin" ∈ ex_roles /\
  (forall c, version ex_cache (ex_run order1 (B "secret/1")) c ->
     deny_first_cache c /\ role_denies U0 (B "d") (B "read") (B "secret/1") c (B "admin")) /\
  ex_result order1 (B "secret/1") = Some (MDone (Err ErrDenyByPolicy)).
Proof.
  split.
  { assert (option_map s_main (ex_final order1 (B "secret/1")) = Some (MDone (Err ErrDenyByPolicy))) as H
      by (vm_compute; reflexivity).
    apply some_of_map in H as (s & Hs & Hm). exists s, (Err ErrDenyByPolicy). split; [exact Hs|exact Hm]. }
  split; [do 2 right; left|]. split; [|vm_compute; reflexivity].
  intros c [->|(p & Hp)].
  - split; [apply ex_cache_deny_first|].
    exists (mk "read" "d:secret*" "deny"). split; [|split; [vm_compute; reflexivity|by vm_compute]].
    exists [mk "read" "d:secret*" "deny"; mk "*" "d:*" "allow"]. split; [vm_compute; reflexivity|]. left.
  - exfalso. assert (Forall (fun l => is_env l = false) (ex_run order1 (B "secret/1"))) as Hf.
    { apply Forall_forall. intros x Hx. apply elem_of_list_In in Hx. revert x Hx.
      assert (forallb (fun l => negb (is_env l)) (ex_run order1 (B "secret/1")) = true) as Hb by (vm_compute; reflexivity).
      rewrite forallb_forall in Hb. intros x Hx. specialize (Hb x Hx). by destruct (is_env x). }
    rewrite Forall_forall in Hf. destruct Hp as [Hp|Hp]; by specialize (Hf _ Hp).
Qed.

(** C02.  Success returns exactly the requested roles with an applicable assertion
    in the policy that was current at some instant of the call; each of them is
    allowed, and no requested role is denied.  (Caches are deny-first: C15.) *)
Theorem C02_success_only_with_allow :
  forall U domain roles action resource c0 cancelled ls s acc,
  run U domain roles action resource ls (start roles c0 cancelled) = Some s -> returned s (Ok acc) ->
  no_mutation ls -> (forall c, version c0 ls c -> deny_first_cache c) ->
  exists c, current_during U domain roles action resource c0 cancelled ls c /\
    acc <> [] /\ acc ≡ₚ List.filter (role_hitb U domain action resource c) roles /\
    (forall role, role ∈ acc -> role ∈ roles /\ role_allows U domain action resource c role) /\
    (forall role, role ∈ roles -> ~ role_denies U domain action resource c role).
Proof. exact success_spec. Qed.

(** Even while refreshes change the cache during the call, every returned role was
    requested and allowed by some version in force during the call. *)
Theorem C02_success_under_refresh :
  forall U domain roles action resource c0 cancelled ls s acc,
  run U domain roles action resource ls (start roles c0 cancelled) = Some s -> returned s (Ok acc) ->
  acc <> [] /\
  forall role, role ∈ acc -> role ∈ roles /\
    exists c, version c0 ls c /\ role_allows U domain action resource c role.
Proof. exact success_refresh. Qed.

Example C02_nonvacuous :
  ex_result order4 (B "doc") = Some (MDone (Ok [B "admin"; B "user"])) /\
  ex_result order2 (B "doc") = Some (MDone (Ok [B "user"; B "admin"])) /\
  ex_roles = [B "user"; B "none"; B "admin"; B "ghost"].
Proof. vm_compute. done. Qed.

(** C03.  Default deny. *)
Theorem C03_default_deny :
  forall U domain roles action resource c0 ls s r,
  run U domain roles action resource ls (start roles c0 false) = Some s -> returned s r ->
  never_cancelled ls ->
  (forall c, version c0 ls c -> spec_no_match U domain action resource c roles) ->
  r = Err ErrNoMatch.
Proof. exact default_deny. Qed.

(** In particular for an empty role list, whatever the policies. *)
Theorem C03_no_roles :
  forall U domain action resource c0 ls s r,
  run U domain [] action resource ls (start [] c0 false) = Some s -> returned s r ->
  never_cancelled ls -> r = Err ErrNoMatch.
Proof.
  intros U domain action resource c0 ls s r H1 H2 H3. eapply default_deny; [exact H1|exact H2|exact H3|].
  intros c _ role Hin. by apply elem_of_nil in Hin.
Qed.

Example C03_nonvacuous :
  option_map s_main (run U0 (B "d") [B "user"; B "none"; B "ghost"] (B "delete") (B "x")
     (drive U0 (B "d") [B "user"; B "none"; B "ghost"] (B "delete") (B "x") 200 order1
        (start [B "user"; B "none"; B "ghost"] ex_cache false))
     (start [B "user"; B "none"; B "ghost"] ex_cache false)) = Some (MDone (Err ErrNoMatch)).
Proof. vm_compute. reflexivity. Qed.

(** C04.  Two complete uncancelled executions on the same policy agree. *)
Theorem C04_schedule_independent :
  forall U domain roles action resource c0 ls1 s1 r1 ls2 s2 r2,
  run U domain roles action resource ls1 (start roles c0 false) = Some s1 -> returned s1 r1 ->
  run U domain roles action resource ls2 (start roles c0 false) = Some s2 -> returned s2 r2 ->
  never_cancelled ls1 -> never_cancelled ls2 -> no_policy_change ls1 -> no_policy_change ls2 ->
  (forall key l a, c0 !! key = Some l -> a ∈ l -> a_effect a = None \/ a_effect a = Some ErrDenyByPolicy) ->
  (exists acc1 acc2, r1 = Ok acc1 /\ r2 = Ok acc2 /\ acc1 ≡ₚ acc2) \/
  (r1 = r2 /\ (r1 = Err ErrDenyByPolicy \/ r1 = Err ErrNoMatch)).
Proof. exact schedule_independent. Qed.

(** Two different schedules of the same request: different channel orders, the same
    verdicts (allow, with permuted lists; explicit deny). *)
Example C04_nonvacuous :
  ex_run order4 (B "doc") <> ex_run order2 (B "doc") /\
  ex_result order4 (B "doc") = Some (MDone (Ok [B "admin"; B "user"])) /\
  ex_result order2 (B "doc") = Some (MDone (Ok [B "user"; B "admin"])) /\
  ex_result order4 (B "secret/1") = Some (MDone (Err ErrDenyByPolicy)) /\
  ex_result order2 (B "secret/1") = Some (MDone (Err ErrDenyByPolicy)).
Proof. split; [vm_compute; done|]. vm_compute. done. Qed.

(** C05.  Cancellation at any point: success is still only given with the complete
    list of authorized roles of an allowed request; otherwise an error. *)
Theorem C05_cancellation_fails_closed :
  forall U domain roles action resource c0 cancelled ls s r,
  run U domain roles action resource ls (start roles c0 cancelled) = Some s -> returned s r ->
  no_mutation ls -> (forall c, version c0 ls c -> deny_first_cache c) ->
  (exists acc c, r = Ok acc /\ current_during U domain roles action resource c0 cancelled ls c /\
     spec_allowed U domain action resource c roles /\
     acc ≡ₚ List.filter (role_hitb U domain action resource c) roles) \/
  exists e, r = Err e.
Proof. exact cancellation_closed. Qed.

(** A context that is already cancelled never yields success. *)
Theorem C05_precancelled :
  forall U domain roles action resource c0 ls s r,
  run U domain roles action resource ls (start roles c0 true) = Some s -> returned s r ->
  r = Err ErrCanceled \/ (roles = [] /\ r = Err ErrNoMatch).
Proof. exact precancelled. Qed.

Definition ex_cancel_run :=
  let s0 := start ex_roles ex_cache false in
  let l1 := drive U0 (B "d") ex_roles (B "read") (B "doc") 12 order1 s0 in
  match run U0 (B "d") ex_roles (B "read") (B "doc") (l1 ++ [EnvCancel]) s0 with
  | Some s1 => l1 ++ EnvCancel :: drive U0 (B "d") ex_roles (B "read") (B "doc") 200 order1 s1
  | None => []
  end.
Example C05_nonvacuous :
  EnvCancel ∈ ex_cancel_run /\
  option_map s_main (run U0 (B "d") ex_roles (B "read") (B "doc") ex_cancel_run (start ex_roles ex_cache false))
  = Some (MDone (Err ErrCanceled)).
Proof.
  split; [|vm_compute; reflexivity].
  assert (existsb is_cancel ex_cancel_run = true) as H by (vm_compute; reflexivity).
  apply existsb_exists in H as (l & Hl & Hx). 
  assert (l = EnvCancel) as -> by (clear Hl; by destruct l). by apply elem_of_list_In.
Qed.

(** C06.  No panic, bounded number of steps, and an execution that cannot be
    extended has answered the caller and finished every goroutine. *)
Theorem C06_no_panic :
  forall U domain roles action resource c0 cancelled ls s,
  run U domain roles action resource ls (start roles c0 cancelled) = Some s -> s_panic s = false.
Proof. exact never_panics. Qed.

Theorem C06_steps_bounded :
  forall U domain roles action resource c0 cancelled ls s,
  run U domain roles action resource ls (start roles c0 cancelled) = Some s ->
  (sys_steps ls <= 7 * length roles + 5 + 2 * read_total s)%nat.
Proof. intros. by eapply steps_bound. Qed.

(** With assertion lists of at most [k] elements the bound is uniform. *)
Theorem C06_steps_bounded_uniform :
  forall U domain roles action resource c0 cancelled ls s k,
  run U domain roles action resource ls (start roles c0 cancelled) = Some s ->
  (forall c key l, version c0 ls c -> c !! key = Some l -> (length l <= k)%nat) ->
  (sys_steps ls <= (7 + 2 * k) * length roles + 5)%nat.
Proof. exact steps_bound_uniform. Qed.

Theorem C06_no_deadlock_no_leak :
  forall U domain roles action resource c0 cancelled ls s,
  run U domain roles action resource ls (start roles c0 cancelled) = Some s ->
  (forall l, is_env l = false -> step U domain roles action resource l s = None) -> quiescent s.
Proof. exact maximal_quiescent. Qed.

(** Early return on a deny: the caller is answered while a worker is still running,
    and the remaining goroutines still finish. *)
Definition order3 := [LMain; LWork 2; LSpawn; LLoad; LWork 0; LWork 1; LWork 3; LClose].
Example C06_nonvacuous :
  (exists k s, run U0 (B "d") ex_roles (B "read") (B "secret/1") (firstn k (ex_run order3 (B "secret/1")))
     (start ex_roles ex_cache false) = Some s /\ s_main s = MDone (Err ErrDenyByPolicy) /\
     s_work s = [WInit; WInit; WFin; WInit]) /\
  option_map (fun s => (s_disp s, s_work s)) (ex_final order3 (B "secret/1"))
  = Some (DClosed, [WFin; WFin; WFin; WFin]).
Proof.
  split; [|vm_compute; reflexivity]. exists 14%nat.
  assert (option_map (fun s => (s_main s, s_work s))
    (run U0 (B "d") ex_roles (B "read") (B "secret/1") (firstn 14 (ex_run order3 (B "secret/1")))
       (start ex_roles ex_cache false)) = Some (MDone (Err ErrDenyByPolicy), [WInit; WInit; WFin; WInit])) as H
    by (vm_compute; reflexivity).
  apply some_of_map in H as (s & Hs & Hm). exists s. split; [exact Hs|]. clear Hs. injection Hm as -> ->. split; reflexivity.
Qed.

(** C07.  All answers of one call come from one policy cache, the one current at a
    single instant of the call (swaps by Update are arbitrary). *)
Theorem C07_single_snapshot :
  forall U domain roles action resource c0 cancelled ls s r,
  run U domain roles action resource ls (start roles c0 cancelled) = Some s -> returned s r ->
  no_mutation ls ->
  exists c, current_during U domain roles action resource c0 cancelled ls c /\
    (forall i v role, s_reads s !! i = Some (Some v) -> roles !! i = Some role -> c !! key_of domain role = v) /\
    answer_ok U domain roles action resource c (cancelled = true \/ EnvCancel ∈ ls) r.
Proof. exact single_snapshot. Qed.

(** A swap in the middle of the call: admin's denial was removed and user's right
    added in the new policy; the call still answers from the old one. *)
Definition ex_swap_run (n : nat) :=
  let s0 := start ex_roles ex_cache false in
  let l1 := drive U0 (B "d") ex_roles (B "read") (B "secret/1") n order1 s0 in
  let sw := EnvSwap 1%nat {[ B "d:role.user" := [mk "read" "d:*" "allow"] ]} in
  match run U0 (B "d") ex_roles (B "read") (B "secret/1") (l1 ++ [sw]) s0 with
  | Some s1 => l1 ++ sw :: drive U0 (B "d") ex_roles (B "read") (B "secret/1") 200 order1 s1
  | None => []
  end.
Example C07_nonvacuous :
  option_map s_main (run U0 (B "d") ex_roles (B "read") (B "secret/1") (ex_swap_run 4) (start ex_roles ex_cache false))
  = Some (MDone (Err ErrDenyByPolicy)) /\
  option_map s_main (run U0 (B "d") ex_roles (B "read") (B "secret/1") (ex_swap_run 0) (start ex_roles ex_cache false))
  = Some (MDone (Ok [B "user"])).
Proof. vm_compute. done. Qed.

Print Assumptions C01_deny_overrides.
Print Assumptions C01_check_policy_denies.
Print Assumptions C02_success_only_with_allow.
Print Assumptions C02_success_under_refresh.
Print Assumptions C03_default_deny.
Print Assumptions C03_no_roles.
Print Assumptions C04_schedule_independent.
Print Assumptions C05_cancellation_fails_closed.
Print Assumptions C05_precancelled.
Print Assumptions C06_no_panic.
Print Assumptions C06_steps_bounded.
Print Assumptions C06_steps_bounded_uniform.
Print Assumptions C06_no_deadlock_no_leak.
Print Assumptions C07_single_snapshot.
