(** * Properties C12 - C20: from signed policies to the role cache *)
From Verif Require Import PolicyCheckers.

(** ** Example documents *)
Definition rw (role act res eff : string) : raw := Raw (B role) (B act) (B res) (B eff).
Definition ex_doc : document :=
  [[rw "d:role.admin" "read" "d:secret*" "Deny"; rw "d:role.admin" "*" "d:*" "allow"];
   [rw "d:role.user" "read" "d:*" "allow"; rw "d:role.admin" "*" "d:*" "allow"]].
Definition ex_script : list raw :=
  [rw "d:role.user" "read" "d:*" "allow"; rw "d:role.admin" "*" "d:*" "allow";
   rw "d:role.admin" "read" "d:secret*" "Deny"].
Definition ex_sched : list slabel :=
  [SWork 1; SWork 0; SWork 1; SWork 0; SWork 0; SWork 1; SWork 1; SWork 0; SWork 0; SWork 1]%nat.
Definition ex_doc2 : document := [[rw "e:role.r" "write" "e:x" "allow"]].
Definition ex_script2 : list raw := [rw "e:role.r" "write" "e:x" "allow"].
Definition ex_docs (i : nat) : document := match i with O => ex_doc | S O => ex_doc2 | _ => [] end.
Definition ex_job : job := Job (1000 * second) (10 * second) ex_script.
Definition ex_job2 : job := Job (900 * second) (11 * second) ex_script2.
Definition tick (i : nat) (t : Z) : ulabel := UWork i (ITime (t * second)).
Definition ex_update : list ulabel :=
  [USpawn; UWork 0 (IFetch (Ok ex_job)); tick 0 12; USpawn; UWork 1 (IFetch (Ok ex_job2)); tick 0 12; tick 1 12;
   tick 0 13; tick 1 13; tick 0 13; tick 0 13; tick 1 14; tick 0 14; tick 0 14; UFinish]%nat.

(** ** C12 *)
(** After a successful Update, the cached policy gives exactly the verdicts of the
    documents: for every role, a denial is cached iff some document denies, and if
    none does, an allow is cached iff some document allows.  [faithful_script]: the
    simplification ran under any schedule if no two policies of the document hold
    opposite effects for the same target, otherwise under a race-free one. *)
Theorem C12_caching_preserves_meaning :
  forall U ls cur n c s t (docs : nat -> document) domain action resource role,
  urun U ls (uinit cur n c) = Some s -> u_ret s = Some (Ok tt) ->
  (forall i j, ufetched ls i j -> no_commas (docs i) /\ faithful_script U (docs i) (j_script j)) ->
  (forall i i' pol pol' r r', pol ∈ docs i -> r ∈ pol -> pol' ∈ docs i' -> r' ∈ pol' -> r_role r = r_role r' -> i = i') ->
  timely (ufetched ls) (uticked ls) -> (forall i j, ufetched ls i j -> alive j t) ->
  (role_denies U domain action resource (g_view t (u_cur s)) role <->
     exists i, (i < n)%nat /\ doc_denies U domain action resource (docs i) role) /\
  ((forall i, (i < n)%nat -> ~ doc_denies U domain action resource (docs i) role) ->
     (role_allows U domain action resource (g_view t (u_cur s)) role <->
      exists i, (i < n)%nat /\ doc_allows U domain action resource (docs i) role)).
Proof. exact update_meaning. Qed.

Lemma ex_fetched i j : ufetched ex_update i j -> (i = 0%nat /\ j = ex_job) \/ (i = 1%nat /\ j = ex_job2).
Proof.
  unfold ufetched, ex_update. intros H. repeat (apply elem_of_cons in H as [H|H]; [(done || (injection H as -> ->; auto))|]).
  by apply elem_of_nil in H.
Qed.
Lemma ex_ticked i t : uticked ex_update i t -> 12 * second <= t <= 14 * second.
Proof.
  unfold uticked, ex_update, tick. intros H.
  repeat (apply elem_of_cons in H as [H|H]; [(done || (injection H as -> ->; unfold second; lia))|]).
  by apply elem_of_nil in H.
Qed.
Lemma ex_timely : timely (ufetched ex_update) (uticked ex_update).
Proof.
  intros i j t HF HT. apply ex_ticked in HT. right.
  destruct (ex_fetched _ _ HF) as [[-> ->]|[-> ->]]; cbn [j_now j_exp ex_job ex_job2];
    unfold second, max_int64, two63 in *; lia.
Qed.
Lemma ex_disjoint : forall i i' pol pol' r r',
  pol ∈ ex_docs i -> r ∈ pol -> pol' ∈ ex_docs i' -> r' ∈ pol' -> r_role r = r_role r' -> i = i'.
Proof.
  intros i i' pol pol' r r' Hp Hr Hp' Hr' He.
  pose proof (elem_of_roles _ _ _ Hp Hr) as H1. pose proof (elem_of_roles _ _ _ Hp' Hr') as H2. rewrite <- He in H2.
  assert (forall k, k ∈ roles_of ex_doc -> k ∈ roles_of ex_doc2 -> False) as Hno.
  { intros k Ha Hb. assert (Forall (fun k => negb (existsb (eqb_str k) (roles_of ex_doc2)) = true) (roles_of ex_doc)) as Hf
      by (repeat constructor).
    rewrite Forall_forall in Hf. specialize (Hf k Ha). apply negb_true_iff in Hf.
    assert (existsb (eqb_str k) (roles_of ex_doc2) = true) as Hx; [|congruence].
    apply existsb_exists. exists k. split; [by apply elem_of_list_In|by apply eqb_str_true]. }
  destruct i as [|[|i]]; [| |by apply elem_of_nil in Hp]; (destruct i' as [|[|i']]; [| |by apply elem_of_nil in Hp']);
    try reflexivity; exfalso; eauto.
Qed.
Example C12_nonvacuous :
  exists s, urun U0 ex_update (uinit ∅ 2 false) = Some s /\ u_ret s = Some (Ok tt) /\
  (forall i j, ufetched ex_update i j -> no_commas (ex_docs i) /\ faithful_script U0 (ex_docs i) (j_script j)) /\
  (forall i j, ufetched ex_update i j -> alive j (500 * second)) /\
  doc_denies U0 (B "d") (B "READ") (B "secret/1") ex_doc (B "admin") /\
  role_denies U0 (B "d") (B "READ") (B "secret/1") (g_view (500 * second) (u_cur s)) (B "admin") /\
  role_allows U0 (B "d") (B "read") (B "doc") (g_view (500 * second) (u_cur s)) (B "admin") /\
  role_allows U0 (B "e") (B "write") (B "x") (g_view (500 * second) (u_cur s)) (B "r").
Proof.
  assert (exists s, urun U0 ex_update (uinit ∅ 2 false) = Some s /\ u_ret s = Some (Ok tt)) as (s & Hs & Hr).
  { assert (option_map u_ret (urun U0 ex_update (uinit ∅ 2 false)) = Some (Some (Ok tt))) as H by (vm_compute; reflexivity).
    destruct (urun U0 ex_update (uinit ∅ 2 false)) as [s|]; [|done]. exists s. split; [done|]. by injection H. }
  assert (forall i j, ufetched ex_update i j -> no_commas (ex_docs i) /\ faithful_script U0 (ex_docs i) (j_script j)) as Hf.
  { intros i j [[-> ->]|[-> ->]]%ex_fetched; (split; [apply no_commasb_spec; vm_compute; reflexivity|]).
    - apply (scriptb_faithful _ _ ex_sched); vm_compute; reflexivity.
    - apply (scriptb_faithful _ _ [SWork 0; SWork 0; SWork 0]%nat); vm_compute; reflexivity. }
  assert (forall i j, ufetched ex_update i j -> alive j (500 * second)) as Ha.
  { intros i j [[-> ->]|[-> ->]]%ex_fetched; right; vm_compute; done. }
  assert (doc_denies U0 (B "d") (B "READ") (B "secret/1") ex_doc (B "admin")) as Hd.
  { apply doc_deniesb_spec. vm_compute. reflexivity. }
  exists s. split_and!; [done..| | |].
  - apply (update_meaning _ _ _ _ _ _ _ ex_docs _ _ _ _ Hs Hr Hf ex_disjoint ex_timely Ha).
    exists 0%nat. split; [lia|exact Hd].
  - apply (update_meaning _ _ _ _ _ _ _ ex_docs _ _ _ _ Hs Hr Hf ex_disjoint ex_timely Ha).
    + intros i Hi Hx%doc_deniesb_spec. destruct i as [|[|i]]; [| |lia]; vm_compute in Hx; discriminate Hx.
    + exists 0%nat. split; [lia|]. apply doc_allowsb_spec. vm_compute. reflexivity.
  - apply (update_meaning _ _ _ _ _ _ _ ex_docs _ _ _ _ Hs Hr Hf ex_disjoint ex_timely Ha).
    + intros i Hi Hx%doc_deniesb_spec. destruct i as [|[|i]]; [| |lia]; vm_compute in Hx; discriminate Hx.
    + exists 1%nat. split; [lia|]. apply doc_allowsb_spec. vm_compute. reflexivity.
Qed.

(** ** C13 *)
(** If the Load/Store pairs on equal keys do not overlap, a deny of any policy of
    the document survives. *)
Theorem C13_deny_survives_without_race_partial :
  forall U doc ls s script, srun U ls (sinit doc false) = Some s -> simplified s ->
  script ≡ₚ (map_to_list (ss_map s)).*2 -> race_free U ls (sinit doc false) ->
  forall pol r, pol ∈ doc -> r ∈ pol -> raw_deny U r ->
  exists r', r' ∈ script /\ km r' = km r /\ raw_deny U r'.
Proof.
  intros U doc ls s script H1 H2 H3 H4 pol r Hp Hr Hd. eapply script_deny; try done.
  apply race_free_safe; [done|apply sinit_found].
Qed.
Definition ex_conflict : document :=
  [[rw "d:role.r" "read" "d:x" "allow"]; [rw "d:role.r" "read" "d:x" "deny"]].
(** Without that condition an interleaving drops the deny: both goroutines load,
    then the deny is stored, then the allow. *)
Theorem C13_deny_lost_in_race_refuted :
  exists doc script, no_commas doc /\ script_of U0 doc script /\
    doc_denies U0 (B "d") (B "read") (B "x") doc (B "r") /\ forall r, r ∈ script -> ~ raw_deny U0 r.
Proof.
  exists ex_conflict, [rw "d:role.r" "read" "d:x" "allow"]. split_and!.
  - apply no_commasb_spec. vm_compute. reflexivity.
  - apply (scriptb_script_of _ _ [SWork 0; SWork 1; SWork 1; SWork 0; SWork 0; SWork 1]%nat). vm_compute. reflexivity.
  - apply doc_deniesb_spec. vm_compute. reflexivity.
  - intros r ->%elem_of_list_singleton. vm_compute. done.
Qed.
Example C13_nonvacuous :
  race_free U0 [SWork 0; SWork 0; SWork 1; SWork 1; SWork 0; SWork 1]%nat (sinit ex_conflict false) /\
  scriptb U0 ex_conflict [SWork 0; SWork 0; SWork 1; SWork 1; SWork 0; SWork 1]%nat [rw "d:role.r" "read" "d:x" "deny"] = true.
Proof. split; [apply race_freeb_spec|]; vm_compute; reflexivity. Qed.

(** ** C14 *)
Theorem C14_duplicates_are_equal_partial :
  forall a b, ","%char ∉ r_role a -> ","%char ∉ r_action a -> ","%char ∉ r_role b -> ","%char ∉ r_action b ->
  km a = km b -> r_role a = r_role b /\ r_action a = r_action b /\ r_resource a = r_resource b.
Proof. exact km_inj. Qed.
(** Every assertion of such a document is kept up to duplicates, under every schedule. *)
Theorem C14_nothing_dropped_partial :
  forall U doc script, no_commas doc -> script_of U doc script ->
  forall pol r, pol ∈ doc -> r ∈ pol -> exists r', r' ∈ script /\ same_target r' r.
Proof.
  intros U doc script Hc Hs pol r Hp Hr. destruct (script_complete _ _ _ Hs pol r Hp Hr) as (r' & Hr' & Hk).
  exists r'. split; [done|]. destruct (script_sound _ _ _ Hs r' Hr') as (pol' & Hp' & Hrp').
  pose proof (Hc _ _ Hp Hr) as [? ?]. pose proof (Hc _ _ Hp' Hrp') as [? ?]. by apply km_inj.
Qed.
(** With commas a deny assertion vanishes, in a single policy and a sequential run. *)
Theorem C14_comma_collision_refuted :
  exists doc script, script_of U0 doc script /\
    doc_denies U0 (B "d") (B "read") (B "x,d:y") doc (B "r") /\
    forall r, r ∈ script -> ~ raw_applies U0 (B "d") (B "read") (B "x,d:y") (B "r") r.
Proof.
  exists [[rw "d:role.r" "read" "d:x,d:y" "deny"; rw "d:role.r" "read,d:x" "d:y" "deny"]],
    [rw "d:role.r" "read,d:x" "d:y" "deny"]. split_and!.
  - apply (scriptb_script_of _ _ [SWork 0; SWork 0; SWork 0; SWork 0; SWork 0]%nat). vm_compute. reflexivity.
  - apply doc_deniesb_spec. vm_compute. reflexivity.
  - intros r ->%elem_of_list_singleton Hx%raw_appliesb_spec. vm_compute in Hx. discriminate Hx.
Qed.
Example C14_nonvacuous :
  km (rw "d:role.r" "read" "d:x,d:y" "deny") = km (rw "d:role.r" "read,d:x" "d:y" "deny") /\
  no_commas ex_doc /\ script_of U0 ex_doc ex_script.
Proof.
  split; [reflexivity|]. split; [apply no_commasb_spec; vm_compute; reflexivity|].
  apply (scriptb_script_of _ _ ex_sched). vm_compute. reflexivity.
Qed.

(** ** C15 *)
(** Any number of goroutines caching any documents into a deny-first cache, in any
    interleaving, with entries expiring: every state is deny-first at every time. *)
Theorem C15_deny_first :
  forall U ls g n s t, gache_deny_first g -> crun U ls (cinit g n) = Some s -> deny_first_cache (g_view t (c_g s)).
Proof. intros U ls g n s t Hg H. apply view_deny_first. by apply (crun_df _ _ _ _ H (cinit_df g n Hg)). Qed.
Theorem C15_deny_first_update :
  forall U ls cur n c s t, gache_deny_first cur -> urun U ls (uinit cur n c) = Some s ->
  deny_first_cache (g_view t (u_cur s)).
Proof.
  intros U ls cur n c s t Hg H. apply view_deny_first.
  pose proof (urun_inv _ n cur _ _ _ H (uinit_inv n cur c)) as (H1 & H2 & H3 & H4 & H5 & H6).
  destruct (u_ret s) as [[[]|e|]|] eqn:E.
  - destruct H6 as [-> _]; [done|]. apply urun_c in H. apply (crun_df _ _ _ _ H). cbn [uinit u_c]. apply cinit_df.
    intros k e' H'. by rewrite lookup_empty in H'.
  - by rewrite (H4 _ eq_refl).
  - by rewrite (H4 _ eq_refl).
  - by rewrite H5.
Qed.
Example C15_nonvacuous :
  option_map (fun s => option_map (map a_effect) (g_get (20 * second) (B "d:role.admin") (u_cur s)))
    (urun U0 ex_update (uinit ∅ 2 false)) = Some (Some [Some ErrDenyByPolicy; None]).
Proof. vm_compute. reflexivity. Qed.

(** ** C16 *)
Definition i64_sum (j : job) (t : time) : Z := t + (j_exp j - j_now j).
(** An entry filled only from documents that were unexpired when read (clock
    [j_now]) is not returned after expiry + (time of storing - time of reading the clock). *)
Theorem C16_entries_expire_partial :
  forall U ls g n s k limit T, crun U ls (cinit g n) = Some s -> g !! k = None ->
  (forall i j, fetched ls i j -> has_role j k -> j_now j < j_exp j) ->
  (forall i j t, fetched ls i j -> has_role j k -> ticked ls i t -> 0 < t /\ t + (j_exp j - j_now j) <= limit) ->
  limit <= max_int64 -> limit < T ->
  g_get T k (c_g s) = None.
Proof.
  intros U ls g n s k limit T H Hg Hexp Htick Hmax HT.
  pose proof (crun_binv U g (fetched ls) (ticked ls) _ _ _ H (permitted_self ls) (cinit_binv _ _ _ _ n)) as [_ Hb].
  unfold g_get. destruct (c_g s !! k) as [e|] eqn:E; [|done].
  destruct (Hb _ _ E) as [_ [H0|(i & j & r & t & HF & Hr & Hk & Ht & He)]]; [congruence|].
  assert (has_role j k) as Hrole by (by exists r).
  pose proof (Hexp _ _ HF Hrole) as H1. destruct (Htick _ _ _ HF Hrole Ht) as [H2 H3].
  unfold g_valid. rewrite He. unfold stored_exp, time_sub.
  assert (sat64 (j_exp j - j_now j) = j_exp j - j_now j) as ->.
  { revert Hmax H3 H1 H2. unfold sat64, min_int64, max_int64, two63. lia. }
  destruct (Z.ltb_spec 0 (j_exp j - j_now j)); [|lia].
  rewrite wrap64_id by (revert Hmax; unfold min_int64, max_int64, two63 in *; lia).
  destruct (Z.leb_spec (t + (j_exp j - j_now j)) 0); [lia|].
  by destruct (Z.leb_spec T (t + (j_exp j - j_now j))); [lia|].
Qed.
(** The fallback path caches an already expired document: it is then readable at every later time. *)
Theorem C16_expired_policy_never_expires_refuted :
  forall T, exists s, crun U0
     [CWork 0 (IFetch (Ok (Job (5 * second) (10 * second) ex_script2)));
      CWork 0 (ITime (10 * second)); CWork 0 (ITime (10 * second)); CWork 0 (ITime (10 * second))] (cinit ∅ 1) = Some s /\
   c_work s = [CEnd (Some (Job (5 * second) (10 * second) ex_script2)) None] /\
   exists l, g_get T (B "e:role.r") (c_g s) = Some l /\ length l = 1%nat.
Proof.
  intros T. eexists. split; [reflexivity|]. split; [reflexivity|]. eexists. split; [|].
  - cbn [c_g]. apply g_set_forever. vm_compute. done.
  - reflexivity.
Qed.
Example C16_nonvacuous :
  option_map (fun s => (option_map (@length _) (g_get (990 * second) (B "d:role.admin") (u_cur s)),
                        option_map (@length _) (g_get (1005 * second) (B "d:role.admin") (u_cur s))))
    (urun U0 ex_update (uinit ∅ 2 false)) = Some (Some 2%nat, None).
Proof. vm_compute. reflexivity. Qed.

(** ** C17 *)
Theorem C17_update_all_or_nothing :
  forall U ls cur n c s, urun U ls (uinit cur n c) = Some s ->
  (u_ret s <> Some (Ok tt) -> u_cur s = cur) /\
  (u_ret s = Some (Ok tt) ->
    (forall i, (i < n)%nat -> exists j, ufetched ls i j) /\
    forall k e a, u_cur s !! k = Some e -> a ∈ ge_val e ->
      exists i j r, (i < n)%nat /\ ufetched ls i j /\ r ∈ j_script j /\ r_role r = k /\
        new_assertion U (r_action r) (r_resource r) (r_effect r) = Ok a).
Proof. exact update_all_or_nothing. Qed.
Theorem C17_any_failed_domain_fails_update :
  forall U ls cur n c s i e, urun U ls (uinit cur n c) = Some s ->
  UWork i (IFetch (Err e)) ∈ ls -> u_ret s <> Some (Ok tt).
Proof. exact update_any_error. Qed.
(** One domain fails after the other has been cached: the old cache stays. *)
Example C17_nonvacuous :
  let old : gache (list assertion) := {[ B "old" := GEntry [] 0 ]} in
  option_map (fun s => (u_ret s, size (c_g (u_c s)), bool_decide (is_Some (u_cur s !! B "old")), size (u_cur s)))
    (urun U0 [USpawn; UWork 0 (IFetch (Ok ex_job2)); USpawn; tick 0 12; tick 0 12; UWork 1 (IFetch (Err ErrFetchPolicy));
              tick 0 12; UFinish]%nat (uinit old 2 false))
  = Some (Some (Err ErrFetchPolicy), 1%nat, true, 1%nat) /\
  option_map (fun s => (u_ret s, bool_decide (is_Some (u_cur s !! B "old")), size (u_cur s)))
    (urun U0 ex_update (uinit old 2 false)) = Some (Some (Ok tt), false, 3%nat).
Proof. vm_compute. done. Qed.

(** ** C18 *)
(** [n] goroutines with role-disjoint documents run concurrently; goroutine [i]
    cached [j].  A run of [j] alone ends with the same assertions for its roles. *)
Theorem C18_disjoint_documents_do_not_interfere_partial :
  forall U ls cur n c s t role i j ls1 c1 s1,
  urun U ls (uinit cur n c) = Some s -> u_ret s = Some (Ok tt) ->
  disjoint_jobs (ufetched ls) -> timely (ufetched ls) (uticked ls) ->
  ufetched ls i j -> has_role j role -> alive j t ->
  urun U ls1 (uinit ∅ 1 c1) = Some s1 -> u_ret s1 = Some (Ok tt) ->
  ufetched ls1 0 j -> timely (ufetched ls1) (uticked ls1) ->
  g_get t role (u_cur s) = g_get t role (u_cur s1) /\ exists l, g_get t role (u_cur s) = Some l /\ l <> [].
Proof.
  intros U ls cur n c s t role i j ls1 c1 s1 H Hr Hdis Htime HF Hrole Hal H1 Hr1 HF1 Htime1.
  destruct (update_entry _ _ _ _ _ _ t role i j H Hr Hdis Htime HF Hrole Hal) as [Hok Hg].
  assert (disjoint_jobs (ufetched ls1)) as Hdis1.
  { destruct (update_all_or_nothing _ _ _ _ _ _ H1) as [_ Hx].
    assert (forall i0 j0, ufetched ls1 i0 j0 -> i0 = 0%nat) as Hz.
    { intros i0 j0 Hf. pose proof (urun_c _ _ _ _ H1) as Hc. apply elem_of_projs in Hf. cbn [uinit u_c] in Hc.
      assert (forall l s0 s2 inp, crun U l s0 = Some s2 -> CWork i0 inp ∈ l -> (i0 < length (c_work s0))%nat) as Hy.
      { clear. intros l. induction l as [|x l IH]; intros s0 s1 inp H HF; [by apply elem_of_nil in HF|]. cbn [crun] in H.
        destruct (cstep U x s0) as [s2|] eqn:E; [|done]. apply elem_of_cons in HF as [<-|HF].
        - cbn [cstep] in E. destruct (c_work s0 !! i0) eqn:Hi; [|done]. by apply lookup_lt_Some in Hi.
        - rewrite <- (cstep_len _ _ _ _ E). by eapply IH. }
      pose proof (Hy _ _ _ _ Hc Hf) as Hl. cbn in Hl. lia. }
    intros a b ja jb k Ha Hb _ _. by rewrite (Hz _ _ Ha), (Hz _ _ Hb). }
  destruct (update_entry _ _ _ _ _ _ t role 0 j H1 Hr1 Hdis1 Htime1 HF1 Hrole Hal) as [_ Hg1].
  split; [congruence|]. exists (rlist U role (j_script j)). split; [done|].
  intros E. destruct Hrole as (r & Hr' & Hrr). unfold okl in Hok. rewrite Forall_forall in Hok.
  destruct (Hok r Hr') as [a Ha]. assert (a ∈ rlist U role (j_script j)) as Hin by (apply elem_of_rlist; by exists r).
  rewrite E in Hin. by apply elem_of_nil in Hin.
Qed.
(** Two goroutines caching the same role (two refreshes, or documents sharing a
    role): one update is lost, here the deny. *)
Definition ex_race_jobs : list ulabel :=
  [USpawn; USpawn; UWork 0 (IFetch (Ok (Job (1000 * second) (10 * second) [rw "d:role.r" "read" "d:x" "deny"])));
   UWork 1 (IFetch (Ok (Job (1000 * second) (10 * second) [rw "d:role.r" "*" "d:*" "allow"])));
   tick 0 12; tick 1 12; tick 0 12; tick 1 12; tick 0 12; tick 1 12; UFinish].
Theorem C18_shared_role_loses_deny_refuted :
  option_map (fun s => (u_ret s, option_map (map a_effect) (g_get (20 * second) (B "d:role.r") (u_cur s))))
    (urun U0 ex_race_jobs (uinit ∅ 2 false)) = Some (Some (Ok tt), Some [None]).
Proof. vm_compute. reflexivity. Qed.
Example C18_nonvacuous :
  option_map (fun s => option_map (map (fun a => (a_action a, a_effect a))) (g_get (20 * second) (B "e:role.r") (u_cur s)))
    (urun U0 ex_update (uinit ∅ 2 false)) = Some (Some [(B "write", None)]) /\
  option_map (fun s => option_map (map (fun a => (a_action a, a_effect a))) (g_get (20 * second) (B "e:role.r") (u_cur s)))
    (urun U0 [USpawn; UWork 0 (IFetch (Ok ex_job2)); tick 0 20; tick 0 20; tick 0 21; UFinish]%nat (uinit ∅ 1 false))
  = Some (Some [(B "write", None)]).
Proof. vm_compute. done. Qed.

(** ** C19 *)
(** A document all of whose roles start with "A:role." changes no verdict in
    another domain B (domain names contain no ':'). *)
Lemma role_prefix_domain (a b r x : str) : ":"%char ∉ a -> ":"%char ∉ b ->
  a ++ B ":role." ++ x = b ++ B ":role." ++ r -> a = b.
Proof.
  revert b. induction a as [|c a IH]; intros [|d b] Ha Hb; cbn.
  - done.
  - intros [= <- _]. destruct Hb. left.
  - intros [= -> _]. destruct Ha. left.
  - intros [= -> H]. apply not_elem_of_cons in Ha as [_ Ha], Hb as [_ Hb]. f_equal. by apply IH.
Qed.
Theorem C19_own_roles_only_affect_own_domain_partial :
  forall U ls g n s doma domb action resource role t,
  crun U ls (cinit g n) = Some s -> ":"%char ∉ doma -> ":"%char ∉ domb -> doma <> domb ->
  (forall i j r, fetched ls i j -> r ∈ j_script j -> exists x, r_role r = doma ++ B ":role." ++ x) ->
  (forall k, CDrop k ∉ ls) ->
  (role_denies U domb action resource (g_view t (c_g s)) role <-> role_denies U domb action resource (g_view t g) role) /\
  (role_allows U domb action resource (g_view t (c_g s)) role <-> role_allows U domb action resource (g_view t g) role).
Proof.
  intros U ls g n s doma domb action resource role t H Ha Hb Hne Hroles Hnd.
  assert (g_view t (c_g s) !! key_of domb role = g_view t g !! key_of domb role) as E.
  { rewrite !g_view_lookup. unfold g_get.
    rewrite (crun_frame U g (fetched ls) (ticked ls) _ _ _ (key_of domb role) H (permitted_self ls) (cinit_binv _ _ _ _ n)).
    - done.
    - intros (i & j & r & HF & Hr & Hk). destruct (Hroles _ _ _ HF Hr) as [x Hx]. apply Hne.
      rewrite Hx in Hk. unfold key_of in Hk. by apply role_prefix_domain in Hk.
    - apply Hnd. }
  unfold role_denies, role_allows, holds_assertion. by rewrite E.
Qed.
(** Nothing checks that: a document fetched for domain "a" grants access in domain "b". *)
Theorem C19_foreign_role_refuted :
  option_map (fun s => match g_get (20 * second) (B "b:role.admin") (c_g s) with
    | Some [a] => a_matches U0 a (B "b") (B "write") (B "secret")
    | _ => false end)
   (crun U0 [CWork 0 (IFetch (Ok (Job (1000 * second) (10 * second) [rw "b:role.admin" "*" "b:*" "allow"])));
             CWork 0 (ITime (10 * second)); CWork 0 (ITime (10 * second)); CWork 0 (ITime (10 * second))] (cinit ∅ 1))
  = Some true.
Proof. vm_compute. reflexivity. Qed.
Example C19_nonvacuous :
  ":"%char ∉ B "d" /\ ":"%char ∉ B "e" /\ B "d" <> B "e" /\
  (forall r, r ∈ ex_script -> exists x, r_role r = B "d" ++ B ":role." ++ x) /\
  bool_decide (is_Some (crun U0 (CWork 0 (IFetch (Ok ex_job)) :: replicate 7 (CWork 0 (ITime (10 * second)))) (cinit ∅ 1))) = true.
Proof.
  split_and!; [by apply memb_spec..|done| |vm_compute; reflexivity].
  intros r Hr. repeat (apply elem_of_cons in Hr as [->|Hr]); try (by apply elem_of_nil in Hr); by eexists.
Qed.

(** ** C20 *)
(** Whatever applies to a request in the cache comes from an assertion of a fetched
    document with exactly the role "domain:role.role" and a resource whose text
    before the first ':' equals the domain up to case folding. *)
Theorem C20_resource_domain_and_role :
  forall U ls cur n c s t domain action resource role a,
  urun U ls (uinit cur n c) = Some s -> u_ret s = Some (Ok tt) ->
  holds_assertion domain (g_view t (u_cur s)) role a -> hits U domain action resource a ->
  exists i j r d rest, ufetched ls i j /\ r ∈ j_script j /\
    r_role r = domain ++ B ":role." ++ role /\
    r_resource r = d ++ B ":" ++ rest /\ ":"%char ∉ d /\ equal_fold U d domain = true.
Proof.
  intros U ls cur n c s t domain action resource role a H Hr (l & Hl & Ha) Hh.
  rewrite g_view_lookup in Hl. apply g_get_Some in Hl as [e He].
  destruct (update_all_or_nothing _ _ _ _ _ _ H) as [_ Hok]. destruct (Hok Hr) as [_ Hc].
  destruct (Hc _ _ a He Ha) as (i & j & r & _ & HF & Hin & Hk & Hn).
  apply (a_matches_iff U _ _ _ _ _ _ _ Hn) in Hh as (d & rest & E1 & E2 & E3 & _).
  exists i, j, r, d, rest. by split_and!.
Qed.
Example C20_nonvacuous :
  option_map (fun s => match g_get (20 * second) (B "d:role.user") (u_cur s) with
    | Some [a] => (a_matches U0 a (B "d") (B "read") (B "x"), a_matches U0 a (B "D") (B "read") (B "x"),
                   a_matches U0 a (B "e") (B "read") (B "x"))
    | _ => (false, false, false) end) (urun U0 ex_update (uinit ∅ 2 false)) = Some (true, true, false).
Proof. vm_compute. reflexivity. Qed.

Print Assumptions C12_caching_preserves_meaning.
Print Assumptions C13_deny_survives_without_race_partial.
Print Assumptions C13_deny_lost_in_race_refuted.
Print Assumptions C14_duplicates_are_equal_partial.
Print Assumptions C14_nothing_dropped_partial.
Print Assumptions C14_comma_collision_refuted.
Print Assumptions C15_deny_first.
Print Assumptions C15_deny_first_update.
Print Assumptions C16_entries_expire_partial.
Print Assumptions C16_expired_policy_never_expires_refuted.
Print Assumptions C17_update_all_or_nothing.
Print Assumptions C17_any_failed_domain_fails_update.
Print Assumptions C18_disjoint_documents_do_not_interfere_partial.
Print Assumptions C18_shared_role_loses_deny_refuted.
Print Assumptions C19_own_roles_only_affect_own_domain_partial.
Print Assumptions C19_foreign_role_refuted.
Print Assumptions C20_resource_domain_and_role.
