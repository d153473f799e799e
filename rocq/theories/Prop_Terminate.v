(** * Property C89: updates come to an end
    Every part of a refresh takes a bounded number of steps, and a part that has not returned can always take its
    next one: a request that was sent waits only for its answer, everything else waits for nothing or for parts that
    do not wait for it. *)
From Verif Require Import Daemon FetcherFacts PolicySimplify Prop_Assertion PubKey Jwk Prop_PubKey Prop_Jwk Prop_Init Prop_Fetcher Prop_PolicyUpdate.
From Verif Require Export GoStrings.

(** The number of steps of a history that satisfy [p]. *)
Definition count {L} (p : L -> bool) (ls : list L) : nat := length (List.filter p ls).
Lemma count_cons {L} (p : L -> bool) l ls : count p (l :: ls) = ((if p l then 1 else 0) + count p ls)%nat.
Proof. unfold count. cbn [List.filter]. by destruct (p l). Qed.
Lemma count_app {L} (p : L -> bool) l1 l2 : count p (l1 ++ l2) = (count p l1 + count p l2)%nat.
Proof. unfold count. by rewrite List.filter_app, app_length. Qed.

(** ** Fetch and FetchWithRetry *)
Definition of_call {K} (i : nat) (l : flabel K) : bool := match l with FBegin j _ | FResp j _ _ _ => Nat.eqb j i end.
Definition call_over (c : fcall) : Prop := match c with FRet _ _ | FPanic => True | _ => False end.
Definition call_cost (cf : fconf) (c : fcall) : nat :=
  match c with
  | FIdle false => 2
  | FIdle true => 2 * Z.to_nat (f_attempts cf + 1) + 2
  | FLoop k _ => 2 * Z.to_nat (f_attempts cf - k) + 1
  | FSent (Some k) _ _ _ => 2 * Z.to_nat (f_attempts cf - (k + 1)) + 2
  | FSent None _ _ _ => 1
  | FRet _ _ | FPanic => 0
  end.
Lemma fetch_measure K cf i l s s' c : fstep K cf l s = Some s' -> fs_calls s !! i = Some c ->
  exists c', fs_calls s' !! i = Some c' /\ ((if of_call i l then 1 else 0) + call_cost cf c' <= call_cost cf c)%nat.
Proof.
  intros H Hc. assert (forall j x t, fs_calls s !! j = Some x -> s' = FSt t (fs_calls s') -> forall c1, fs_calls s' = <[j := c1]> (fs_calls s) ->
    (call_cost cf c1 + 1 <= call_cost cf x)%nat -> exists c', fs_calls s' !! i = Some c' /\ ((if Nat.eqb j i then 1 else 0) + call_cost cf c' <= call_cost cf c)%nat) as Hgen.
  { intros j x t Hx _ c1 Hs Hm. rewrite Hs. destruct (Nat.eqb_spec j i) as [-> |Hne].
    - exists c1. rewrite list_lookup_insert by (by eapply lookup_lt_Some). rewrite Hx in Hc. injection Hc as ->. split; [done|lia].
    - exists c. rewrite list_lookup_insert_ne by done. split; [done|lia]. }
  destruct l as [j now|j r now pkp]; cbn [fstep of_call] in *.
  - destruct (fs_calls s !! j) as [x|] eqn:Ex; [|done]. destruct x as [[]|k last| | |]; try done.
    + injection H as <-. eapply Hgen; [exact Ex|reflexivity|reflexivity|]. cbn [call_cost]. replace (f_attempts cf - -1) with (f_attempts cf + 1) by lia. lia.
    + injection H as <-. eapply Hgen; [exact Ex|reflexivity|reflexivity|]. unfold fetch_begin. destruct (f_url_ok cf); cbn [call_cost]; lia.
    + destruct (Z.ltb_spec k (f_attempts cf)); injection H as <-; (eapply Hgen; [exact Ex|reflexivity|reflexivity|]).
      * unfold fetch_begin. destruct (f_url_ok cf); cbn [call_cost]; lia.
      * cbn [call_cost]. lia.
  - destruct (fs_calls s !! j) as [x|] eqn:Ex; [|done]. destruct x as [|k last|retry tp inm at_| |]; try done.
    destruct (fetch_response K cf tp pkp now r) as [res upd]. injection H as <-. eapply Hgen; [exact Ex|reflexivity|reflexivity|].
    destruct res as [sp|e|]; destruct retry as [k|]; cbn [call_cost]; lia.
Qed.
Theorem C89_fetch_bounded K cf i ls s s' c : frun K cf ls s = Some s' -> fs_calls s !! i = Some c ->
  exists c', fs_calls s' !! i = Some c' /\ (count (of_call i) ls + call_cost cf c' <= call_cost cf c)%nat.
Proof.
  revert s c. induction ls as [|l ls IH]; intros s c H Hc; cbn [frun] in H; [injection H as <-; exists c; split; [done|cbn; lia]|].
  destruct (fstep K cf l s) as [s1|] eqn:E; [|done]. destruct (fetch_measure _ _ _ _ _ _ _ E Hc) as (c1 & Hc1 & H1).
  destruct (IH _ _ H Hc1) as (c' & Hc' & H2). exists c'. split; [done|]. rewrite count_cons. lia.
Qed.
(** A call of FetchWithRetry takes at most 2 (attempts + 1) + 2 steps, one of Fetch 2. *)
Theorem C89_fetch_calls K cf i ls kinds s (retry : bool) : frun K cf ls (finit kinds) = Some s -> kinds !! i = Some retry ->
  (count (of_call i) ls <= if retry then 2 * Z.to_nat (f_attempts cf + 1) + 2 else 2)%nat.
Proof.
  intros H Hk. destruct (C89_fetch_bounded K cf i ls _ _ (FIdle retry) H) as (c' & _ & Hb); [cbn [finit fs_calls]; by rewrite list_lookup_fmap, Hk|].
  cbn [call_cost] in Hb. destruct retry; lia.
Qed.
Theorem C89_fetch_progress K cf s i c : fs_calls s !! i = Some c -> ~ call_over c ->
  (forall r now pkp, (exists retry tp inm at_, c = FSent retry tp inm at_) -> fstep K cf (FResp i r now pkp) s <> None) /\
  (forall now, ~ (exists retry tp inm at_, c = FSent retry tp inm at_) -> fstep K cf (FBegin i now) s <> None).
Proof.
  intros Hc Hn. split.
  - intros r now pkp (retry & tp & inm & at_ & ->). cbn [fstep]. rewrite Hc. by destruct (fetch_response K cf tp pkp now r).
  - intros now Hs. cbn [fstep]. rewrite Hc. destruct c as [[]|k last|retry tp inm at_|sp e|]; try done; [by destruct (k <? _)|]. destruct Hs. by exists retry, tp, inm, at_.
Qed.

(** ** Simplification of a document *)
Definition of_policy (i : nat) (l : slabel) : bool := match l with SWork j => Nat.eqb j i | SCancel => false end.
Definition policy_cost (w : sw) : nat := match w with SLoop r => 2 * length r + 1 | SStore _ _ r => 2 * length r + 2 | SDone _ => 0 end.
Theorem C89_simplify_bounded U i ls s s' w : srun U ls s = Some s' -> ss_work s !! i = Some w ->
  exists w', ss_work s' !! i = Some w' /\ (count (of_policy i) ls + policy_cost w' <= policy_cost w)%nat.
Proof.
  revert s w. induction ls as [|l ls IH]; intros s w H Hw; cbn [srun] in H; [injection H as <-; exists w; split; [done|cbn; lia]|].
  destruct (sstep U l s) as [s1|] eqn:E; [|done].
  assert (exists w1, ss_work s1 !! i = Some w1 /\ ((if of_policy i l then 1 else 0) + policy_cost w1 <= policy_cost w)%nat) as (w1 & Hw1 & H1).
  { destruct l as [j|]; cbn [sstep of_policy] in *; [|injection E as <-; exists w; split; [done|lia]].
    assert (forall x m b c1, ss_work s !! j = Some x -> (policy_cost c1 + 1 <= policy_cost x)%nat ->
      exists w1, ss_work (SSt m b (<[j := c1]> (ss_work s))) !! i = Some w1 /\ ((if Nat.eqb j i then 1 else 0) + policy_cost w1 <= policy_cost w)%nat) as Hgen.
    { intros x m b c1 Hx Hm. cbn [ss_work]. destruct (Nat.eqb_spec j i) as [-> |Hne].
      - exists c1. rewrite list_lookup_insert by (by eapply lookup_lt_Some). rewrite Hx in Hw. injection Hw as ->. split; [done|lia].
      - exists w. rewrite list_lookup_insert_ne by done. split; [done|lia]. }
    destruct (ss_work s !! j) as [x|] eqn:Ex; [|done]. destruct x as [[|a rest]|a found rest|e]; [| | |done].
    - injection E as <-. eapply Hgen; [done|]. cbn. lia.
    - destruct (ss_cancel s); injection E as <-; (eapply Hgen; [done|]); cbn; lia.
    - injection E as <-. eapply Hgen; [done|]. cbn. lia. }
  destruct (IH _ _ H Hw1) as (w' & Hw' & H2). exists w'. split; [done|]. rewrite count_cons. lia.
Qed.
Theorem C89_simplify_progress U s i w : ss_work s !! i = Some w -> (forall e, w <> SDone e) -> sstep U (SWork i) s <> None.
Proof. intros Hw Hn. cbn [sstep]. rewrite Hw. destruct w as [[|a rest]|a found rest|e]; try done; [by destruct (ss_cancel s)|by destruct (Hn e)]. Qed.

(** ** Filling the role cache, and Update *)
Definition of_worker (i : nat) (l : clabel) : bool := match l with CWork j _ => Nat.eqb j i | CDrop _ => false end.
Definition of_goroutine (i : nat) (l : ulabel) : bool := match l with UWork j _ => Nat.eqb j i | _ => false end.
(** At most this many steps were taken to get here. *)
Definition worker_age (w : cw) : nat :=
  match w with
  | CIdle => 0
  | CCache j rest => 1 + 2 * (length (j_script j) - length rest)
  | CSet j _ _ rest => 2 * (length (j_script j) - length rest)
  | CEnd (Some j) _ => 2 * length (j_script j) + 2
  | CEnd None _ => 1
  end.
Definition worker_ok (w : cw) : Prop :=
  match w with CCache j rest => (length rest <= length (j_script j))%nat | CSet j _ _ rest => (length rest < length (j_script j))%nat | _ => True end.
Lemma worker_step U l c c' i w : cstep U l c = Some c' -> c_work c !! i = Some w -> worker_ok w ->
  exists w', c_work c' !! i = Some w' /\ worker_ok w' /\ (worker_age w + (if of_worker i l then 1 else 0) <= worker_age w')%nat.
Proof.
  intros H Hw Hok. destruct l as [j inp|key]; cbn [cstep of_worker] in *; [|injection H as <-; exists w; split_and!; [done|done|lia]].
  assert (forall x g w1, c_work c !! j = Some x -> (worker_ok x -> worker_ok w1 /\ (worker_age x + 1 <= worker_age w1)%nat) ->
    exists w', c_work (CSt g (<[j := w1]> (c_work c))) !! i = Some w' /\ worker_ok w' /\ (worker_age w + (if Nat.eqb j i then 1 else 0) <= worker_age w')%nat) as Hgen.
  { intros x g w1 Hx Hm. cbn [c_work]. destruct (Nat.eqb_spec j i) as [-> |Hne].
    - exists w1. rewrite list_lookup_insert by (by eapply lookup_lt_Some). rewrite Hx in Hw. injection Hw as ->. by destruct (Hm Hok).
    - exists w. rewrite list_lookup_insert_ne by done. split_and!; [done|done|lia]. }
  destruct (c_work c !! j) as [x|] eqn:Ex; [|done]. destruct x as [|jb [|r rest]|jb role asss rest|jo e]; destruct inp as [[jb'|e'|]|t]; try done.
  - injection H as <-. eapply Hgen; [done|]. intros _. cbn. split; [done|lia].
  - injection H as <-. eapply Hgen; [done|]. intros _. cbn. split; [done|lia].
  - injection H as <-. eapply Hgen; [done|]. cbn [worker_ok worker_age length]. intros ?. split; [done|lia].
  - destruct (new_assertion U (r_action r) (r_resource r) (r_effect r)) as [a|e|]; [| |done]; injection H as <-; (eapply Hgen; [done|]); cbn [worker_ok worker_age length]; intros ?; (split; [lia || done|lia]).
  - injection H as <-. eapply Hgen; [done|]. cbn [worker_ok worker_age]. intros ?. split; [lia|lia].
Qed.
(** The steps of one goroutine of Update: one for the download, two for each assertion, one to return. *)
Theorem C89_update_bounded U cur n cancelled ls s i : urun U ls (uinit cur n cancelled) = Some s -> (i < n)%nat ->
  exists w, c_work (u_c s) !! i = Some w /\ (count (of_goroutine i) ls <= worker_age w)%nat /\
    (worker_age w <= match w with CCache j _ | CSet j _ _ _ | CEnd (Some j) _ => 2 * length (j_script j) + 2 | _ => 1 end)%nat.
Proof.
  intros H Hi. assert (exists w, c_work (u_c s) !! i = Some w /\ worker_ok w /\ (count (of_goroutine i) ls <= worker_age w)%nat) as (w & H1 & H2 & H3).
  { revert s H. induction ls as [|l ls IH] using rev_ind; intros s H.
    - injection H as <-. exists CIdle. cbn [uinit u_c cinit c_work]. split; [by apply lookup_replicate|]. split; [done|cbn; lia].
    - assert (forall ls1 ls2 s0, urun U (ls1 ++ ls2) s0 = match urun U ls1 s0 with Some s1 => urun U ls2 s1 | None => None end) as Happ.
      { clear. induction ls1 as [|l ls1 IH]; intros ls2 s0; [done|]. cbn [app urun]. destruct (ustep U l s0); [apply IH|done]. }
      rewrite Happ in H. destruct (urun U ls (uinit cur n cancelled)) as [s1|]; [|done]. destruct (IH s1 eq_refl) as (w & H1 & H2 & H3). cbn [urun] in H. destruct (ustep U l s1) as [s2|] eqn:E; [|done]. injection H as ->.
      rewrite count_app, count_cons. unfold count at 2. cbn [List.filter length].
      destruct l as [| |j inp|]; cbn [ustep of_goroutine] in *.
      + injection E as <-. exists w. split_and!; [done|done|lia].
      + exists w. split_and!; [|done|lia]. destruct (u_ret s1); [done|]. destruct (decide _); [|done]. by destruct (u_cancel s1); injection E as <-.
      + destruct (decide _); [|done]. destruct (cstep U (CWork j inp) (u_c s1)) as [c|] eqn:Ec; [|done]. injection E as <-. cbn [u_c].
        destruct (worker_step _ _ _ _ _ _ Ec H1 H2) as (w' & H1' & H2' & H3'). exists w'. cbn [of_worker] in H3'. split_and!; [done|done|lia].
      + exists w. split_and!; [|done|lia]. destruct (u_ret s1); [done|]. destruct (decide _); [|done]. destruct (forallb _ _); [|done]. by destruct (u_err s1); injection E as <-. }
  exists w. split; [done|]. split; [done|]. destruct w as [|j rest|j role asss rest|[j|] e]; cbn [worker_ok worker_age] in *; lia.
Qed.
(** A goroutine that was started and has not returned can go on, whatever the other goroutines do and even if Update
    has returned: while it waits for its document it can take any answer but a panic. *)
Theorem C89_goroutine_progress U s i w : c_work (u_c s) !! i = Some w -> (i < u_spawned s)%nat -> ended w = false ->
  (w = CIdle -> forall r, r <> Panic -> ustep U (UWork i (IFetch r)) s <> None) /\ (w <> CIdle -> forall t, ustep U (UWork i (ITime t)) s <> None).
Proof.
  intros Hw Hi He. split.
  - intros -> r Hr. cbn [ustep]. rewrite decide_True by done. cbn [cstep]. rewrite Hw. by destruct r.
  - intros Hn t. cbn [ustep]. rewrite decide_True by done. cbn [cstep]. rewrite Hw. destruct w as [|j [|r rest]|j role asss rest|jo e]; try done.
    destruct (C09_new_assertion_fails_iff U (r_action r) (r_resource r) (r_effect r)) as [H1 H2].
    destruct (decide (":"%char ∈ r_resource r)) as [Hd|Hd]; [destruct (H1 Hd) as [a ->]; done|by rewrite (H2 Hd)].
Qed.
(** Update itself: while it has not returned, it or one of its goroutines can go on. *)
Theorem C89_update_progress U cur n cancelled ls s : urun U ls (uinit cur n cancelled) = Some s -> u_ret s = None ->
  ustep U USpawn s <> None \/ ustep U UFinish s <> None \/ exists i w, c_work (u_c s) !! i = Some w /\ (i < u_spawned s)%nat /\ ended w = false.
Proof.
  intros H Hr. assert (u_spawned s <= length (c_work (u_c s)))%nat as Hle.
  { clear Hr. revert s H. induction ls as [|l ls IH] using rev_ind; intros s H; [injection H as <-; cbn; lia|].
    assert (forall ls1 ls2 s0, urun U (ls1 ++ ls2) s0 = match urun U ls1 s0 with Some s1 => urun U ls2 s1 | None => None end) as Happ.
    { clear. induction ls1 as [|l ls1 IH]; intros ls2 s0; [done|]. cbn [app urun]. destruct (ustep U l s0); [apply IH|done]. }
    rewrite Happ in H. destruct (urun U ls (uinit cur n cancelled)) as [s1|]; [|done]. specialize (IH s1 eq_refl). cbn [urun] in H. destruct (ustep U l s1) as [s2|] eqn:E; [|done]. injection H as ->.
    destruct l as [| |j inp|]; cbn [ustep] in E.
    - by injection E as <-.
    - destruct (u_ret s1); [done|]. destruct (decide _) as [Hd|]; [|done]. destruct (u_cancel s1); injection E as <-; cbn [u_spawned u_c] in *; lia.
    - destruct (decide _); [|done]. destruct (cstep U (CWork j inp) (u_c s1)) as [c|] eqn:Ec; [|done]. injection E as <-. cbn [u_c u_spawned].
      enough (length (c_work c) = length (c_work (u_c s1))) by lia. clear -Ec. cbn [cstep] in Ec. destruct (c_work (u_c s1) !! j) as [x|]; [|done].
      destruct x as [|jb [|r rest]|jb role asss rest|jo e]; destruct inp as [[jb'|e'|]|t]; try done; try (injection Ec as <-; cbn [c_work]; by rewrite insert_length).
      destruct (new_assertion U (r_action r) (r_resource r) (r_effect r)); [| |done]; injection Ec as <-; cbn [c_work]; by rewrite insert_length.
    - destruct (u_ret s1); [done|]. destruct (decide _); [|done]. destruct (forallb _ _); [|done]. by destruct (u_err s1); injection E as <-. }
  cbn [ustep]. rewrite Hr. destruct (decide (u_spawned s < length (c_work (u_c s)))%nat) as [Hlt|Hge]; [left; by destruct (u_cancel s)|].
  assert (u_spawned s = length (c_work (u_c s))) as Heq by lia. rewrite decide_True by done. right.
  destruct (forallb ended (c_work (u_c s))) eqn:Ef; [left; by destruct (u_err s)|]. right.
  assert (exists w, w ∈ c_work (u_c s) /\ ended w = false) as (w & Hin & Hw).
  { clear -Ef. induction (c_work (u_c s)) as [|w l IH]; [done|]. cbn [forallb] in Ef. destruct (ended w) eqn:Ew; [destruct (IH Ef) as (w' & ? & ?); exists w'; split; [by right|done]|exists w; split; [by left|done]]. }
  apply elem_of_list_lookup in Hin as [i Hi]. exists i, w. split; [done|]. split; [|done]. rewrite Heq. by eapply lookup_lt_Some.
Qed.

(** ** Public keys *)
Section keys.
  Context {V : Type} (parse : str -> option V).
  Definition of_task (i : nat) (l : plabel) : bool := Nat.eqb (task_of l) i.
  (** What is left of the loop a run of updConf is in. *)
  Definition loop_left (t : ptask (V := V)) : nat :=
    match t with PIdle => 1 | PSent _ => 1 | PStore _ todo => size todo + 1 | PSweep _ todo => size todo + 1 | PDone _ | PPanic => 0 end.
  Definition phase (t : ptask (V := V)) : nat := match t with PIdle => 0 | PSent _ => 1 | PStore _ _ => 2 | PSweep _ _ => 3 | PDone _ | PPanic => 4 end.
  (** Every step either finishes a phase or brings its end one step nearer; there are four phases. *)
  Theorem C89_keys_bounded cf i l s s' t : pstep parse cf l s = Some s' -> p_tasks s !! i = Some t ->
    exists t', p_tasks s' !! i = Some t' /\
      if of_task i l then (phase t < phase t')%nat /\ loop_left t = 1%nat \/ phase t' = phase t /\ (S (loop_left t') = loop_left t)%nat else t' = t.
  Proof.
    intros H Ht. assert (forall j x t1 s1, p_tasks s !! j = Some x -> p_tasks s1 = <[j := t1]> (p_tasks s) ->
      ((phase x < phase t1)%nat /\ loop_left x = 1%nat \/ phase t1 = phase x /\ (S (loop_left t1) = loop_left x)%nat) ->
      exists t', p_tasks s1 !! i = Some t' /\ if Nat.eqb j i then (phase t < phase t')%nat /\ loop_left t = 1%nat \/ phase t' = phase t /\ (S (loop_left t') = loop_left t)%nat else t' = t) as Hgen.
    { intros j x t1 s1 Hx Hs Hm. rewrite Hs. destruct (Nat.eqb_spec j i) as [-> |Hne].
      - exists t1. rewrite list_lookup_insert by (by eapply lookup_lt_Some). rewrite Hx in Ht. injection Ht as ->. done.
      - exists t. by rewrite list_lookup_insert_ne. }
    unfold of_task. destruct l as [j now|j r now|j k|j k|j]; cbn [pstep task_of] in *; destruct (p_tasks s !! j) as [x|] eqn:Ex; try done; destruct x as [|t0|cm todo|cm todo|e|]; try done.
    - injection H as <-. eapply Hgen; [exact Ex|reflexivity|]. left. destruct (pc_url_ok cf); cbn; lia.
    - destruct (respond parse t0 r) as [t' c] eqn:Er. injection H as <-. eapply Hgen; [exact Ex|by destruct c|]. left. split; [|done]. cbn [phase].
      assert (t' <> PIdle /\ forall x, t' <> PSent x) as [H1 H2]; [|by destruct t' as [|x|cm todo|cm todo|e|]; cbn [phase]; [done|destruct (H2 x)|lia..]].
      unfold respond in Er. destruct r as [e|st etag b]; [by injection Er as <- _|]. destruct (st =? 304); [injection Er as <- _; by destruct t0|]. destruct (negb _); [by injection Er as <- _|].
      destruct b as [| |l]; injection Er as <- _; [done..|]. by destruct (decode_keys parse l ∅).
    - destruct (todo !! k) as [v|] eqn:Ek; [|done]. injection H as <-. eapply Hgen; [exact Ex|by destruct (is_zts j)|]. right. cbn [phase loop_left]. split; [done|].
      rewrite map_size_delete_Some by done. assert (size todo <> 0%nat) by (rewrite map_size_non_empty_iff; intros ->; by rewrite lookup_empty in Ek). lia.
    - destruct (decide (k ∈ todo)) as [Hk|]; [|done]. injection H as <-. eapply Hgen; [exact Ex|by destruct (is_zts j)|]. right. cbn [phase loop_left]. split; [done|].
      rewrite size_difference by set_solver. rewrite size_singleton. assert (size todo <> 0%nat) by (rewrite size_non_empty_iff; set_solver). lia.
    - destruct (decide (todo = ∅)) as [-> |]; [|done]. injection H as <-. eapply Hgen; [exact Ex|reflexivity|]. left. cbn [phase loop_left]. rewrite map_size_empty. lia.
    - destruct (decide (todo = ∅)) as [-> |]; [|done]. injection H as <-. eapply Hgen; [exact Ex|reflexivity|]. left. cbn [phase loop_left]. rewrite size_empty. lia.
  Qed.
  Theorem C89_keys_progress cf s i t : p_tasks s !! i = Some t -> phase t <> 4%nat ->
    (forall x, t = PSent x -> forall r now, pstep parse cf (PResp i r now) s <> None) /\
    ((forall x, t <> PSent x) -> exists l, task_of l = i /\ pstep parse cf l s <> None).
  Proof.
    intros Ht Hn. split.
    - intros x -> r now. cbn [pstep]. rewrite Ht. by destruct (respond parse x r).
    - intros Hs. destruct t as [|x|cm todo|cm todo|e|]; try done.
      + exists (PBegin i 0). cbn [pstep]. by rewrite Ht.
      + by destruct (Hs x).
      + destruct (decide (todo = ∅)) as [He|He]; [exists (PNext i)|]; [split; [done|]; cbn [pstep]; by rewrite Ht, decide_True|].
        apply map_choose in He as (k & v & Hk). exists (PPut i k). split; [done|]. cbn [pstep]. by rewrite Ht, Hk.
      + destruct (decide (todo = ∅)) as [He|He]; [exists (PNext i)|]; [split; [done|]; cbn [pstep]; by rewrite Ht, decide_True|].
        apply set_choose_L in He as (k & Hk). exists (PVisit i k). split; [done|]. cbn [pstep]. by rewrite Ht, decide_True.
  Qed.
End keys.

(** ** JSON web key sets *)
Section sets.
  Context {J : Type}.
  Definition of_update (i : nat) (l : jlabel (J := J)) : bool := match l with JBegin j | JFetch j _ _ | JEnd j => Nat.eqb j i end.
  Definition update_cost (cf : jconf) (t : jtask) : nat := match t with JIdle => length (targets cf) + 2 | JRun todo _ => length todo + 1 | JRet _ => 0 end.
  Theorem C89_key_sets_bounded cf i (ls : list (jlabel (J := J))) s s' t : jrun cf ls s = Some s' -> j_tasks s !! i = Some t ->
    exists t', j_tasks s' !! i = Some t' /\ (count (of_update i) ls + update_cost cf t' = update_cost cf t)%nat.
  Proof.
    revert s t. induction ls as [|l ls IH]; intros s t H Ht; cbn [jrun] in H; [injection H as <-; exists t; split; [done|cbn; lia]|].
    destruct (jstep cf l s) as [s1|] eqn:E; [|done].
    assert (exists t1, j_tasks s1 !! i = Some t1 /\ ((if of_update i l then 1 else 0) + update_cost cf t1 = update_cost cf t)%nat) as (t1 & Ht1 & H1).
    { assert (forall j x (m : gmap str (jwk_set J)) t1, j_tasks s !! j = Some x -> (update_cost cf t1 + 1 = update_cost cf x)%nat ->
        exists t', j_tasks (JSt m (<[j := t1]> (j_tasks s))) !! i = Some t' /\ ((if Nat.eqb j i then 1 else 0) + update_cost cf t' = update_cost cf t)%nat) as Hgen.
      { intros j x m t1 Hx Hm. cbn [j_tasks]. destruct (Nat.eqb_spec j i) as [-> |Hne].
        - exists t1. rewrite list_lookup_insert by (by eapply lookup_lt_Some). rewrite Hx in Ht. injection Ht as ->. split; [done|lia].
        - exists t. rewrite list_lookup_insert_ne by done. split; [done|lia]. }
      destruct l as [j|j u r|j]; cbn [jstep of_update] in *; destruct (j_tasks s !! j) as [x|] eqn:Ex; try done; destruct x as [|[|a todo] failed|failed]; try done.
      - injection E as <-. eapply Hgen; [done|]. cbn. lia.
      - destruct (bool_decide _); [|done]. destruct r; injection E as <-; (eapply Hgen; [done|]); cbn; lia.
      - injection E as <-. eapply Hgen; [done|]. cbn. lia. }
    destruct (IH _ _ H Ht1) as (t' & Ht' & H2). exists t'. split; [done|]. rewrite count_cons. lia.
  Qed.
  Theorem C89_key_sets_progress cf (s : jst (J := J)) i t : j_tasks s !! i = Some t -> jresult t = None ->
    match t with JRun (u :: _) _ => forall r, jstep cf (JFetch i u r) s <> None | JRun [] _ => jstep cf (JEnd i) s <> None | _ => jstep cf (JBegin i) s <> None end.
  Proof.
    intros Ht Hr. destruct t as [|[|u todo] failed|failed]; cbn [jstep] in *; [by rewrite Ht|by rewrite Ht| |by destruct failed].
    intros r. rewrite Ht. rewrite bool_decide_eq_true_2 by done. by destruct r.
  Qed.
End sets.

(** ** Init: at most six steps, besides the end of the caller's context *)
Definition not_cancel (l : ilabel) : bool := match l with ICancel _ => false | _ => true end.
Definition init_cost (s : ist) : nat :=
  ((match i_one s with GStart => 3 | GPub => 2 | GPol => 1 | _ => 0 end) + (match i_two s with GStart => 2 | GJwk => 1 | _ => 0 end) + (match i_done s with None => 1 | _ => 0 end))%nat.
Theorem C89_init_bounded cf parent ls s : ireaches cf parent ls s -> (count not_cancel ls <= 6)%nat.
Proof.
  assert (forall ls s0 s, irun cf ls s0 = Some s -> (count not_cancel ls + init_cost s <= init_cost s0)%nat) as Hgen.
  { clear. induction ls as [|l ls IH]; intros s0 s H; cbn [irun] in H; [injection H as <-; cbn; lia|]. destruct (istep cf l s0) as [s1|] eqn:E; [|done]. specialize (IH _ _ H). rewrite count_cons.
    enough ((if not_cancel l then 1 else 0) + init_cost s1 <= init_cost s0)%nat by lia. clear -E. destruct s0 as [o t er pa dn]. unfold istep in E. destruct l; cbn [i_one i_two i_err i_parent i_done not_cancel] in *;
      repeat match type of E with match ?x with _ => _ end = Some _ => destruct x eqn:?; try done end; injection E as <-; unfold init_cost; repeat case_match; cbn [i_one i_two i_done] in *; simplify_eq; lia. }
  intros H. unfold ireaches in H. apply Hgen in H. enough (init_cost (iinit cf parent) <= 6)%nat by lia. unfold init_cost, iinit. cbn. destruct (ic_jwk cf); lia.
Qed.
Definition all_over {A} (p : A -> bool) (o : option (list A)) : bool := match o with Some l => forallb p l | None => false end.
(** The bounds are met: a call with two retries takes eight steps, a goroutine with three assertions eight, the update
    of three key sets five, Init six; a list of three keys with two ids is applied in eight steps. *)
Example C89_nonvacuous :
  all_over (fun c => match c with FRet _ _ => true | _ => false end) (fs_calls <$> frun K1 cf1 hist1 (finit [true; true])) = true /\ count (of_call 1) hist1 = 8%nat /\ call_cost cf1 (FIdle true) = 8%nat /\
  all_over (fun w => match w with SDone None => true | _ => false end) (ss_work <$> srun U0 ex_sched (sinit ex_doc false)) = true /\ count (of_policy 0) ex_sched = 5%nat /\
  all_over ended ((fun s => c_work (u_c s)) <$> urun U0 ex_update (uinit ∅ 2 false)) = true /\ count (of_goroutine 0) ex_update = 8%nat /\
  all_over (fun t => bool_decide (phase t = 4%nat)) ((take 1 ∘ p_tasks) <$> prun parse1 pcf1 (apply_list 0 (B "a") lA "10" "01") (pinit 1)) = true /\ count (of_task 0) (apply_list 0 (B "a") lA "10" "01") = 8%nat /\
  all_over (fun t => match t with JRet _ => true | _ => false end) (j_tasks <$> jrun cfj hj (jinit 2)) = true /\ count (of_update 1) hj = 5%nat /\
  answer all_on [IStart1; IStart2; IPub None; IJwk None; IPol None; IWait] = Some (Some None).
Proof. split_and!; vm_compute; reflexivity. Qed.

Print Assumptions C89_fetch_bounded.
Print Assumptions C89_fetch_calls.
Print Assumptions C89_fetch_progress.
Print Assumptions C89_simplify_bounded.
Print Assumptions C89_simplify_progress.
Print Assumptions C89_update_bounded.
Print Assumptions C89_goroutine_progress.
Print Assumptions C89_update_progress.
Print Assumptions C89_keys_bounded.
Print Assumptions C89_keys_progress.
Print Assumptions C89_key_sets_bounded.
Print Assumptions C89_key_sets_progress.
Print Assumptions C89_init_bounded.
