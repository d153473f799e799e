From Verif Require Export PolicyCheckProofs.

(** The call starts with current policy [c0]. *)
Definition start (roles : list str) (c0 : cache) (cancelled : bool) : st :=
  init roles {[0%nat := c0]} 0%nat cancelled.

(** A policy content that existed during the call. *)
Definition version (c0 : cache) (ls : list label) (c : cache) : Prop :=
  c = c0 \/ exists p, EnvSwap p c ∈ ls \/ EnvMutate p c ∈ ls.
Definition no_mutation (ls : list label) : Prop := forall p c, EnvMutate p c ∉ ls.
Definition no_policy_change (ls : list label) : Prop :=
  forall p c, EnvMutate p c ∉ ls /\ EnvSwap p c ∉ ls.
Definition never_cancelled (ls : list label) : Prop := EnvCancel ∉ ls.

Lemma quiescent_dec (s : st) : quiescent s \/ ~ quiescent s.
Proof.
  destruct (s_main s) as [acc|r|r] eqn:Em.
  - right. intros [[r Hr] _]. congruence.
  - right. intros [[r' Hr] _]. congruence.
  - destruct (s_disp s) as [|k| |] eqn:Ed; try (right; intros (_ & Hd & _); congruence).
    assert (forall l : list wst, Forall (fun w => w = WFin) l \/ ~ Forall (fun w => w = WFin) l) as H.
    { induction l as [|x l IH]; [left; constructor|].
      destruct x; try (right; inversion_clear 1; done).
      destruct IH as [IH|IH]; [left; by constructor|right; by inversion_clear 1]. }
    destruct (H (s_work s)) as [Hw|Hw]; [left|right].
    + split; [by exists r|]. done.
    + by intros (_ & _ & ?).
Qed.

Section facts.
  Context (U : unicode) (domain : str) (roles : list str) (action resource : str).
  Notation mt := (mt U domain action resource).
  Notation step := (step U domain roles action resource).
  Notation run := (run U domain roles action resource).
  Notation n := (length roles).

  (** [c] was the current policy at some instant of the execution [ls]. *)
  Definition current_during (c0 : cache) (cancelled : bool) (ls : list label) (c : cache) : Prop :=
    exists l1 l2 s1, ls = l1 ++ l2 /\ run l1 (start roles c0 cancelled) = Some s1 /\
      s_heap s1 !! s_cur s1 = Some c.

  Lemma find_hit l : (exists a, find mt l = Some a) <-> existsb mt l = true.
  Proof.
    induction l as [|x l IH]; cbn.
    - split; [by intros [? ?]|done].
    - destruct (mt x); cbn; [|done]. split; [done|]. by exists x.
  Qed.
  Lemma find_none_iff l : find mt l = None <-> existsb mt l = false.
  Proof. induction l as [|x l IH]; cbn; [done|]. by destruct (mt x). Qed.

  Lemma find_deny_first l a : deny_first l -> a ∈ l -> mt a = true -> is_deny a ->
    exists b, find mt l = Some b /\ is_deny b.
  Proof.
    intros (d & k & -> & Hd & Hk) Hin Hm Ha.
    assert (a ∈ d) as Hind.
    { apply elem_of_app in Hin as [?|Hin]; [done|]. rewrite Forall_forall in Hk. by specialize (Hk a Hin). }
    clear Hin Hk. induction Hd as [|x d Hx _ IH]; [by apply elem_of_nil in Hind|].
    cbn. destruct (mt x) eqn:Hmx; [by exists x|]. apply IH.
    apply elem_of_cons in Hind as [->|?]; [congruence|done].
  Qed.

  Lemma start_hinv (Q : ptr -> cache -> Prop) c0 c : Q 0%nat c0 -> hinv domain roles Q (start roles c0 c).
  Proof.
    intros HQ. unfold start, init, hinv. cbn.
    split; [|split; [|split]].
    - intros p c' Hp. apply lookup_singleton_Some in Hp as [<- <-]. done.
    - rewrite lookup_singleton. by eexists.
    - done.
    - intros i v role Hi. by apply lookup_replicate_inv in Hi.
  Qed.

  (** ** What the returned value says about the values read *)
  Lemma returned_inv c0 c ls s r : run ls (start roles c0 c) = Some s -> returned s r ->
    match r with
    | Ok acc =>
        acc <> [] /\
        (forall i, (i < n)%nat -> nomatch U domain action resource (s_reads s) i
                      \/ explained U domain action resource (s_reads s) i None) /\
        exists idx, NoDup idx /\ acc = map (role_of roles) idx /\
          forall i, i ∈ idx <-> (i < n)%nat /\ exists l a, s_reads s !! i = Some (Some (Some l)) /\ find mt l = Some a
    | Err e =>
        (e = ErrNoMatch /\ forall i, (i < n)%nat -> nomatch U domain action resource (s_reads s) i) \/
        (exists i, (i < n)%nat /\ explained U domain action resource (s_reads s) i (Some e)) \/
        (e = ErrCanceled /\ (c = true \/ EnvCancel ∈ ls))
    | Panic => False
    end.
  Proof.
    intros Hrun Hret.
    destruct (run_inv _ _ _ _ _ _ _ _ _ _ _ (inv_init U domain roles action resource _ _ c) Hrun) as (recvd & pend & Hinv).
    assert (Hec : (c || existsb is_cancel ls)%bool = true -> c = true \/ EnvCancel ∈ ls).
    { intros H. apply orb_true_iff in H as [?|H]; [by left|right].
      apply existsb_exists in H as (l & Hl & Hx). apply elem_of_list_In. by destruct l. }
    revert Hinv Hec. generalize (c || existsb is_cancel ls)%bool. intros ec Hinv Hec.
    destruct s as [h cu ca rp d wg wk ch cl m p rd]. unfold returned in Hret. cbn in Hret. subst m.
    destruct Hinv as (Hlw & Hlr & Hnd & Hch & Hrec & Hpend & Hw & Hca & Hd & Hm & Hp).
    assert (Hclosed : cl = true -> forall i, (i < n)%nat -> wk !! i = Some WFin).
    { intros ->. destruct d; cbn in Hd; [by destruct Hd as (_ & _ & ?)|by destruct Hd as (_ & _ & _ & _ & ?)
        |by destruct Hd as (_ & _ & _ & ?)|]. destruct Hd as (_ & Hall & _). intros i Hi.
      destruct (lookup_lt_is_Some_2 wk i) as [w Hwi]; [lia|]. rewrite Hwi. by rewrite (Hall i w Hwi). }
    destruct r as [acc|e|]; cbn [minv rinv] in Hm; [| |done].
    - destruct Hm as (Hcl & -> & Hne & Hnone & ->). specialize (Hclosed Hcl). rewrite app_nil_r in *.
      assert (Hin : forall i, i ∈ map fst recvd -> explained U domain action resource rd i None).
      { intros i Hi. apply elem_of_list_In, in_map_iff in Hi as ([j e] & <- & Hx). cbn.
        apply elem_of_list_In in Hx. rewrite Forall_forall in Hnone. pose proof (Hnone _ Hx) as He. cbn in He. subst e.
        destruct (Hrec _ Hx) as [_ [He|[? _]]]; [exact He|done]. }
      cbn [s_reads]. split; [done|]. split.
      + intros i Hi. pose proof (Hw i _ (Hclosed i Hi)) as Hwi. cbn in Hwi.
        destruct Hwi as [[_ ?]|Hwi]; [by left|right; by apply Hin].
      + exists (map fst recvd). split; [done|]. split; [by rewrite map_map|].
        intros i. split.
        * intros Hi. destruct (Hin i Hi) as (l & a & Hl & Hf & _). split; [|by exists l, a].
          apply lookup_lt_Some in Hl. lia.
        * intros [Hi (l & a & Hl & Hf)]. pose proof (Hw i _ (Hclosed i Hi)) as Hwi. cbn in Hwi.
          destruct Hwi as [[_ [Hx|(l' & Hx & Hf')]]|Hwi]; [congruence|congruence|done].
    - cbn [s_reads]. destruct Hm as [(-> & -> & -> & Hcl)|(i & pre & -> & Hpre)].
      + left. split; [done|]. intros i Hi. pose proof (Hw i _ (Hclosed Hcl i Hi)) as Hwi. cbn in Hwi.
        destruct Hwi as [[_ ?]|Hwi]; [done|by apply elem_of_nil in Hwi].
      + right. destruct (Hrec (i, Some e)) as [Hi [He|[[= ->] ?]]].
        * apply elem_of_app. right. by left.
        * left. exists i. done.
        * right. auto.
  Qed.

  (** ** Linearisation: all reads come from the cache loaded at one instant *)
  Lemma run_app l1 l2 s : run (l1 ++ l2) s = match run l1 s with Some s1 => run l2 s1 | None => None end.
  Proof. revert s. induction l1 as [|l l1 IH]; intros s; [done|]. cbn. destruct (step l s); [apply IH|done]. Qed.

  Lemma step_rp l s s' : step l s = Some s' -> l <> LLoad -> s_rp s' = s_rp s.
  Proof.
    destruct s as [h cu ca rp d wg wk ch cl m p rd]. intros Hst Hl.
    unfold PolicyCheck.step in Hst. cbn [s_panic s_heap s_cur s_disp s_wg s_closed] in Hst. destruct p; [done|].
    destruct l as [|q c|q c| | | |i|]; try done.
    - by injection Hst as <-.
    - destruct (h !! q); [done|]. by injection Hst as <-.
    - destruct (h !! q); [|done]. by injection Hst as <-.
    - destruct d as [|k| |]; try done. destruct (k <? n)%nat; by injection Hst as <-.
    - destruct d; try done. destruct (wg =? 0)%nat; [|done]. destruct cl; by injection Hst as <-.
    - unfold work_step in Hst. cbn [s_work s_cancel s_rp s_heap s_closed s_chan s_wg] in Hst.
      destruct (wk !! i) as [w|]; [|done]. destruct (roles !! i) as [role|]; [|done].
      destruct w as [| | |l|a l|e| |]; try done; try by injection Hst as <-.
      + destruct rp as [q|]; [|done]. by injection Hst as <-.
      + destruct l; by injection Hst as <-.
      + destruct cl; [by injection Hst as <-|]. destruct (length ch <? n)%nat; [|done]. by injection Hst as <-.
    - unfold main_step in Hst. cbn [s_main s_chan s_closed] in Hst.
      destruct m as [acc|r|r]; [| |done].
      + destruct ch as [|[r [e|]] ch]; [destruct cl; [|done]|..]; by injection Hst as <-.
      + by injection Hst as <-.
  Qed.

  Lemma rp_loaded ls s s' : s_rp s = None -> run ls s = Some s' -> s_rp s' <> None ->
    exists l1 l2 s1 s2, ls = l1 ++ LLoad :: l2 /\ run l1 s = Some s1 /\ step LLoad s1 = Some s2 /\ run l2 s2 = Some s'.
  Proof.
    revert s. induction ls as [|l ls IH]; intros s Hn Hr Hs.
    - injection Hr as <-. done.
    - cbn in Hr. destruct (step l s) as [sa|] eqn:E; [|done].
      assert (l = LLoad \/ l <> LLoad) as [->|Hl] by (destruct l; auto).
      + exists [], ls, s, sa. done.
      + destruct (IH sa) as (l1 & l2 & s1 & s2 & -> & H1 & H2 & H3); [by rewrite (step_rp _ _ _ E)|done|done|].
        exists (l :: l1), l2, s1, s2. split; [done|]. cbn. by rewrite E.
  Qed.

  Definition pinned (p0 : ptr) (cc : cache) (s : st) : Prop :=
    s_rp s = Some p0 /\ s_heap s !! p0 = Some cc /\ s_disp s <> DInit /\
    forall i v role, s_reads s !! i = Some (Some v) -> roles !! i = Some role -> cc !! role_key domain role = v.

  Lemma step_pinned p0 cc l s s' : step l s = Some s' -> (forall p c, l <> EnvMutate p c) ->
    pinned p0 cc s -> pinned p0 cc s'.
  Proof.
    destruct s as [h cu ca rp d wg wk ch cl m p rd]. intros Hst Hl (Hrp & Hh & Hd & Hrd).
    cbn [s_rp s_heap s_disp s_reads] in *.
    unfold PolicyCheck.step in Hst. cbn [s_panic s_heap s_cur s_disp s_wg s_closed] in Hst. destruct p; [done|].
    destruct l as [|q c|q c| | | |i|].
    - by injection Hst as <-.
    - destruct (h !! q) eqn:E; [done|]. injection Hst as <-. split; [done|]. split; [|done].
      cbn. rewrite lookup_insert_ne; [done|]. congruence.
    - by destruct (Hl q c).
    - by destruct d.
    - destruct d as [|k| |]; try done. destruct (k <? n)%nat; by injection Hst as <-.
    - destruct d; try done. destruct (wg =? 0)%nat; [|done]. destruct cl; by injection Hst as <-.
    - unfold work_step in Hst. cbn [s_work s_cancel s_rp s_heap s_closed s_chan s_wg] in Hst.
      destruct (wk !! i) as [w|]; [|done]. destruct (roles !! i) as [role|] eqn:Hr; [|done].
      destruct w as [| | |l|a l|e| |]; try done; try by injection Hst as <-.
      + rewrite Hrp in Hst. injection Hst as <-. split; [done|]. split; [done|]. split; [done|]. cbn [s_reads set_work set_read].
        intros j v role' Hj Hrole'. destruct (decide (j = i)) as [->|Hne].
        * rewrite Hr in Hrole'. injection Hrole' as <-.
          assert (Hlt : (i < length rd)%nat).
          { apply lookup_lt_Some in Hj. by rewrite insert_length in Hj. }
          rewrite list_lookup_insert in Hj by done. injection Hj as <-. unfold deref. by rewrite Hh.
        * rewrite list_lookup_insert_ne in Hj by done. by eapply Hrd.
      + destruct l; by injection Hst as <-.
      + destruct cl; [by injection Hst as <-|]. destruct (length ch <? n)%nat; [|done]. by injection Hst as <-.
    - unfold main_step in Hst. cbn [s_main s_chan s_closed] in Hst.
      destruct m as [acc|r|r]; [| |done].
      + destruct ch as [|[r [e|]] ch]; [destruct cl; [|done]|..]; by injection Hst as <-.
      + by injection Hst as <-.
  Qed.

  Lemma run_pinned p0 cc ls s s' : run ls s = Some s' -> no_mutation ls -> pinned p0 cc s -> pinned p0 cc s'.
  Proof.
    revert s. induction ls as [|l ls IH]; intros s Hr Hn Hp; [by injection Hr as <-|].
    cbn in Hr. destruct (step l s) as [s1|] eqn:E; [|done]. eapply IH; [exact Hr| |].
    - intros p c Hin. apply (Hn p c). by right.
    - eapply step_pinned; [exact E| |exact Hp]. intros p c ->. apply (Hn p c). left.
  Qed.

  Lemma returned_loaded c0 c ls s r : run ls (start roles c0 c) = Some s -> returned s r -> s_rp s <> None.
  Proof.
    intros Hrun Hret Hrp.
    destruct (run_inv _ _ _ _ _ _ _ _ _ _ _ (inv_init U domain roles action resource _ _ c) Hrun) as (recvd & pend & Hinv).
    destruct s as [h cu ca rp d wg wk ch cl m p rd]. unfold returned in Hret. cbn in Hret, Hrp. subst m rp.
    destruct Hinv as (Hlw & Hlr & Hnd & Hch & Hrec & Hpend & Hw & Hca & Hd & Hm & Hp).
    destruct d; cbn in Hd; [|by destruct Hd as (? & _)..].
    destruct Hd as (_ & Hall & ->).
    assert (Hnil : recvd = []).
    { destruct recvd as [|[i e] recvd]; [done|]. exfalso.
      destruct (Hrec (i, e)) as [Hi _]; [by left|]. cbn in Hi.
      destruct (lookup_lt_is_Some_2 wk i) as [w Hwi]; [lia|]. pose proof (Hw i w Hwi) as Hx.
      rewrite (Hall i w Hwi) in Hx. destruct Hx as [_ Hx]. apply Hx. cbn. left. }
    subst recvd. destruct r as [acc|e|]; cbn in Hm; [by destruct Hm| |done].
    destruct Hm as [(_ & _ & _ & ?)|(i & pre & Hpre & _)]; [done|]. by destruct pre.
  Qed.

  Lemma snapshot c0 c ls s r : run ls (start roles c0 c) = Some s -> returned s r -> no_mutation ls ->
    exists cc, current_during c0 c ls cc /\
      forall i v role, s_reads s !! i = Some (Some v) -> roles !! i = Some role -> cc !! role_key domain role = v.
  Proof.
    intros Hrun Hret Hnm. pose proof (returned_loaded _ _ _ _ _ Hrun Hret) as Hrp.
    destruct (rp_loaded ls (start roles c0 c) s) as (l1 & l2 & s1 & s2 & -> & H1 & H2 & H3); [done..|].
    pose proof (inv_init U domain roles action resource {[0%nat := c0]} 0%nat c) as Hi0.
    assert (Hh1 : hinv domain roles (fun _ _ => True) s1).
    { eapply (run_hinv U domain roles action resource); [exact Hi0| | |exact H1].
      - by apply start_hinv.
      - apply Forall_forall. intros l _. by destruct l. }
    destruct (run_inv _ _ _ _ _ _ _ _ _ _ _ Hi0 H1) as (r1 & p1 & Hi1).
    pose proof (inv_dinit _ _ _ _ _ _ _ _ _ Hi1) as Hdi.
    destruct Hh1 as (_ & [cc Hcc] & _ & _). exists cc. split.
    - exists l1, (LLoad :: l2), s1. done.
    - assert (pinned (s_cur s1) cc s2) as Hpin.
      { clear H3 Hi1 H1. destruct s1 as [h cu ca rp d wg wk ch cl m p rd]. unfold PolicyCheck.step in H2.
        cbn [s_panic s_disp s_cur] in *. destruct p; [done|]. destruct d; [|done..]. injection H2 as <-.
        destruct (Hdi eq_refl) as [_ Hno]. split; [done|]. split; [done|]. split; [done|].
        intros i v role Hi. by apply Hno in Hi. }
      apply (run_pinned _ _ l2 s2 s H3) in Hpin; [by destruct Hpin as (_ & _ & _ & ?)|].
      intros p c' Hin. apply (Hnm p c'). apply elem_of_app. right. by right.
  Qed.

  (** Reads come from some version that existed during the call. *)
  Lemma reads_version c0 c ls s : run ls (start roles c0 c) = Some s ->
    forall i v role, s_reads s !! i = Some (Some v) -> roles !! i = Some role ->
      exists cc, version c0 ls cc /\ cc !! role_key domain role = v.
  Proof.
    intros Hrun i v role Hi Hrole.
    assert (hinv domain roles (fun _ cc => version c0 ls cc) s) as (_ & _ & _ & Hrd).
    { eapply (run_hinv U domain roles action resource);
        [exact (inv_init U domain roles action resource {[0%nat := c0]} 0%nat c)| | |exact Hrun].
      - apply start_hinv. by left.
      - apply Forall_forall. intros l Hl. destruct l as [|p cc|p cc| | | | |]; try done; right; exists p; auto. }
    destruct (Hrd i v role Hi Hrole) as (p & cc & _ & Hv & Hcc). by exists cc.
  Qed.

  (** ** Results in terms of the specification *)
  Lemma nomatch_spec (c : cache) rd i role : roles !! i = Some role ->
    (forall v, rd !! i = Some (Some v) -> c !! role_key domain role = v) ->
    nomatch U domain action resource rd i -> role_hitb U domain action resource c role = false.
  Proof.
    intros Hr Hv Hn. unfold role_hitb. change (key_of domain role) with (role_key domain role).
    destruct Hn as [Hn|(l & Hl & Hf)].
    - by rewrite (Hv _ Hn).
    - rewrite (Hv _ Hl). by apply find_none_iff.
  Qed.
  Lemma hitb_false (c : cache) role : role_hitb U domain action resource c role = false ->
    ~ role_denies U domain action resource c role /\ ~ role_allows U domain action resource c role.
  Proof.
    unfold role_hitb. intros H.
    assert (forall a, holds_assertion domain c role a -> hits U domain action resource a -> False) as Hx.
    { intros a (l & Hl & Hin) Ha. rewrite Hl in H. unfold hits in Ha.
      assert (existsb (fun a => a_matches U a domain action resource) l = true) as Ht; [|congruence].
      apply existsb_exists. exists a. split; [by apply elem_of_list_In|done]. }
    split; intros (a & Hh & Ha & _); by apply (Hx a).
  Qed.
  Lemma find_in l a : find mt l = Some a -> a ∈ l /\ mt a = true.
  Proof. intros H. apply find_some in H as [H1 H2]. split; [by apply elem_of_list_In|done]. Qed.

  Lemma deny_found (c : cache) role l : deny_first_cache c -> c !! role_key domain role = Some l ->
    role_denies U domain action resource c role -> exists b, find mt l = Some b /\ is_deny b.
  Proof.
    intros Hdf Hl (a & (l' & Hl' & Hin) & Ha & Hd). change (key_of domain role) with (role_key domain role) in Hl'.
    rewrite Hl in Hl'. injection Hl' as <-. eapply find_deny_first; [by eapply Hdf|done|done|done].
  Qed.

  (** Success: every requested role was read from some version, nothing denied. *)
  Lemma deny_never_ok c0 c ls s r role :
    run ls (start roles c0 c) = Some s -> returned s r -> role ∈ roles ->
    (forall cc, version c0 ls cc -> deny_first_cache cc /\ role_denies U domain action resource cc role) ->
    exists e, r = Err e.
  Proof.
    intros Hrun Hret Hin Hall. pose proof (returned_inv _ _ _ _ _ Hrun Hret) as Hr.
    destruct r as [acc|e|]; [|by exists e|done]. exfalso.
    destruct Hr as (_ & Hw & _). apply elem_of_list_lookup in Hin as [i Hi].
    assert (Hlt : (i < n)%nat) by (by eapply lookup_lt_Some).
    destruct (Hw i Hlt) as [[Hn|(l & Hl & Hf)]|(l & a & Hl & Hf & He)].
    - destruct (reads_version _ _ _ _ Hrun _ _ _ Hn Hi) as (cc & Hv & Hcc).
      destruct (Hall cc Hv) as [_ (a & (l & Hl & _) & _)].
      change (key_of domain role) with (role_key domain role) in Hl. congruence.
    - destruct (reads_version _ _ _ _ Hrun _ _ _ Hl Hi) as (cc & Hv & Hcc).
      destruct (Hall cc Hv) as [Hdf Hden]. destruct (deny_found _ _ _ Hdf Hcc Hden) as (b & Hb & _). congruence.
    - destruct (reads_version _ _ _ _ Hrun _ _ _ Hl Hi) as (cc & Hv & Hcc).
      destruct (Hall cc Hv) as [Hdf Hden]. destruct (deny_found _ _ _ Hdf Hcc Hden) as (b & Hb & Hbd).
      rewrite Hf in Hb. injection Hb as <-. unfold is_deny in Hbd. congruence.
  Qed.

  Lemma map_role_filter (f : str -> bool) (l : list str) (k : nat) :
    (forall i r, l !! i = Some r -> roles !! (k + i)%nat = Some r) ->
    map (role_of roles) (List.filter (fun i => f (role_of roles i)) (seq k (length l))) = List.filter f l.
  Proof.
    revert k. induction l as [|x l IH]; intros k Hk; [done|]. cbn [length seq List.filter].
    assert (role_of roles k = x) as Hx.
    { unfold role_of. specialize (Hk 0%nat x eq_refl). rewrite Nat.add_0_r in Hk. by rewrite Hk. }
    rewrite Hx. assert (IH' := IH (S k)). rewrite <- IH'.
    - destruct (f x); cbn; by rewrite ?Hx.
    - intros i r Hi. rewrite <- (Hk (S i) r Hi). f_equal. lia.
  Qed.

  Definition answer_ok (cc : cache) (cancellable : Prop) (r : outcome (list str)) : Prop :=
    match r with
    | Ok acc =>
        acc <> [] /\ acc ≡ₚ List.filter (role_hitb U domain action resource cc) roles /\
        (forall role l a, role ∈ roles -> cc !! role_key domain role = Some l -> find mt l = Some a -> is_allow a)
    | Err e =>
        (e = ErrNoMatch /\ forall role, role ∈ roles -> role_hitb U domain action resource cc role = false) \/
        (exists role l a, role ∈ roles /\ cc !! role_key domain role = Some l /\ find mt l = Some a /\ a_effect a = Some e) \/
        (e = ErrCanceled /\ cancellable)
    | Panic => False
    end.

  Lemma answer_reads c0 c ls s r : run ls (start roles c0 c) = Some s -> returned s r -> no_mutation ls ->
    exists cc, current_during c0 c ls cc /\
      (forall i v role, s_reads s !! i = Some (Some v) -> roles !! i = Some role -> cc !! role_key domain role = v) /\
      answer_ok cc (c = true \/ EnvCancel ∈ ls) r.
  Proof.
    intros Hrun Hret Hnm. destruct (snapshot _ _ _ _ _ Hrun Hret Hnm) as (cc & Hcur & Hrd).
    exists cc. split; [done|]. split; [done|]. pose proof (returned_inv _ _ _ _ _ Hrun Hret) as Hr.
    destruct r as [acc|e|]; cbn; [| |done].
    - destruct Hr as (Hne & Hw & idx & Hnd & -> & Hidx). split; [done|]. split.
      + rewrite <- (map_role_filter (role_hitb U domain action resource cc) roles 0) by done.
        apply Permutation_map. apply NoDup_Permutation; [done| |].
        * apply NoDup_ListNoDup. apply List.NoDup_filter, seq_NoDup.
        * intros i. rewrite Hidx. rewrite elem_of_list_In, filter_In, in_seq.
          assert (forall i, (i < n)%nat -> (role_hitb U domain action resource cc (role_of roles i) = true <->
                    exists l a, s_reads s !! i = Some (Some (Some l)) /\ find mt l = Some a)) as Hkey.
          { clear i. intros i Hi. destruct (lookup_lt_is_Some_2 roles i Hi) as [role Hrole].
            unfold role_of. rewrite Hrole. unfold role_hitb.
            change (key_of domain role) with (role_key domain role). split.
            - intros Hh. destruct (cc !! role_key domain role) as [l|] eqn:El; [|done].
              destruct (Hw i Hi) as [Hn|(l' & a & Hl & Hf & _)]; [|by exists l', a].
              exfalso. destruct Hn as [Hn|(l' & Hl' & Hf)].
              + specialize (Hrd _ _ _ Hn Hrole). congruence.
              + specialize (Hrd _ _ _ Hl' Hrole). rewrite El in Hrd. injection Hrd as ->.
                apply find_none_iff in Hf. unfold PolicyCheck.mt in Hf. congruence.
            - intros (l & a & Hl & Hf). rewrite (Hrd _ _ _ Hl Hrole). apply find_hit. by exists a. }
          split.
          -- intros [Hi Hx]. split; [lia|]. by apply Hkey.
          -- intros [[_ Hi] Hx]. cbn in Hi. split; [done|]. by apply Hkey.
      + intros role l a Hin Hl Hf. apply elem_of_list_lookup in Hin as [i Hi].
        assert (Hlt : (i < n)%nat) by (by eapply lookup_lt_Some).
        destruct (Hw i Hlt) as [[Hn|(l' & Hl' & Hf')]|(l' & a' & Hl' & Hf' & He)].
        * specialize (Hrd _ _ _ Hn Hi). congruence.
        * specialize (Hrd _ _ _ Hl' Hi). congruence.
        * specialize (Hrd _ _ _ Hl' Hi). rewrite Hl in Hrd. injection Hrd as ->. rewrite Hf in Hf'.
          injection Hf' as ->. unfold is_allow. done.
    - destruct Hr as [[-> Hn]|[(i & Hi & l & a & Hl & Hf & He)|Hc]].
      + left. split; [done|]. intros role Hin. apply elem_of_list_lookup in Hin as [i Hi].
        eapply nomatch_spec; [exact Hi| |].
        * intros v Hv. by eapply Hrd.
        * apply Hn. by eapply lookup_lt_Some.
      + right. left. destruct (lookup_lt_is_Some_2 roles i Hi) as [role Hrole].
        exists role, l, a. split; [by eapply elem_of_list_lookup_2|]. split; [|done].
        by eapply Hrd.
      + right. by right.
  Qed.

  Lemma answer c0 c ls s r : run ls (start roles c0 c) = Some s -> returned s r -> no_mutation ls ->
    exists cc, current_during c0 c ls cc /\ answer_ok cc (c = true \/ EnvCancel ∈ ls) r.
  Proof.
    intros H1 H2 H3. destruct (answer_reads _ _ _ _ _ H1 H2 H3) as (cc & ? & _ & ?). by exists cc.
  Qed.

  (** If the policy never changes, it is the current one during the call. *)
  Lemma step_same_heap l s s' : step l s = Some s' -> (forall p c, l <> EnvMutate p c /\ l <> EnvSwap p c) ->
    s_heap s' = s_heap s /\ s_cur s' = s_cur s.
  Proof.
    destruct s as [h cu ca rp d wg wk ch cl m p rd]. intros Hst Hl.
    unfold PolicyCheck.step in Hst. cbn [s_panic s_heap s_cur s_disp s_wg s_closed] in Hst. destruct p; [done|].
    destruct l as [|q c|q c| | | |i|].
    - by injection Hst as <-.
    - by destruct (Hl q c).
    - by destruct (Hl q c).
    - destruct d; try done. by injection Hst as <-.
    - destruct d as [|k| |]; try done. destruct (k <? n)%nat; by injection Hst as <-.
    - destruct d; try done. destruct (wg =? 0)%nat; [|done]. destruct cl; by injection Hst as <-.
    - unfold work_step in Hst. cbn [s_work s_cancel s_rp s_heap s_closed s_chan s_wg] in Hst.
      destruct (wk !! i) as [w|]; [|done]. destruct (roles !! i) as [role|]; [|done].
      destruct w as [| | |l|a l|e| |]; try done; try by injection Hst as <-.
      + destruct rp as [q|]; [|done]. by injection Hst as <-.
      + destruct l; by injection Hst as <-.
      + destruct cl; [by injection Hst as <-|]. destruct (length ch <? n)%nat; [|done]. by injection Hst as <-.
    - unfold main_step in Hst. cbn [s_main s_chan s_closed] in Hst.
      destruct m as [acc|r|r]; [| |done].
      + destruct ch as [|[r [e|]] ch]; [destruct cl; [|done]|..]; by injection Hst as <-.
      + by injection Hst as <-.
  Qed.
  Lemma run_same_heap ls s s' : run ls s = Some s' -> no_policy_change ls ->
    s_heap s' = s_heap s /\ s_cur s' = s_cur s.
  Proof.
    revert s. induction ls as [|l ls IH]; intros s Hr Hn; [by injection Hr as <-|].
    cbn in Hr. destruct (step l s) as [s1|] eqn:E; [|done].
    destruct (step_same_heap _ _ _ E) as [H1 H2].
    { intros p c. split; intros ->; destruct (Hn p c) as [Ha Hb]; [apply Ha|apply Hb]; left. }
    destruct (IH s1 Hr) as [H3 H4]; [|split; congruence].
    intros p c. destruct (Hn p c) as [Ha Hb]. split; intros Hin; [apply Ha|apply Hb]; by right.
  Qed.
  Lemma current_unchanged c0 c ls cc : no_policy_change ls -> current_during c0 c ls cc -> cc = c0.
  Proof.
    intros Hn (l1 & l2 & s1 & -> & H1 & Hcc).
    destruct (run_same_heap l1 _ _ H1) as [Hh Hc].
    { intros p c'. destruct (Hn p c') as [Ha Hb]. split; intros Hin; [apply Ha|apply Hb]; apply elem_of_app; by left. }
    rewrite Hh, Hc in Hcc. cbn in Hcc. rewrite lookup_singleton in Hcc. by injection Hcc as <-.
  Qed.

  (** A context cancelled before the call. *)
  Definition dead (s : st) : Prop :=
    s_cancel s = true /\ (forall i, s_work s !! i <> Some WGet) /\
    (forall i l, s_work s !! i <> Some (WScan l)) /\ (forall i a l, s_work s !! i <> Some (WEval a l)) /\
    (forall i v, s_reads s !! i <> Some (Some v)).
  Lemma step_dead l s s' : step l s = Some s' -> dead s -> dead s'.
  Proof.
    destruct s as [h cu ca rp d wg wk ch cl m p rd]. intros Hst (Hc & Hg & Hs & He & Hr).
    cbn [s_cancel s_work s_reads] in *. subst ca.
    assert (Hup : forall i w, (w = WInit \/ w = WRet \/ w = WFin \/ exists e, w = WSend e) -> 
      (forall j, <[i := w]> wk !! j <> Some WGet) /\ (forall j l, <[i := w]> wk !! j <> Some (WScan l)) /\
      (forall j a l, <[i := w]> wk !! j <> Some (WEval a l))).
    { intros i w Hw. repeat split; intros j; intros;
        (destruct (decide (j = i)) as [->|Hne];
         [destruct (decide (i < length wk)%nat);
          [rewrite list_lookup_insert by done; destruct Hw as [->|[->|[->|[? ->]]]]; done
          |rewrite list_insert_ge by lia; auto]
         |rewrite list_lookup_insert_ne by done; auto]). }
    unfold PolicyCheck.step in Hst. cbn [s_panic s_heap s_cur s_disp s_wg s_closed] in Hst. destruct p; [done|].
    destruct l as [|q c|q c| | | |i|].
    - by injection Hst as <-.
    - destruct (h !! q); [done|]. by injection Hst as <-.
    - destruct (h !! q); [|done]. by injection Hst as <-.
    - destruct d; try done. by injection Hst as <-.
    - destruct d as [|k| |]; try done. destruct (k <? n)%nat; [|by injection Hst as <-]. injection Hst as <-.
      destruct (Hup k WInit) as (? & ? & ?); [by left|]. done.
    - destruct d; try done. destruct (wg =? 0)%nat; [|done]. destruct cl; by injection Hst as <-.
    - unfold work_step in Hst. cbn [s_work s_cancel s_rp s_heap s_closed s_chan s_wg] in Hst.
      destruct (wk !! i) as [w|] eqn:Ew; [|done]. destruct (roles !! i) as [role|]; [|done].
      destruct w as [| | |l|a l|e| |]; try done.
      + injection Hst as <-. destruct (Hup i (WSend (Some ErrCanceled))) as (? & ? & ?); [by eauto|]. done.
      + by destruct (Hg i).
      + by destruct (Hs i l).
      + by destruct (He i a l).
      + destruct cl; [by injection Hst as <-|]. destruct (length ch <? n)%nat; [|done]. injection Hst as <-.
        destruct (Hup i WRet) as (? & ? & ?); [by eauto|]. done.
      + injection Hst as <-. destruct (Hup i WFin) as (? & ? & ?); [by eauto|]. done.
    - unfold main_step in Hst. cbn [s_main s_chan s_closed] in Hst.
      destruct m as [acc|r|r]; [| |done].
      + destruct ch as [|[r [e|]] ch]; [destruct cl; [|done]|..]; by injection Hst as <-.
      + by injection Hst as <-.
  Qed.
  Lemma run_dead ls s s' : run ls s = Some s' -> dead s -> dead s'.
  Proof.
    revert s. induction ls as [|l ls IH]; intros s Hr Hd; [by injection Hr as <-|].
    cbn in Hr. destruct (step l s) as [s1|] eqn:E; [|done]. eapply IH; [done|]. by eapply step_dead.
  Qed.
  Lemma precancelled c0 ls s r : run ls (start roles c0 true) = Some s -> returned s r ->
    r = Err ErrCanceled \/ (roles = [] /\ r = Err ErrNoMatch).
  Proof.
    intros Hrun Hret.
    assert (dead s) as (_ & _ & _ & _ & Hr).
    { eapply run_dead; [exact Hrun|]. unfold start, init, dead. cbn [s_cancel s_work s_reads].
      split; [done|]. repeat split; intros; intros Hx; by apply lookup_replicate_inv in Hx. }
    pose proof (returned_inv _ _ _ _ _ Hrun Hret) as Hi. destruct r as [acc|e|]; [| |done].
    - exfalso. destruct Hi as (Hne & _ & idx & _ & -> & Hidx). destruct idx as [|i idx]; [done|].
      destruct (proj1 (Hidx i)) as (_ & l & a & Hl & _); [by left|]. by apply Hr in Hl.
    - destruct Hi as [[-> Hn]|[(i & _ & l & a & Hl & _)|[-> _]]]; [|by apply Hr in Hl|by left].
      right. split; [|done]. destruct (decide (roles = [])) as [|Hne]; [done|].
      destruct (Hn 0%nat) as [Hx|(l & Hx & _)]; [destruct roles; [done|cbn; lia]|by apply Hr in Hx|by apply Hr in Hx].
  Qed.

  Lemma never_panics c0 c ls s : run ls (start roles c0 c) = Some s -> s_panic s = false.
  Proof.
    intros Hrun.
    destruct (run_inv _ _ _ _ _ _ _ _ _ _ _ (inv_init U domain roles action resource _ _ c) Hrun) as (recvd & pend & Hinv).
    destruct s. by destruct Hinv as (_ & _ & _ & _ & _ & _ & _ & _ & _ & _ & ?).
  Qed.
  Lemma maximal_quiescent c0 c ls s : run ls (start roles c0 c) = Some s ->
    (forall l, is_env l = false -> step l s = None) -> quiescent s.
  Proof.
    intros Hrun Hmax.
    destruct (run_inv _ _ _ _ _ _ _ _ _ _ _ (inv_init U domain roles action resource _ _ c) Hrun) as (recvd & pend & Hinv).
    destruct (quiescent_dec s) as [Hq|Hq]; [done|].
    destruct (progress _ _ _ _ _ _ _ _ _ Hinv Hq) as (l & s' & Hl & Hs). by rewrite Hmax in Hs.
  Qed.

  Lemma version_mono c0 l1 l2 cc : version c0 l1 cc -> version c0 (l1 ++ l2) cc.
  Proof. intros [->|(p & [H|H])]; [by left|right..]; exists p; [left|right]; apply elem_of_app; by left. Qed.

  Lemma current_version c0 c ls cc : current_during c0 c ls cc -> version c0 ls cc.
  Proof.
    intros (l1 & l2 & s1 & -> & H1 & Hcc). apply version_mono.
    assert (hinv domain roles (fun _ cc => version c0 l1 cc) s1) as (Hh & _).
    { eapply (run_hinv U domain roles action resource);
        [exact (inv_init U domain roles action resource {[0%nat := c0]} 0%nat c)| | |exact H1].
      - apply start_hinv. by left.
      - apply Forall_forall. intros l Hl. destruct l as [|p c'|p c'| | | | |]; try done; right; exists p; auto. }
    by eapply Hh.
  Qed.

  Lemma hitb_true (c : cache) role : role_hitb U domain action resource c role = true ->
    exists l a, c !! role_key domain role = Some l /\ find mt l = Some a.
  Proof.
    unfold role_hitb. change (key_of domain role) with (role_key domain role). intros H.
    destruct (c !! role_key domain role) as [l|] eqn:E; [|done]. exists l.
    apply find_hit in H as [a Ha]. by exists a.
  Qed.

  Lemma answer_ok_spec cc P acc : deny_first_cache cc -> answer_ok cc P (Ok acc) ->
    (forall role, role ∈ acc -> role ∈ roles /\ role_allows U domain action resource cc role) /\
    (forall role, role ∈ roles -> ~ role_denies U domain action resource cc role).
  Proof.
    intros Hdf (Hne & Hperm & Hall). split.
    - intros role Hin. rewrite Hperm, elem_of_list_In, filter_In in Hin. destruct Hin as [Hin Hh].
      apply elem_of_list_In in Hin. split; [done|].
      apply hitb_true in Hh as (l & a & Hl & Hf). pose proof (Hall _ _ _ Hin Hl Hf) as Ha.
      apply find_in in Hf as [Hf Hm]. exists a. split; [by exists l|]. done.
    - intros role Hin Hd. pose proof Hd as (a & (l & Hl & _) & _).
      destruct (deny_found _ _ _ Hdf Hl Hd) as (b & Hb & Hbd). apply Hbd. by eapply Hall.
  Qed.

  Lemma success_spec c0 c ls s acc : run ls (start roles c0 c) = Some s -> returned s (Ok acc) ->
    no_mutation ls -> (forall cc, version c0 ls cc -> deny_first_cache cc) ->
    exists cc, current_during c0 c ls cc /\
      acc <> [] /\ acc ≡ₚ List.filter (role_hitb U domain action resource cc) roles /\
      (forall role, role ∈ acc -> role ∈ roles /\ role_allows U domain action resource cc role) /\
      (forall role, role ∈ roles -> ~ role_denies U domain action resource cc role).
  Proof.
    intros Hrun Hret Hnm Hdf. destruct (answer _ _ _ _ _ Hrun Hret Hnm) as (cc & Hcur & Hans).
    exists cc. split; [done|]. pose proof Hans as (? & ? & _). split; [done|]. split; [done|].
    eapply answer_ok_spec; [|exact Hans]. by eapply Hdf, current_version.
  Qed.

  Lemma success_refresh c0 c ls s acc : run ls (start roles c0 c) = Some s -> returned s (Ok acc) ->
    acc <> [] /\ forall role, role ∈ acc -> role ∈ roles /\
      exists cc, version c0 ls cc /\ role_allows U domain action resource cc role.
  Proof.
    intros Hrun Hret. destruct (returned_inv _ _ _ _ _ Hrun Hret) as (Hne & Hw & idx & Hnd & -> & Hidx).
    split; [done|]. intros role Hin. apply elem_of_list_In, in_map_iff in Hin as (i & <- & Hi).
    apply elem_of_list_In, Hidx in Hi as (Hi & l & a & Hl & Hf).
    destruct (lookup_lt_is_Some_2 roles i Hi) as [role Hrole].
    assert (role_of roles i = role) as -> by (unfold role_of; by rewrite Hrole).
    split; [by eapply elem_of_list_lookup_2|].
    destruct (reads_version _ _ _ _ Hrun _ _ _ Hl Hrole) as (cc & Hv & Hcc). exists cc. split; [done|].
    destruct (Hw i Hi) as [[Hn|(l' & Hl' & Hf')]|(l' & a' & Hl' & Hf' & He)]; [congruence|congruence|].
    assert (l' = l) as -> by congruence. assert (a' = a) as -> by congruence.
    apply find_in in Hf as [Hf Hm]. exists a. split; [by exists l|]. done.
  Qed.

  Lemma default_deny c0 ls s r : run ls (start roles c0 false) = Some s -> returned s r ->
    never_cancelled ls -> (forall cc, version c0 ls cc -> spec_no_match U domain action resource cc roles) ->
    r = Err ErrNoMatch.
  Proof.
    intros Hrun Hret Hnc Hall. pose proof (returned_inv _ _ _ _ _ Hrun Hret) as Hr.
    assert (forall i l a, (i < n)%nat -> s_reads s !! i = Some (Some (Some l)) -> find mt l = Some a -> False) as Hx.
    { intros i l a Hi Hl Hf. destruct (lookup_lt_is_Some_2 roles i Hi) as [role Hrole].
      destruct (reads_version _ _ _ _ Hrun _ _ _ Hl Hrole) as (cc & Hv & Hcc).
      destruct (Hall cc Hv role) as [H1 H2]; [by eapply elem_of_list_lookup_2|].
      apply find_in in Hf as [Hf Hm]. destruct (a_effect a) as [e|] eqn:Ee.
      - apply H1. exists a. split; [by exists l|]. split; [done|]. unfold is_deny. by rewrite Ee.
      - apply H2. exists a. split; [by exists l|]. done. }
    destruct r as [acc|e|]; [| |done].
    - exfalso. destruct Hr as (Hne & _ & idx & _ & -> & Hidx). destruct idx as [|i idx]; [done|].
      destruct (proj1 (Hidx i)) as (Hi & l & a & Hl & Hf); [by left|]. by eapply Hx.
    - destruct Hr as [[-> _]|[(i & Hi & l & a & Hl & Hf & _)|[-> [?|?]]]]; [done| |done|done].
      exfalso. by eapply Hx.
  Qed.

  Lemma schedule_independent c0 ls1 s1 r1 ls2 s2 r2 :
    run ls1 (start roles c0 false) = Some s1 -> returned s1 r1 ->
    run ls2 (start roles c0 false) = Some s2 -> returned s2 r2 ->
    never_cancelled ls1 -> never_cancelled ls2 -> no_policy_change ls1 -> no_policy_change ls2 ->
    (forall key l a, c0 !! key = Some l -> a ∈ l -> a_effect a = None \/ a_effect a = Some ErrDenyByPolicy) ->
    (exists acc1 acc2, r1 = Ok acc1 /\ r2 = Ok acc2 /\ acc1 ≡ₚ acc2) \/
    (r1 = r2 /\ (r1 = Err ErrDenyByPolicy \/ r1 = Err ErrNoMatch)).
  Proof.
    intros Hrun1 Hret1 Hrun2 Hret2 Hnc1 Hnc2 Hnp1 Hnp2 Heff.
    assert (forall ls, no_policy_change ls -> no_mutation ls) as Hnm.
    { intros ls H p c. by destruct (H p c). }
    assert (forall ls s r, run ls (start roles c0 false) = Some s -> returned s r -> never_cancelled ls ->
              no_policy_change ls -> answer_ok c0 False r) as Hans.
    { intros ls s r Hrun Hret Hnc Hnp. destruct (answer _ _ _ _ _ Hrun Hret (Hnm _ Hnp)) as (cc & Hcur & Ha).
      apply current_unchanged in Hcur as ->; [|done].
      destruct r as [acc|e|]; [done| |done]. destruct Ha as [?|[?|[? [?|?]]]]; [by left|by right; left|done|done]. }
    pose proof (Hans _ _ _ Hrun1 Hret1 Hnc1 Hnp1) as A1. pose proof (Hans _ _ _ Hrun2 Hret2 Hnc2 Hnp2) as A2.
    assert (forall e, answer_ok c0 False (Err e) -> (e = ErrNoMatch /\ forall role, role ∈ roles -> role_hitb U domain action resource c0 role = false)
       \/ (e = ErrDenyByPolicy /\ exists role l a, role ∈ roles /\ c0 !! role_key domain role = Some l /\ find mt l = Some a /\ is_deny a)) as Herr.
    { intros e [?|[(role & l & a & Hin & Hl & Hf & He)|[_ []]]]; [by left|right].
      pose proof (find_in _ _ Hf) as [Hal _]. destruct (Heff _ _ _ Hl Hal) as [Hx|Hx]; [congruence|].
      split; [congruence|]. exists role, l, a. unfold is_deny. repeat split; try done. congruence. }
    assert (forall acc, answer_ok c0 False (Ok acc) -> exists role, role ∈ roles /\ role_hitb U domain action resource c0 role = true) as Hokhit.
    { intros acc (Hne & Hperm & _). destruct acc as [|role acc]; [done|]. exists role.
      assert (role ∈ List.filter (role_hitb U domain action resource c0) roles) as Hin by (rewrite <- Hperm; left).
      apply elem_of_list_In, filter_In in Hin as [H1 H2]. split; [by apply elem_of_list_In|done]. }
    assert (forall e acc, answer_ok c0 False (Err e) -> answer_ok c0 False (Ok acc) -> False) as Hcontra.
    { intros e acc He Hok. destruct (Herr e He) as [[_ Hn]|(_ & role & l & a & Hin & Hl & Hf & Hd)].
      - destruct (Hokhit _ Hok) as (role & Hin & Hh). by rewrite (Hn role Hin) in Hh.
      - destruct Hok as (_ & _ & Hall). apply Hd. by eapply Hall. }
    destruct r1 as [acc1|e1|]; [| |done]; (destruct r2 as [acc2|e2|]; [| |done]).
    - left. exists acc1, acc2. split; [done|]. split; [done|].
      destruct A1 as (_ & -> & _). by destruct A2 as (_ & -> & _).
    - exfalso. by eapply Hcontra.
    - exfalso. by eapply Hcontra.
    - right. destruct (Herr _ A1) as [[-> Hn]|(-> & role & l & a & Hin & Hl & Hf & Hd)];
        (destruct (Herr _ A2) as [[-> Hn']|(-> & role' & l' & a' & Hin' & Hl' & Hf' & Hd')]).
      + split; [done|by right].
      + exfalso. specialize (Hn role' Hin'). unfold role_hitb in Hn.
        change (key_of domain role') with (role_key domain role') in Hn. rewrite Hl' in Hn.
        apply find_none_iff in Hn. congruence.
      + exfalso. specialize (Hn' role Hin). unfold role_hitb in Hn'.
        change (key_of domain role) with (role_key domain role) in Hn'. rewrite Hl in Hn'.
        apply find_none_iff in Hn'. congruence.
      + split; [done|by left].
  Qed.

  Lemma cancellation_closed c0 c ls s r : run ls (start roles c0 c) = Some s -> returned s r ->
    no_mutation ls -> (forall cc, version c0 ls cc -> deny_first_cache cc) ->
    (exists acc cc, r = Ok acc /\ current_during c0 c ls cc /\ spec_allowed U domain action resource cc roles /\
       acc ≡ₚ List.filter (role_hitb U domain action resource cc) roles) \/ exists e, r = Err e.
  Proof.
    intros Hrun Hret Hnm Hdf. destruct r as [acc|e|].
    - left. destruct (success_spec _ _ _ _ _ Hrun Hret Hnm Hdf) as (cc & Hcur & Hne & Hperm & Hal & Hnd).
      exists acc, cc. split; [done|]. split; [done|]. split; [|done]. split; [done|].
      destruct acc as [|role acc]; [done|]. exists role. apply Hal. left.
    - right. by exists e.
    - by pose proof (returned_inv _ _ _ _ _ Hrun Hret).
  Qed.

  Lemma single_snapshot c0 c ls s r : run ls (start roles c0 c) = Some s -> returned s r -> no_mutation ls ->
    exists cc, current_during c0 c ls cc /\
      (forall i v role, s_reads s !! i = Some (Some v) -> roles !! i = Some role -> cc !! key_of domain role = v) /\
      answer_ok cc (c = true \/ EnvCancel ∈ ls) r.
  Proof.
    intros Hrun Hret Hnm. destruct (answer_reads _ _ _ _ _ Hrun Hret Hnm) as (cc & H1 & H2 & H3).
    exists cc. split; [done|]. split; [exact H2|done].
  Qed.

  Lemma steps_bound_uniform c0 c ls s k : run ls (start roles c0 c) = Some s ->
    (forall cc key l, version c0 ls cc -> cc !! key = Some l -> (length l <= k)%nat) ->
    (sys_steps ls <= (7 + 2 * k) * n + 5)%nat.
  Proof.
    intros Hrun Hk. pose proof (steps_bound _ _ _ _ _ _ _ _ _ _ Hrun) as Hb.
    assert (read_total s <= k * n)%nat as Hr; [|nia].
    assert (length (s_reads s) = n) as Hlen.
    { destruct (run_inv _ _ _ _ _ _ _ _ _ _ _ (inv_init U domain roles action resource _ _ c) Hrun) as (recvd & pend & Hinv).
      destruct s. by destruct Hinv as (_ & ? & _). }
    unfold read_total. rewrite <- Hlen.
    assert (Forall (fun o => rlen o <= k)%nat (s_reads s)) as Hf.
    { apply Forall_forall. intros o Ho. apply elem_of_list_lookup in Ho as [i Hi].
      destruct o as [[l|]|]; cbn; [|lia|lia].
      destruct (lookup_lt_is_Some_2 roles i) as [role Hrole]; [rewrite <- Hlen; by eapply lookup_lt_Some|].
      destruct (reads_version _ _ _ _ Hrun _ _ _ Hi Hrole) as (cc & Hv & Hcc). by eapply Hk. }
    clear - Hf. induction Hf as [|o l Ho _ IH]; cbn [foldr List.length]; nia.
  Qed.
End facts.
