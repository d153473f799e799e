(** * Property C100: data races in the policy daemon *)
From Verif Require Export MemRace.

Section claims.
  Context (doms : list nat) (e : exec loc role) (He : daemon_execution doms e).
  Let Hm := de_mem _ _ He.

  (** What a fetcher reads through its pointer is whole, in every execution. *)
  Theorem C100_copies_are_whole i j g k v : ev_at e i g (ARead Plain (LTag k) v) -> v = VObj k /\ ~ race e i j.
  Proof.
    intros Hi. destruct (tag_read _ _ He _ _ _ _ Hi) as (-> & Hw). split; [done|].
    intros (g1 & g2 & a & b & H1 & H2 & _ & Hcf & _ & _ & Hn). destruct (ev_at_fun _ _ _ _ _ _ Hi H1) as (<- & <-). apply Hn.
    destruct Hcf as (x & v & u & [Ha|Ha] & Hb & [Hc|Hc]); try discriminate. injection Ha as <- <-. eapply Hw. by eexists _, _.
  Qed.
  (** Fetch and FetchWithRetry dereference nil only if no copy was stored before: after a published
      Update, and so in the expired hook, they do not. *)
  Theorem C100_nil_only_before_the_first_copy i g d : ev_at e i g (ARead Sync (LCopy d) VNil) -> forall w v, writes_at e w (LCopy d) v -> ~ hb e w i /\ (i < w)%nat.
  Proof.
    intros Hi w v Hw. split; [intros Hb; by eapply (not_nil_after _ _ He)|].
    destruct Hi as (rf & Hi). destruct (ge_sync _ _ Hm _ _ _ _ _ _ Hi eq_refl (fun x => x)) as (_ & Hl).
    destruct (Nat.lt_trichotomy w i) as [Hlt|[-> |?]]; [|exfalso|done].
    - exfalso. pose proof (Hl _ _ Hw Hlt) as H. destruct rf as [w'|]; [|done]. pose proof (ge_value _ _ Hm _ _ _ _ _ _ Hi eq_refl) as Hv.
      by destruct (copy_writes _ _ He _ _ _ Hv) as (_ & k & _ & ? & _).
    - destruct Hw as (g' & a & H & Ha). destruct (ev_at_fun _ _ _ _ _ _ H (ex_intro _ rf Hi)) as (_ & ->). done.
  Qed.
  Theorem C100_no_nil_after_an_update i g d v s g' o c : ev_at e s g' (ASwap LCur o (VObj c)) -> hb e s i -> d ∈ doms ->
    ev_at e i g (ARead Sync (LCopy d) v) -> v <> VNil.
  Proof.
    intros Hs Hb Hd Hi. pose proof (swap_upd _ _ He _ _ _ _ Hs) as Hr. destruct (ev_trace _ _ He _ _ _ _ Hs Hr) as (t & t2 & Ht & E).
    inversion Ht as [|cs t' Hu| | | |]; subst t'. destruct (updates_swap _ _ _ _ _ _ _ Hu E) as (ws & (_ & _ & P3 & P4) & _).
    rewrite <- P3 in Hd. apply elem_of_list_fmap in Hd as ([h d'] & -> & Hd). destruct (P4 _ _ Hd) as (Hgo & Hj).
    apply proj_before in Hgo as (m & _ & Hgo). apply proj_before in Hj as (j & Hjs & Hj).
    destruct (copies_kept _ _ He _ _ _ c d' Hj) as (w & k & Hw & Hwj); [right; by eexists _, _|].
    eapply (not_nil_after _ _ He); [exact Hi|exact Hw|]. eapply hb_trans; [exact Hwj|]. eapply hb_trans; [exact (hb_seq _ _ _ _ _ _ Hj Hs Hjs)|done].
  Qed.
  Theorem C100_no_nil_in_hooks i g d v : runs e g RHook -> d ∈ doms -> ev_at e i g (ARead Sync (LCopy d) v) -> v <> VNil.
  Proof.
    intros [(_ & ?)|(s & g' & Hs)] Hd Hi; [done|].
    assert (Hr : runs e g' RUpd).
    { destruct (ev_role _ _ He _ _ _ Hs) as (r & Hr & Hc). destruct r; cbn in Hc; try done; try (by destruct Hc as [Hc|Hc]); try (by destruct Hc as [(? & Hc)|Hc]); try (by destruct Hc as (? & ? & Hc)). }
    destruct (ev_trace _ _ He _ _ _ _ Hs Hr) as (t & t2 & Ht & E). inversion Ht as [|cs t' Hu| | | |]; subst t'.
    destruct (updates_hook _ _ _ _ _ _ Hu E d Hd) as (h & c & Hgo & Hj).
    apply proj_before in Hgo as (m & _ & Hgo). apply proj_before in Hj as (j & Hjs & Hj).
    destruct (copies_kept _ _ He _ _ _ c d Hj) as (w & k & Hw & Hwj); [right; by eexists _, _|].
    eapply (not_nil_after _ _ He); [exact Hi|exact Hw|]. eapply hb_trans; [exact Hwj|].
    eapply hb_trans; [exact (hb_seq _ _ _ _ _ _ Hj Hs Hjs)|by eapply hb_go].
  Qed.

  (** One goroutine calls Update, no call is cancelled, no hook has run: then there is no data race at
      all, whatever is fetched, checked and read meanwhile. *)
  Definition one_loop : Prop := exists g0, forall g, runs e g RUpd -> g = g0.
  Definition no_cancel : Prop := forall i g, ~ ev_at e i g AQuit.
  Definition no_hook : Prop := forall i g a, ev_at e i g a -> ~ runs e g RHook.
  Definition touches (a : macc) (x : loc) : Prop := exists v, reads a = Some (x, v) \/ writes a = Some (x, v).
  Definition ordered (i j : nat) : Prop := hb e i j \/ hb e j i.
  Lemma same_goroutine i j g a b : ev_at e i g a -> ev_at e j g b -> i <> j -> ordered i j.
  Proof. intros Hi Hj Hne. destruct (Nat.lt_trichotomy i j) as [?|[?|?]]; [left|done|right]; eapply hb_seq; eauto. Qed.
  Ltac roles Hc := cbn in Hc; try done; try (by destruct Hc as [Hc|Hc]); try (by destruct Hc as [(? & Hc)|Hc]); try (by destruct Hc as (? & ? & Hc)); try (by destruct Hc as (? & Hc)).

  Lemma fetchers_ordered i j g1 g2 a b c1 c2 d : one_loop -> no_cancel -> runs e g1 (RFetch c1 d) -> runs e g2 (RFetch c2 d) ->
    ev_at e i g1 a -> ev_at e j g2 b -> i <> j -> ordered i j.
  Proof.
    intros (g0 & H1) Hq Hr1 Hr2 Hi Hj Hne. destruct (decide (g1 = g2)) as [-> |Hg]; [by eapply same_goroutine|].
    destruct Hr1 as [(_ & ?)|(m1 & h1 & Hm1)]; [done|]. destruct Hr2 as [(_ & ?)|(m2 & h2 & Hm2)]; [done|].
    destruct (fetch_started _ _ He _ _ _ _ _ Hm1) as (Hu1 & k1 & Hk1 & _). destruct (fetch_started _ _ He _ _ _ _ _ Hm2) as (Hu2 & k2 & Hk2 & _).
    pose proof (H1 _ Hu1) as ->. pose proof (H1 _ Hu2) as ->.
    destruct (de_trace _ _ He _ _ Hu1) as (t & Ht & (kr & E)). inversion Ht as [|cs t' Hu| | | |]; subst t'.
    assert (Hcc : c1 <> c2).
    { intros ->. apply Hg. eapply (updates_one_fetch _ _ _ _ _ _ _ Hu); rewrite E, elem_of_app; left; by eapply proj_elem. }
    assert (Hord : forall ga gb ca cb m m' i j a b, ev_at e m g0 (AGo ga (RFetch ca d)) -> ev_at e m' g0 (AGo gb (RFetch cb d)) -> ca <> cb -> (m < m')%nat ->
              ev_at e i ga a -> ev_at e j gb b -> hb e i j).
    { intros ga gb ca cb m m' i' j' a' b' Hma Hmb Hne' Hlt Hi' Hj'.
      destruct (proj_at _ _ _ _ Hmb) as (p2 & E2).
      assert (E3 : t = proj g0 (take m' e) ++ AGo gb (RFetch cb d) :: (p2 ++ kr)) by (by rewrite E, E2, <- app_assoc).
      destruct (updates_joined _ _ _ _ _ ga ca d _ _ _ Hu E3) as (ok & Hok).
      - assert (Hma' : ev_at (take m' e) m g0 (AGo ga (RFetch ca d))).
        { destruct Hma as (rf & Hma). exists rf. by rewrite lookup_take. }
        by eapply proj_elem.
      - done.
      - intros Hin. apply proj_before in Hin as (? & _ & Hin). by eapply Hq.
      - apply proj_before in Hok as (n & Hn & Hok). eapply hb_trans; [by eapply hb_join|]. eapply hb_trans; [exact (hb_seq _ _ _ _ _ _ Hok Hmb Hn)|by eapply hb_go]. }
    destruct (Nat.lt_trichotomy m1 m2) as [Hlt|[-> |Hlt]].
    - left. exact (Hord g1 g2 c1 c2 m1 m2 _ _ _ _ Hm1 Hm2 Hcc Hlt Hi Hj).
    - destruct (ev_at_fun _ _ _ _ _ _ Hm1 Hm2) as (_ & Heq). by injection Heq.
    - right. exact (Hord g2 g1 c2 c1 m2 m1 _ _ _ _ Hm2 Hm1 (not_eq_sym Hcc) Hlt Hj Hi).
  Qed.
  Lemma copy_fetch i g a d : no_hook -> ev_at e i g a -> touches a (LCopy d) -> exists c, runs e g (RFetch c d).
  Proof.
    intros Hh Hi (v & Ha). destruct (copy_role _ _ He _ _ _ _ _ Hi Ha I) as (r & Hr & [-> |(c & d' & ->)]); [by apply Hh in Hi|].
    exists c. pose proof (ev_can _ _ He _ _ _ _ Hi Hr) as Hc. cbn in Hc.
    destruct a as [k x u|k x u|x u u'| | |]; destruct Ha as [Ha|Ha]; try discriminate; injection Ha as -> ->; destruct Hc as [Hc|Hc]; try discriminate; try destruct k; cbn in Hc; try done.
    all: by (subst; done) || by destruct Hc as (-> & _).
  Qed.
  Lemma cell_read_ordered i g o v k u : one_loop -> no_hook -> ev_at e i g (ARead Plain (LCell o) v) -> writes_at e k (LCell o) u -> hb e k i.
  Proof.
    intros (g0 & H1) Hh Hi Hk. destruct (ev_role _ _ He _ _ _ Hi) as (r & Hr & Hc). destruct r; roles Hc.
    - destruct (ev_trace _ _ He _ _ _ _ Hi Hr) as (t & t2 & Ht & E). inversion Ht as [|cs t' Hu| | | |]; subst t'.
      destruct (updates_cell _ _ _ _ _ _ _ Hu E) as [(c & Hs)|Hs]; apply proj_before in Hs as (l & Hl & Hs).
      + destruct (cell_read _ _ He _ _ _ _ _ _ Hs (fun x => x) eq_refl Hi Hl) as (_ & H). eauto.
      + destruct Hs as (rf & Hs). pose proof (ge_value _ _ Hm _ _ _ _ _ _ Hs eq_refl) as Hv. destruct rf as [w|].
        * destruct (cur_writes _ _ He _ _ Hv) as (g' & o' & c & Hw & Eo & Hu'). injection Eo as <-.
          pose proof (H1 _ Hr) as ->. pose proof (H1 _ Hu') as ->.
          assert (Hwl : (w < l)%nat).
          { destruct (Nat.lt_trichotomy w l) as [?|[-> |?]]; [done|exfalso|exfalso].
            - destruct (ev_at_fun _ _ _ _ _ _ Hw (ex_intro _ _ Hs)) as (_ & ?). done.
            - destruct (ge_read _ _ Hm _ _ _ _ _ _ Hs eq_refl I) as (Hn & _). apply Hn. eapply hb_seq; [by exists (Some w)|exact Hw|done]. }
          destruct (swapped _ _ He _ _ _ _ Hw) as ((k1 & Hk1 & Hb1) & _).
          assert (k = k1) as ->. { refine (de_fresh _ _ He k k1 (LCell o) u (VObj o) Hk _). by eexists _, _. }
          eapply hb_trans; [exact Hb1|]. eapply hb_seq; [exact Hw|exact Hi|lia].
        * injection Hv as ->. by apply (de_first _ _ He) in Hk.
    - destruct (ev_trace _ _ He _ _ _ _ Hi Hr) as (t & t2 & Ht & E). inversion Ht as [| | |t' Hck| |]; subst t'.
      pose proof (check_cell _ _ _ _ _ Hck E) as Hl. apply proj_before in Hl as (l & Hli & Hl).
      destruct (cell_read _ _ He _ _ _ _ _ _ Hl (fun x => x) eq_refl Hi Hli) as (_ & H). eauto.
    - by apply Hh in Hi.
  Qed.
  Lemma touched_ordered i j g1 g2 a b x u : one_loop -> no_cancel -> no_hook -> ev_at e i g1 a -> ev_at e j g2 b -> i <> j ->
    touches a x -> writes b = Some (x, u) -> plain a \/ plain b -> ordered i j.
  Proof.
    intros H1 Hq Hh Hi Hj Hne Ha Hb Hp. assert (Hwj : writes_at e j x u) by (by eexists _, _). destruct x as [d|n| |c|c d].
    - destruct (copy_fetch _ _ _ _ Hh Hi Ha) as (c1 & Hr1). destruct (copy_fetch _ _ _ d Hh Hj) as (c2 & Hr2); [exists u; by right|]. exact (fetchers_ordered _ _ _ _ _ _ _ _ _ H1 Hq Hr1 Hr2 Hi Hj Hne).
    - destruct Ha as (v & [Ha|Ha]).
      + right. destruct (copy_role _ _ He _ _ _ _ _ Hi (or_introl Ha) I) as (r & Hr & Hrr). pose proof (ev_can _ _ He _ _ _ _ Hi Hr) as Hc.
        assert (Ea : a = ARead Plain (LTag n) v).
        { destruct a as [k x w|k x w|x w w'| | |]; try discriminate; injection Ha as -> ->; destruct Hrr as [-> |(? & ? & ->)]; cbn in Hc; try destruct k; try done; (destruct Hc as [Hc|Hc]; [try destruct Hc; done|try done]). }
        subst a. destruct (tag_read _ _ He _ _ _ _ Hi) as (_ & Hw). eauto.
      + exfalso. apply Hne. refine (de_fresh _ _ He i j (LTag n) v u _ Hwj). by eexists _, _.
    - destruct H1 as (g0 & H1). destruct (cur_writes _ _ He _ _ Hwj) as (g' & o & c & Hj' & _ & Hu).
      destruct (ev_at_fun _ _ _ _ _ _ Hj Hj') as (<- & ->). destruct Hp as [Hp|[]]. pose proof (H1 _ Hu) as ->.
      destruct (ev_role _ _ He _ _ _ Hi) as (r & Hr & Hc). assert (r = RUpd) as ->.
      { destruct Ha as (v & [Ha|Ha]); destruct a as [[] x w|[] x w|x w w'| | |]; try done; cbn in Ha; injection Ha as -> ->; destruct r; roles Hc; by apply Hh in Hi. }
      pose proof (H1 _ Hr) as ->. by eapply same_goroutine.
    - destruct Ha as (v & [Ha|Ha]).
      + right. assert (Ea : a = ARead Plain (LCell c) v).
        { destruct (ev_role _ _ He _ _ _ Hi) as (r & Hr & Hc). destruct a as [[] x w|[] x w|x w w'| | |]; try done; cbn in Ha; injection Ha as -> ->; try done; destruct r; roles Hc. }
        subst a. eapply cell_read_ordered; eauto.
      + exfalso. apply Hne. refine (de_fresh _ _ He i j (LCell c) v u _ Hwj). by eexists _, _.
    - destruct (entry_writes _ _ He _ _ _ _ Hwj) as (g' & Hj' & -> & Hr2). destruct (ev_at_fun _ _ _ _ _ _ Hj Hj') as (<- & ->).
      destruct Ha as (v & [Ha|Ha]).
      + right. destruct (ev_role _ _ He _ _ _ Hi) as (r & Hr & Hc).
        assert (Hck : checker e g1 /\ a = ARead Plain (LEntry c d) v).
        { destruct a as [[] x w|[] x w|x w w'| | |]; try done; cbn in Ha; injection Ha as -> ->; destruct r; roles Hc; (split; [|done]); [by left|right; by eexists]. }
        destruct Hck as (Hck & ->). destruct (C99_checks_do_not_race _ _ He i j _ _ Hck Hi) as (_ & _).
        destruct (check_use_known _ _ He _ _ _ c Hck Hi) as (l & g3 & o & Hl & Hb1 & ->); [right; eauto|].
        destruct (cell_known _ _ He _ _ _ _ Hl (fun x => x) eq_refl) as (_ & _ & H & _). eapply hb_trans; [|exact Hb1]. eauto.
      + destruct (entry_writes _ _ He i c d v) as (g3 & Hi' & _ & Hr1); [by eexists _, _|]. exact (fetchers_ordered _ _ _ _ _ _ _ _ _ H1 Hq Hr1 Hr2 Hi' Hj Hne).
  Qed.
  Theorem C100_one_loop_has_no_race_partial i j : one_loop -> no_cancel -> no_hook -> ~ race e i j.
  Proof.
    intros H1 Hq Hh (g & g' & a & b & Hi & Hj & Hne & (x & v & u & Ha & Hb & Hw) & Hp & Hn1 & Hn2).
    enough (ordered i j) as [?|?] by done. destruct Hw as [Hw|Hw].
    - destruct (touched_ordered j i g' g b a x v H1 Hq Hh Hj Hi (not_eq_sym Hne)) as [?|?]; [by exists u|done|tauto|by right|by left].
    - eapply touched_ordered; [done..|exact Hi|exact Hj|done|by exists v|exact Hw|done].
  Qed.
End claims.

(** ** Witnesses
    A call of Update is cancelled (Init, when another daemon fails) and leaves its fetch running; Start
    then calls Update.  Two fetches of one domain run at the same time and there is no copy yet.  The
    fetch of Update 2 sees by an ordinary read that there is a copy, but its atomic load is before the
    store of the other in the order of the atomic operations, finds nil, and the next line dereferences it. *)
Definition eF : exec loc role :=
  [ Ev 0 (AGo 1%nat RUpd) None; Ev 1 (AWrite Plain (LCell 1) (VObj 1)) None; Ev 1 (AGo 2%nat (RFetch 1 0)) None; Ev 1 AQuit None; Ev 0 (AJoin 1%nat false) None;
    Ev 0 (AGo 3%nat RUpd) None; Ev 3 (AWrite Plain (LCell 2) (VObj 2)) None; Ev 3 (AGo 4%nat (RFetch 2 0)) None;
    Ev 4 (ARead Plain (LCopy 0) (VObj 5)) (Some 12%nat); Ev 4 (ARead Sync (LCopy 0) VNil) None;
    Ev 2 (ARead Plain (LCopy 0) VNil) None; Ev 2 (AWrite Plain (LTag 5) (VObj 5)) None; Ev 2 (AWrite Sync (LCopy 0) (VObj 5)) None ]%nat.
Definition tF : list (list bool) := Eval vm_compute in closure eF.
Lemma eF_execution : daemon_execution [0%nat] eF.
Proof.
  apply (ids_ok_execution _ _ (tab tF)); [by vm_compute|by vm_compute| |].
  - intros g r H. listed H. destruct H as [H|[H|[H|[H|[H|[]]]]]]; injection H as -> ->; projected.
    + eexists. split; [apply T_main|done]. by repeat constructor.
    + exists ((AWrite Plain (LCell 1) (VObj 1) :: gos 1 [(2, 0)] ++ [AQuit]) ++ [])%nat. split; [|done].
      eapply T_upd. apply (Us_cons _ 1%nat []); [|constructor|apply not_elem_of_nil]. apply U_cancel, NoDup_singleton.
    + exists (ARead Plain (LCopy 0) VNil :: keep 0 5)%nat. split; [eapply T_fetch, W_skip, R_end; [apply F_first|done]|done].
    + exists ((AWrite Plain (LCell 2) (VObj 2) :: gos 2 [(4, 0)] ++ joins [false] [(4, 0)]) ++ [])%nat. split; [|by eexists].
      eapply T_upd. apply (Us_cons _ 2%nat []); [|constructor|apply not_elem_of_nil]. apply U_fail; [apply NoDup_singleton|done].
    + exists (held_nil 0 5)%nat. split; [eapply T_fetch, (W_fail _ _ _ FPanic); [apply R_end; [apply F_nil|done]|done]|done].
  - intros h ok c d Hw Hs. listed Hw. destruct Hw as [Hw|[]]. injection Hw as -> ->. listed Hs. destruct Hs as [H|[H|[H|[H|[H|[]]]]]]; discriminate.
Qed.
Lemma tab_hb e t i j : closed e (tab t) = true -> tab t i j = false -> ~ hb e i j.
Proof. intros Hc Ht Hb. apply (closed_hb _ _ _ _ Hc) in Hb. congruence. Qed.
Lemma causal_ranks e t (rank : nat -> nat) : closed e (tab t) = true ->
  below (length e) (fun i => below (length e) (fun j => implb (tab t i j || match e !! j with Some ev => bool_decide (e_rf ev = Some i) | None => false end) (rank i <? rank j)%nat)) = true ->
  forallb (fun ev => match e_rf ev with Some i => (i <? length e)%nat | None => true end) e = true -> causal e.
Proof.
  intros Hc H Hr. exists rank. split.
  - intros i j Hb. pose proof (hb_range _ _ _ Hb) as (Hi & Hj). apply Nat.ltb_lt. eapply implb_use; [exact (below_true _ _ j (below_true _ _ i H Hi) Hj)|].
    by rewrite (closed_hb _ _ _ _ Hc Hb).
  - intros i j g a Hj. pose proof (lookup_lt_Some _ _ _ Hj) as Hlj. rewrite forallb_forall in Hr.
    assert (Hi : (i < length e)%nat). { apply Nat.ltb_lt. apply (Hr (Ev g a (Some i))). apply elem_of_list_In. by eapply elem_of_list_lookup_2. }
    apply Nat.ltb_lt. eapply implb_use; [exact (below_true _ _ j (below_true _ _ i H Hi) Hlj)|]. rewrite Hj. cbn. rewrite bool_decide_true by done. apply orb_true_r.
Qed.
Theorem C100_two_fetches_race_refuted :
  daemon_execution [0%nat] eF /\ causal eF /\ race eF 8 12 /\
  ev_at eF 8 4 (ARead Plain (LCopy 0) (VObj 5)) /\ ev_at eF 9 4 (ARead Sync (LCopy 0) VNil).
Proof.
  split; [apply eF_execution|]. split.
  { apply (causal_ranks _ tF (fun i => nth i [0; 1; 2; 3; 4; 5; 6; 7; 20; 21; 8; 9; 10]%nat 0%nat)); by vm_compute. }
  split; [|split; [by eexists|by eexists]].
  exists 4%nat, 2%nat. do 2 eexists. split; [by eexists|]. split; [by eexists|]. split; [done|]. split; [|split; [by left|]].
  - exists (LCopy 0), (VObj 5), (VObj 5). split; [by left|]. split; by right.
  - split; apply (tab_hb _ tF); by vm_compute.
Qed.
(** The expired hook of the cache of Update 1 runs while Update 2 publishes: its ordinary read of
    rolePolicies sees the new pointer, and the interface behind it not yet: the hook fills a nil cache. *)
Definition eH : exec loc role :=
  [ Ev 0 (AGo 1%nat RUpd) None; Ev 1 (AWrite Plain (LCell 1) (VObj 1)) None; Ev 1 (AGo 2%nat (RFetch 1 0)) None;
    Ev 2 (ARead Plain (LCopy 0) VNil) None; Ev 2 (AWrite Plain (LTag 5) (VObj 5)) None; Ev 2 (AWrite Sync (LCopy 0) (VObj 5)) None; Ev 2 (AWrite Plain (LEntry 1 0) (VObj 1)) None;
    Ev 1 (AJoin 2%nat true) None; Ev 1 (AGo 3%nat RHook) None; Ev 1 (ASwap LCur (VObj 0) (VObj 1)) None; Ev 1 (ARead Plain (LCell 0) (VObj 0)) None;
    Ev 1 (AWrite Plain (LCell 2) (VObj 2)) None; Ev 1 (AGo 4%nat (RFetch 2 0)) None;
    Ev 4 (ARead Plain (LCopy 0) (VObj 5)) (Some 5%nat); Ev 4 (ARead Sync (LCopy 0) (VObj 5)) (Some 5%nat); Ev 4 (ARead Plain (LTag 5) (VObj 5)) (Some 4%nat); Ev 4 (AWrite Plain (LEntry 2 0) (VObj 2)) None;
    Ev 1 (AJoin 4%nat true) None; Ev 1 (AGo 5%nat RHook) None; Ev 1 (ASwap LCur (VObj 1) (VObj 2)) (Some 9%nat);
    Ev 3 (ARead Plain LCur (VObj 2)) (Some 19%nat); Ev 3 (ARead Plain (LCell 2) VNil) None ]%nat.
Definition tH : list (list bool) := Eval vm_compute in closure eH.
Lemma eH_execution : daemon_execution [0%nat] eH.
Proof.
  apply (ids_ok_execution _ _ (tab tH)); [by vm_compute|by vm_compute| |].
  - intros g r H. listed H. destruct H as [H|[H|[H|[H|[H|[H|[]]]]]]]; injection H as -> ->; projected.
    + eexists. split; [apply T_main|done]. by repeat constructor.
    + exists ((AWrite Plain (LCell 1) (VObj 1) :: gos 1 [(2, 0)] ++ joins (replicate 1 true) [(2, 0)] ++
               AGo 3 RHook :: [] ++ ASwap LCur (VObj 0) (VObj 1) :: [] ++ [ARead Plain (LCell 0) (VObj 0)]) ++
              (AWrite Plain (LCell 2) (VObj 2) :: gos 2 [(4, 0)] ++ joins (replicate 1 true) [(4, 0)] ++
               AGo 5 RHook :: [] ++ ASwap LCur (VObj 1) (VObj 2) :: [] ++ [ARead Plain (LCell 1) (VObj 1)]) ++ [])%nat.
      split; [|by eexists]. eapply T_upd. apply (Us_cons _ 1%nat [2%nat]).
      * apply (U_ok _ 1 [(2, 0)]%nat); [apply NoDup_singleton|done|constructor|constructor].
      * apply (Us_cons _ 2%nat []); [|constructor|apply not_elem_of_nil]. apply (U_ok _ 2 [(4, 0)]%nat); [apply NoDup_singleton|done|constructor|constructor].
      * by rewrite elem_of_list_singleton.
    + exists ((ARead Plain (LCopy 0) VNil :: keep 0 5) ++ [AWrite Plain (LEntry 1 0) (VObj 1)])%nat. split; [|done]. eapply T_fetch, W_fill, R_end; [apply F_first|done].
    + exists ([ARead Plain LCur (VObj 2); ARead Plain (LCell 2) VNil] ++ held 0 5 5 (VObj 5) ++ []). split; [|by eexists]. apply T_hook. eapply (H_run _ _ 0 _ FOk); [by apply R_held|done|constructor].
    + exists (held 0 5 5 (VObj 5) ++ [AWrite Plain (LEntry 2 0) (VObj 2)]). split; [|done]. eapply T_fetch, W_fill, R_held.
    + exists []. split; [apply T_hook; constructor|done].
  - intros h ok c d Hw Hs. listed Hw. listed Hs. destruct Hw as [Hw|[Hw|[]]]; injection Hw as -> ->; destruct Hs as [H|[H|[H|[H|[H|[H|[]]]]]]]; try discriminate; injection H as -> ->; projected; exists FOk; (split; [|done]).
    + apply (W_fill 1 0 (ARead Plain (LCopy 0) VNil :: keep 0 5)), R_end; [apply F_first|done].
    + apply (W_fill 2 0 (held 0 5 5 (VObj 5))), R_held.
Qed.
Theorem C100_hook_races_with_updates_refuted :
  daemon_execution [0%nat] eH /\ causal eH /\ race eH 20 19 /\ race eH 21 11 /\ runs eH 3 RHook /\
  ev_at eH 20 3 (ARead Plain LCur (VObj 2)) /\ ev_at eH 21 3 (ARead Plain (LCell 2) VNil).
Proof.
  split; [apply eH_execution|]. split.
  { apply (causal_ranks _ tH (fun i => i)); by vm_compute. }
  split; [|split; [|split; [right; by eexists 8%nat, 1%nat, None|split; by eexists]]].
  - exists 3%nat, 1%nat. do 2 eexists. split; [by eexists|]. split; [by eexists|]. split; [done|]. split; [|split; [by left|]].
    + exists LCur, (VObj 2), (VObj 2). split; [by left|]. split; by right.
    + split; apply (tab_hb _ tH); by vm_compute.
  - exists 3%nat, 1%nat. do 2 eexists. split; [by eexists|]. split; [by eexists|]. split; [done|]. split; [|split; [by left|]].
    + exists (LCell 2), VNil, (VObj 2). split; [by left|]. split; by right.
    + split; apply (tab_hb _ tH); by vm_compute.
Qed.
(** The execution of C99 meets the hypotheses of the theorem without races; the one with the hook those
    of the theorems about copies. *)
Example C100_nonvacuous :
  daemon_execution [0%nat] eP /\ one_loop eP /\ no_cancel eP /\ no_hook eP /\
  ev_at eH 15 4 (ARead Plain (LTag 5) (VObj 5)) /\ ev_at eH 14 4 (ARead Sync (LCopy 0) (VObj 5)) /\ hb eH 9 14.
Proof.
  assert (Hs : forall i g a, ev_at eP i g a -> (g, a) ∈ map (fun ev => (e_g ev, e_op ev)) eP).
  { intros i g a (rf & H). apply elem_of_list_fmap. exists (Ev g a rf). split; [done|by eapply elem_of_list_lookup_2]. }
  split; [apply eP_execution|]. split; [|split; [|split]].
  - exists 1%nat. intros g H. apply runs_started in H. listed H. destruct H as [H|[H|[H|[H|[H|[H|[]]]]]]]; try discriminate. by injection H.
  - intros i g H. apply Hs in H. listed H. naive_solver.
  - intros i g a H Hr. apply runs_started in Hr. listed Hr. assert (g = 4%nat) as -> by naive_solver. apply Hs in H. listed H. naive_solver.
  - split; [by eexists|]. split; [by eexists|]. eapply hb_trans; [eapply (hb_seq _ 9 12 1); [by eexists|by eexists|lia]|]. eapply (hb_go _ 12 14); by eexists.
Qed.
Print Assumptions C100_copies_are_whole.
Print Assumptions C100_nil_only_before_the_first_copy.
Print Assumptions C100_no_nil_after_an_update.
Print Assumptions C100_no_nil_in_hooks.
Print Assumptions C100_one_loop_has_no_race_partial.
Print Assumptions C100_two_fetches_race_refuted.
Print Assumptions C100_hook_races_with_updates_refuted.
Print Assumptions C100_nonvacuous.
