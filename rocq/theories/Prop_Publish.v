(** * Property C99: policy checks do not race with updates and see whole caches
    By the letter of the Go memory model: executions in which an ordinary read may observe anything it
    is not ordered with, for any number of goroutines. *)
From Verif Require Export MemPublish MemCheck.

Section claims.
  Context (doms : list nat) (e : exec loc role) (He : daemon_execution doms e).
  Let Hm := de_mem _ _ He.

  (** An atomic read of rolePolicies: the cache it finds is the one of New, or was published before. *)
  Lemma loaded l g a o : ev_at e l g a -> ~ plain a -> reads a = Some (LCur, VObj o) ->
    o = 0%nat \/ exists w g' o', ev_at e w g' (ASwap LCur o' (VObj o)) /\ hb e w l.
  Proof.
    intros (rf & Hl) Hs Hr. pose proof (ge_value _ _ Hm _ _ _ _ _ _ Hl Hr) as Hv. destruct rf as [w|]; [|injection Hv; auto].
    right. destruct (cur_writes _ _ He _ _ Hv) as (g' & o' & c & Hw & E & _). injection E as <-. exists w, g', o'. split; [done|].
    eapply hb_sync; [exact Hw|by intros []|done|exact Hl|done|exact Hr].
  Qed.
  (** What is known after such a read. *)
  Lemma cell_known l g a o : ev_at e l g a -> ~ plain a -> reads a = Some (LCur, VObj o) ->
    (o = 0%nat \/ exists k, writes_at e k (LCell o) (VObj o) /\ hb e k l) /\ (forall k v, writes_at e k (LCell o) v -> hb e k l) /\
    (forall k d v, writes_at e k (LEntry o d) v -> hb e k l) /\ (o <> 0%nat -> forall d, d ∈ doms -> exists k, writes_at e k (LEntry o d) (VObj o)).
  Proof.
    intros Hl Hs Hr. destruct (loaded _ _ _ _ Hl Hs Hr) as [-> |(w & g' & o' & Hw & Hwl)].
    - split; [by left|]. split; [|split].
      + intros k v Hk. by apply (de_first _ _ He) in Hk.
      + intros k d v Hk. exfalso. destruct (entry_writes _ _ He _ _ _ _ Hk) as (h & _ & _ & [(_ & ?)|(i & g1 & Hgo)]); [done|].
        destruct (fetch_started _ _ He _ _ _ _ _ Hgo) as (_ & k' & Hk' & _). apply (de_first _ _ He k' (VObj 0)). by eexists _, _.
      + done.
    - destruct (swapped _ _ He _ _ _ _ Hw) as ((k1 & Hk1 & Hb1) & H2 & H3). split; [|split; [|split]].
      + right. exists k1. split; [by eexists _, _|by eapply hb_trans].
      + intros k v Hk. assert (k = k1) as ->.
        { refine (de_fresh _ _ He k k1 (LCell o) v (VObj o) Hk _). by eexists _, _. }
        by eapply hb_trans.
      + intros k d v Hk. eapply hb_trans; [by eapply H2|done].
      + intros _ d Hd. by apply H3.
  Qed.
  Lemma read_known j g x v i u : ev_at e j g (ARead Plain x v) -> writes_at e i x u -> hb e i j -> exists k, writes_at e k x v.
  Proof.
    intros (rf & Hj) Hi Hb. pose proof (ge_value _ _ Hm _ _ _ _ _ _ Hj eq_refl) as Hv. destruct rf as [w|]; [by exists w|].
    exfalso. eapply (ge_read _ _ Hm _ _ _ _ _ _ Hj eq_refl I); [exact Hi|done].
  Qed.
  Lemma read_unwritten j g x v : ev_at e j g (ARead Plain x v) -> (forall k u, ~ writes_at e k x u) -> v = ini x.
  Proof.
    intros (rf & Hj) Hn. pose proof (ge_value _ _ Hm _ _ _ _ _ _ Hj eq_refl) as Hv. destruct rf as [w|]; [by apply Hn in Hv|done].
  Qed.
  Lemma cell_read l j g a o v : ev_at e l g a -> ~ plain a -> reads a = Some (LCur, VObj o) -> ev_at e j g (ARead Plain (LCell o) v) -> (l < j)%nat ->
    v = VObj o /\ forall k u, writes_at e k (LCell o) u -> hb e k j.
  Proof.
    intros Hl Hs Hr Hj Hlt. assert (Hlj : hb e l j) by (by eapply seq_hb).
    destruct (cell_known _ _ _ _ Hl Hs Hr) as (H1 & H2 & _). split; [|intros k u Hk; eapply hb_trans; eauto].
    destruct H1 as [-> |(k & Hk & Hkl)].
    - refine (read_unwritten _ _ _ _ Hj _). intros k u. apply (de_first _ _ He).
    - destruct (read_known _ _ _ _ _ _ Hj Hk) as (k' & Hk'); [by eapply hb_trans|].
      by destruct (cell_writes _ _ He _ _ _ Hk') as (? & _ & -> & _).
  Qed.

  Definition checker (g : nat) : Prop := runs e g RCheck \/ exists c, runs e g (RMatch c).
  Lemma check_use_known i g a c : checker g -> ev_at e i g a -> uses c a ->
    exists l g' o, ev_at e l g' (ARead Sync LCur (VObj o)) /\ hb e l i /\ o = c.
  Proof.
    assert (Hk : forall i g a c, runs e g RCheck -> ev_at e i g a -> uses c a -> exists l o, ev_at e l g (ARead Sync LCur (VObj o)) /\ hb e l i /\ o = c).
    { intros i' g' a' c' Hr Hi Hu. destruct (ev_trace _ _ He _ _ _ _ Hi Hr) as (t & t2 & Ht & E). inversion Ht as [| | |t' Hc| |]; subst t'.
      destruct (check_use _ _ _ _ _ Hc E Hu) as (o & Hl & Hc2).
      apply proj_before in Hl as (l & Hli & Hl). assert (Hlb : hb e l i') by (by eapply seq_hb).
      exists l, o. split; [done|]. split; [done|]. apply proj_before in Hc2 as (j & Hji & Hj).
      destruct (ev_trace _ _ He _ _ _ _ Hj Hr) as (t3 & t4 & Ht3 & E3). inversion Ht3 as [| | |t' Hc3| |]; subst t'.
      pose proof (check_cell _ _ _ _ _ Hc3 E3) as Hl2. apply proj_before in Hl2 as (l2 & Hl2j & Hl2).
      destruct (cell_read _ _ _ _ _ _ Hl2 (fun x => x) eq_refl Hj Hl2j) as (Hcc & _). by injection Hcc. }
    intros Hg Hi Hu. destruct Hg as [Hg|(c' & Hg)].
    - destruct (Hk _ _ _ _ Hg Hi Hu) as (l & o & ?). by exists l, g, o.
    - pose proof (ev_can _ _ He _ _ _ _ Hi Hg) as (d & v & ->). assert (c' = c) as ->.
      { destruct Hu as [(? & ?)|(? & ? & Hu)]; [done|]. by injection Hu. }
      destruct Hg as [(_ & ?)|(m & g1 & Hgo)]; [done|].
      assert (Hg1 : runs e g1 RCheck).
      { destruct (ev_role _ _ He _ _ _ Hgo) as (r & Hr & Hc).
        destruct r; cbn in Hc; try done; try (by destruct Hc as [Hc|Hc]); try (by destruct Hc as [(? & Hc)|Hc]); try (by destruct Hc as (? & ? & Hc)). by destruct Hc. }
      destruct (Hk m g1 _ c Hg1 Hgo) as (l & o & Hl & Hb & ->); [left; by exists g|]. exists l, g1, c. split; [done|]. split; [|done].
      eapply hb_trans; [exact Hb|]. by eapply hb_go.
  Qed.

  (** A check, or GetPolicyCache, takes part in no data race. *)
  Theorem C99_checks_do_not_race i j g a : checker g -> ev_at e i g a -> ~ race e i j /\ ~ race e j i.
  Proof.
    intros Hg Hi. cut (forall g' b, ev_at e j g' b -> conflict a b \/ conflict b a -> plain a \/ plain b -> hb e j i).
    { intros Hc. split; intros (g1 & g2 & a1 & b1 & H1 & H2 & Hne & Hcf & Hp & Hn1 & Hn2).
      - destruct (ev_at_fun _ _ _ _ _ _ Hi H1) as (-> & ->). apply Hn2. eauto.
      - destruct (ev_at_fun _ _ _ _ _ _ Hi H2) as (-> & ->). apply Hn1. eapply Hc; [exact H1|auto|tauto]. }
    intros g' b Hj Hcf Hp.
    assert (Hop : (exists v, a = ARead Sync LCur v) \/ (exists o v, a = ARead Plain (LCell o) v /\ runs e g RCheck) \/
              (exists c d v, a = ARead Plain (LEntry c d) v) \/ exists h c, a = AGo h (RMatch c)).
    { destruct Hg as [Hg|(c & Hg)]; pose proof (ev_can _ _ He _ _ _ _ Hi Hg) as Hc.
      - destruct a as [[] [] ?|[] [] ?|[] ? []|? []| |]; cbn in Hc; try done; eauto 10.
      - destruct Hc as (d & v & ->). eauto 10. }
    assert (Hx : forall x v, writes a = None -> reads a = Some (x, v) -> exists u, writes b = Some (x, u)).
    { intros x v Hw Hr. destruct Hcf as [(y & v1 & u1 & [H1|H1] & H2 & [H3|H3])|(y & v1 & u1 & H2 & [H1|H1] & [H3|H3])]; try congruence.
      - rewrite Hr in H1. injection H1 as -> ->. by exists u1.
      - rewrite Hr in H1. injection H1 as -> ->. by exists v1. }
    destruct Hop as [(v & ->)|[(o & v & -> & Hr)|[(c & d & v & ->)|(h & c & ->)]]].
    - exfalso. destruct (Hx _ _ eq_refl eq_refl) as (u & Hb). destruct Hp as [[]|Hp].
      destruct (cur_writes _ _ He j u) as (? & ? & ? & H & _); [by eexists _, _|].
      destruct (ev_at_fun _ _ _ _ _ _ Hj H) as (_ & ->). done.
    - destruct (Hx _ _ eq_refl eq_refl) as (u & Hb). destruct (ev_trace _ _ He _ _ _ _ Hi Hr) as (t & t2 & Ht & E).
      inversion Ht as [| | |t' Hc| |]; subst t'. pose proof (check_cell _ _ _ _ _ Hc E) as Hl. apply proj_before in Hl as (l & Hli & Hl).
      destruct (cell_read _ _ _ _ _ _ Hl (fun x => x) eq_refl Hi Hli) as (_ & H). eapply H. by eexists _, _.
    - destruct (Hx _ _ eq_refl eq_refl) as (u & Hb). destruct (check_use_known _ _ _ c Hg Hi) as (l & g1 & o & Hl & Hb1 & ->); [right; eauto|].
      destruct (cell_known _ _ _ _ Hl (fun x => x) eq_refl) as (_ & _ & H & _). eapply hb_trans; [|exact Hb1]. eapply H. by eexists _, _.
    - exfalso. destruct Hcf as [(y & v1 & u1 & [H1|H1] & _)|(y & v1 & u1 & _ & [H1|H1] & _)]; discriminate.
  Qed.
  (** It finds the cache that its load returned, never a nil interface, ... *)
  Theorem C99_cache_is_there i g o v : checker g -> ev_at e i g (ARead Plain (LCell o) v) -> v = VObj o.
  Proof.
    intros Hg Hi. assert (Hr : runs e g RCheck).
    { destruct Hg as [Hg|(c & Hg)]; [done|]. by destruct (ev_can _ _ He _ _ _ _ Hi Hg) as (? & ? & ?). }
    destruct (ev_trace _ _ He _ _ _ _ Hi Hr) as (t & t2 & Ht & E). inversion Ht as [| | |t' Hc| |]; subst t'.
    pose proof (check_cell _ _ _ _ _ Hc E) as Hl. apply proj_before in Hl as (l & Hli & Hl).
    by destruct (cell_read _ _ _ _ _ _ Hl (fun x => x) eq_refl Hi Hli).
  Qed.
  (** ... and in it all that the Update which published it wrote, for each domain. *)
  Theorem C99_cache_is_whole i g c d v : checker g -> ev_at e i g (ARead Plain (LEntry c d) v) -> d ∈ doms ->
    v = match c with O => VNil | _ => VObj c end.
  Proof.
    intros Hg Hi Hd. destruct (check_use_known _ _ _ c Hg Hi) as (l & g1 & o & Hl & Hb & ->); [right; eauto|].
    destruct (cell_known _ _ _ _ Hl (fun x => x) eq_refl) as (_ & _ & H2 & H3). destruct c as [|c].
    - refine (read_unwritten _ _ _ _ Hi _). intros k u Hk. destruct (entry_writes _ _ He _ _ _ _ Hk) as (h & _ & _ & [(_ & ?)|(m & g2 & Hgo)]); [done|].
      destruct (fetch_started _ _ He _ _ _ _ _ Hgo) as (_ & k' & Hk' & _). apply (de_first _ _ He k' (VObj 0)). by eexists _, _.
    - destruct (H3 ltac:(done) d Hd) as (k & Hk). destruct (read_known _ _ _ _ _ _ Hi Hk) as (k' & Hk'); [eapply hb_trans; eauto|].
      by destruct (entry_writes _ _ He _ _ _ _ Hk') as (? & _ & -> & _).
  Qed.
End claims.

(** ** An execution with an Update and a check that finds its cache *)
Definition eP : exec loc role :=
  [ Ev 0 (AGo 1%nat RUpd) None; Ev 0 (AGo 3%nat RCheck) None;
    Ev 1 (AWrite Plain (LCell 1) (VObj 1)) None; Ev 1 (AGo 2%nat (RFetch 1 0)) None;
    Ev 2 (ARead Plain (LCopy 0) VNil) None; Ev 2 (AWrite Plain (LTag 5) (VObj 5)) None; Ev 2 (AWrite Sync (LCopy 0) (VObj 5)) None;
    Ev 2 (AWrite Plain (LEntry 1 0) (VObj 1)) None;
    Ev 1 (AJoin 2%nat true) None; Ev 1 (AGo 4%nat RHook) None; Ev 1 (ASwap LCur (VObj 0) (VObj 1)) None;
    Ev 3 (ARead Sync LCur (VObj 1)) (Some 10%nat); Ev 3 (ARead Plain (LCell 1) (VObj 1)) (Some 2%nat); Ev 3 (AGo 5%nat (RMatch 1)) None;
    Ev 5 (ARead Plain (LEntry 1 0) (VObj 1)) (Some 7%nat);
    Ev 1 (ARead Plain (LCell 0) (VObj 0)) None ]%nat.
Definition tP : list (list bool) := Eval vm_compute in closure eP.
Lemma eP_execution : daemon_execution [0%nat] eP.
Proof.
  apply (ids_ok_execution _ _ (tab tP)); [by vm_compute|by vm_compute| |].
  - intros g r H. listed H.
    destruct H as [H|[H|[H|[H|[H|[H|[]]]]]]]; injection H as -> ->; projected.
    + eexists. split; [apply T_main|done]. by repeat constructor.
    + exists ((AWrite Plain (LCell 1) (VObj 1) :: gos 1 [(2, 0)] ++ joins (replicate 1 true) [(2, 0)] ++
               AGo 4 RHook :: [] ++ ASwap LCur (VObj 0) (VObj 1) :: [] ++ [ARead Plain (LCell 0) (VObj 0)]) ++ [])%nat.
      split; [|done]. eapply T_upd. apply (Us_cons _ 1%nat []); [|constructor|apply not_elem_of_nil].
      apply (U_ok _ 1 [(2, 0)]%nat); [apply NoDup_singleton|done|constructor|constructor].
    + exists ([ARead Sync LCur (VObj 1); ARead Plain (LCell 1) (VObj 1)] ++ map (fun g => AGo g (RMatch 1)) [5])%nat.
      split; [|done]. apply T_check, K_go.
    + exists ((ARead Plain (LCopy 0) VNil :: keep 0 5) ++ [AWrite Plain (LEntry 1 0) (VObj 1)])%nat. split; [|done].
      eapply T_fetch, W_fill, R_end; [apply F_first|done].
    + exists []. split; [apply T_hook; constructor|done].
    + eexists. split; [apply T_match; constructor; [by exists 0%nat, (VObj 1)|constructor]|done].
  - intros h ok c d Hw Hs. listed Hw. destruct Hw as [Hw|[]]. injection Hw as -> ->.
    listed Hs. destruct Hs as [H|[H|[H|[H|[H|[H|[]]]]]]]; try discriminate. injection H as -> ->.
    projected. exists FOk. split; [|done]. apply (W_fill 1 0 (ARead Plain (LCopy 0) VNil :: keep 0 5)), R_end; [apply F_first|done].
Qed.
Example C99_nonvacuous :
  daemon_execution [0%nat] eP /\ checker eP 5 /\ ev_at eP 14 5 (ARead Plain (LEntry 1 0) (VObj 1)) /\ hb eP 7 14.
Proof.
  split; [apply eP_execution|]. split; [right; exists 1%nat; right; by exists 13%nat, 3%nat, None|]. split; [by exists (Some 7%nat)|].
  eapply hb_trans; [eapply (hb_join _ 7 8); [by exists None|by exists None]|]. eapply hb_trans; [eapply (hb_seq _ 8 10 1); [by exists None|by exists None|lia]|].
  eapply hb_trans; [eapply (hb_sync _ 10 11); [by exists None|by intros []|done|done|by intros []|done]|].
  eapply hb_trans; [eapply (hb_seq _ 11 13 3); [by exists (Some 10%nat)|by exists None|lia]|]. eapply (hb_go _ 13 14); [by exists None|by exists (Some 7%nat)].
Qed.
Print Assumptions C99_checks_do_not_race.
Print Assumptions C99_cache_is_there.
Print Assumptions C99_cache_is_whole.
Print Assumptions C99_nonvacuous.
