(** * Property C100, continued: where the races of the policy daemon are, in every execution *)
From Verif Require Export Prop_Race.

(** Before the expired hook uses the interface it reads rolePolicies, daemon.go:190. *)
Lemma hooks_cell t t1 t2 o v : hooks_tr t -> t = t1 ++ ARead Plain (LCell o) v :: t2 -> ARead Plain LCur (VObj o) ∈ t1.
Proof.
  intros H. revert t1 t2. induction H as [| |o' w d t en ts Ht Hts Hs IH]; intros t1 t2 E; [by destruct t1|destruct t1 as [|? [|]]; done|].
  destruct t1 as [|x t1]; [done|]. injection E as <- E. destruct t1 as [|x t1]; [injection E as -> _ _; constructor|]. injection E as <- E.
  apply app_cons_split in E as [(m & -> & E)|(m & E & _)].
  - rewrite !elem_of_cons, elem_of_app. do 3 right. by eapply IH.
  - exfalso. pose proof (retry_ops _ _ _ Ht) as Hf. rewrite E in Hf. apply Forall_app in Hf as (_ & Hf). apply Forall_cons in Hf as (Hf & _). done.
Qed.

Section claims.
  Context (doms : list nat) (e : exec loc role) (He : daemon_execution doms e).
  Let Hm := de_mem _ _ He.
  Notation ordered := (ordered e).
  Ltac roles Hc := cbn in Hc; try done; try (by destruct Hc as [Hc|Hc]); try (by destruct Hc as [(? & Hc)|Hc]); try (by destruct Hc as (? & ? & Hc)); try (by destruct Hc as (? & Hc)).

  (** The test of policyCache for nil, fetcher.go:91 and :171, and the store of a new copy, :148. *)
  Definition at_nil_test (i j : nat) : Prop :=
    exists g g' d v u, ev_at e i g (ARead Plain (LCopy d) v) /\ ev_at e j g' (AWrite Sync (LCopy d) u).
  (** The read of rolePolicies in the hook, daemon.go:190, or in the debug log of Update, :195-203, and the swap, :200. *)
  Definition at_pointer (i j : nat) : Prop :=
    exists g g' v o c, ev_at e i g (ARead Plain LCur v) /\ ev_at e j g' (ASwap LCur o c) /\ (runs e g RHook \/ runs e g RUpd).
  (** The interface that the same goroutine found there, and the assignment of rp, daemon.go:158. *)
  Definition at_interface (i j : nat) : Prop :=
    exists g g' o v, ev_at e i g (ARead Plain (LCell o) v) /\ ev_at e j g' (AWrite Plain (LCell o) (VObj o)) /\ (runs e g RHook \/ runs e g RUpd) /\
      exists l w, (l < i)%nat /\ ev_at e l g (ARead Plain LCur (VObj o)) /\ race e l w /\ at_pointer l w.

  Lemma one_fetch g1 g2 c d : runs e g1 (RFetch c d) -> runs e g2 (RFetch c d) -> g1 = g2.
  Proof.
    intros [(_ & ?)|(m1 & h1 & Hm1)] [(_ & ?)|(m2 & h2 & Hm2)]; try done.
    destruct (fetch_started _ _ He _ _ _ _ _ Hm1) as (Hu1 & k1 & Hk1 & _). destruct (fetch_started _ _ He _ _ _ _ _ Hm2) as (Hu2 & k2 & Hk2 & _).
    assert (k1 = k2) as ->. { refine (de_fresh _ _ He k1 k2 (LCell c) (VObj c) (VObj c) _ _); by eexists _, _. }
    destruct (ev_at_fun _ _ _ _ _ _ Hk1 Hk2) as (-> & _).
    destruct (de_trace _ _ He _ _ Hu1) as (t & Ht & (kr & E)). inversion Ht as [|cs t' Hu| | | |]; subst t'.
    eapply (updates_one_fetch _ _ _ _ _ _ _ Hu); rewrite E, elem_of_app; left; by eapply proj_elem.
  Qed.
  Lemma not_ordered i j : ~ hb e i j -> ~ hb e j i -> ~ ordered i j.
  Proof. by intros ? ? [?|?]. Qed.

  (** After an ordinary read of rolePolicies: if the interface there is not ordered, neither was the read. *)
  Lemma pointer_raced i l g o v k u : ev_at e l g (ARead Plain LCur (VObj o)) -> ev_at e i g (ARead Plain (LCell o) v) -> (l < i)%nat ->
    writes_at e k (LCell o) u -> ~ hb e k i -> (runs e g RHook \/ runs e g RUpd) -> exists w, race e l w /\ at_pointer l w.
  Proof.
    intros Hl Hi Hli Hk Hn Hr. destruct Hl as (rf & Hl). pose proof (ge_value _ _ Hm _ _ _ _ _ _ Hl eq_refl) as Hv.
    destruct rf as [w|]; [|injection Hv as ->; by apply (de_first _ _ He) in Hk].
    destruct (cur_writes _ _ He _ _ Hv) as (g' & o' & c & Hw & Eo & Hu). injection Eo as <-.
    destruct (swapped _ _ He _ _ _ _ Hw) as ((k1 & Hk1 & Hb1) & _).
    assert (k = k1) as ->. { refine (de_fresh _ _ He k k1 (LCell o) u (VObj o) Hk _). by eexists _, _. }
    exists w. split.
    - exists g, g', (ARead Plain LCur (VObj o)), (ASwap LCur o' (VObj o)). split; [by eexists|]. split; [done|]. split.
      { intros ->. destruct (ev_at_fun _ _ _ _ _ _ Hw (ex_intro _ _ Hl)) as (_ & ?). done. }
      split. { exists LCur, (VObj o), (VObj o). split; [by left|]. split; by right. }
      split; [by left|]. split.
      + destruct (ge_read _ _ Hm _ _ _ _ _ _ Hl eq_refl I) as (H & _). exact H.
      + intros Hb. apply Hn. eapply hb_trans; [exact Hb1|]. eapply hb_trans; [exact Hb|]. eapply hb_seq; [by eexists|exact Hi|done].
    - exists g, g', (VObj o), o', (VObj o). split; [by eexists|]. done.
  Qed.

  (** A conflict with a write that is not ordered by happens before. *)
  Lemma where_raced i j g1 g2 a b x u : ev_at e i g1 a -> ev_at e j g2 b -> i <> j ->
    touches a x -> writes b = Some (x, u) -> plain a \/ plain b -> ~ ordered i j -> at_nil_test i j \/ at_pointer i j \/ at_interface i j.
  Proof.
    intros Hi Hj Hne Ha Hb Hp Hn. assert (Hwj : writes_at e j x u) by (by eexists _, _). destruct x as [d|n| |c|c d].
    - left. destruct (copy_writes _ _ He _ _ _ Hwj) as (g' & k & Hj' & -> & _). destruct (ev_at_fun _ _ _ _ _ _ Hj Hj') as (<- & ->).
      destruct Hp as [Hp|[]]. destruct Ha as (v & [Ha|Ha]).
      + destruct a as [[] x w|[] x w|x w w'| | |]; try done. cbn in Ha. injection Ha as -> ->. by exists g1, g2, d, v, (VObj k).
      + destruct (copy_writes _ _ He i d v) as (g3 & k' & Hi' & -> & _); [by eexists _, _|]. by destruct (ev_at_fun _ _ _ _ _ _ Hi Hi') as (<- & ->).
    - exfalso. destruct Ha as (v & [Ha|Ha]).
      + apply Hn. right. destruct (copy_role _ _ He _ _ _ _ _ Hi (or_introl Ha) I) as (r & Hr & Hrr). pose proof (ev_can _ _ He _ _ _ _ Hi Hr) as Hc.
        assert (Ea : a = ARead Plain (LTag n) v).
        { destruct a as [k x w|k x w|x w w'| | |]; try discriminate; injection Ha as -> ->; destruct Hrr as [-> |(? & ? & ->)]; cbn in Hc; try destruct k; try done; (destruct Hc as [Hc|Hc]; [try destruct Hc; done|try done]). }
        subst a. destruct (tag_read _ _ He _ _ _ _ Hi) as (_ & Hw). eauto.
      + apply Hne. refine (de_fresh _ _ He i j (LTag n) v u _ Hwj). by eexists _, _.
    - right. left. destruct (cur_writes _ _ He _ _ Hwj) as (g' & o & c & Hj' & _ & Hu).
      destruct (ev_at_fun _ _ _ _ _ _ Hj Hj') as (<- & ->). destruct Hp as [Hp|[]].
      destruct (ev_role _ _ He _ _ _ Hi) as (r & Hr & Hc).
      destruct Ha as (v & [Ha|Ha]); destruct a as [[] x w|[] x w|x w w'| | |]; try done; cbn in Ha; injection Ha as -> ->; destruct r; roles Hc; exists g1, g2, v, o, (VObj c); auto.
    - destruct Ha as (v & [Ha|Ha]); [|exfalso; apply Hne; refine (de_fresh _ _ He i j (LCell c) v u _ Hwj); by eexists _, _].
      right. right. destruct (ev_role _ _ He _ _ _ Hi) as (r & Hr & Hc).
      assert (Ea : a = ARead Plain (LCell c) v) by (destruct a as [[] x w|[] x w|x w w'| | |]; try done; cbn in Ha; injection Ha as -> ->; try done; destruct r; roles Hc).
      subst a. assert (Hnb : ~ hb e j i) by (intros ?; apply Hn; by right).
      destruct (cell_writes _ _ He _ _ _ Hwj) as (g' & Hj' & -> & _). destruct (ev_at_fun _ _ _ _ _ _ Hj Hj') as (<- & ->).
      assert (Hsync : forall l a', ev_at e l g1 a' -> ~ plain a' -> reads a' = Some (LCur, VObj c) -> (l < i)%nat -> False).
      { intros l a' Hl Hpl Hrl Hli. apply Hnb. destruct (cell_read _ _ He _ _ _ _ _ _ Hl Hpl Hrl Hi Hli) as (_ & H). eauto. }
      assert (Hfin : (runs e g1 RHook \/ runs e g1 RUpd) -> forall l, (l < i)%nat -> ev_at e l g1 (ARead Plain LCur (VObj c)) -> at_interface i j).
      { intros Hrr l Hl Hl'. exists g1, g2, c, v. split; [done|]. split; [done|]. split; [done|].
        destruct (pointer_raced _ _ _ _ _ _ _ Hl' Hi Hl Hwj Hnb Hrr) as (w & Hw & Hw'). by exists l, w. }
      destruct (ev_trace _ _ He _ _ _ _ Hi Hr) as (t & t2 & Ht & E).
      destruct r; roles Hc.
      + inversion Ht as [|cs t' Hu| | | |]; subst t'. destruct (updates_cell _ _ _ _ _ _ _ Hu E) as [(c' & Hs)|Hs]; apply proj_before in Hs as (l & Hl & Hs); [|eauto].
        exfalso. exact (Hsync l _ Hs (fun x => x) eq_refl Hl).
      + inversion Ht as [| | |t' Hck| |]; subst t'. pose proof (check_cell _ _ _ _ _ Hck E) as Hl. apply proj_before in Hl as (l & Hli & Hl).
        exfalso. exact (Hsync l _ Hl (fun x => x) eq_refl Hli).
      + inversion Ht as [| | | | |t' Hck]; subst t'. pose proof (hooks_cell _ _ _ _ _ Hck E) as Hl. apply proj_before in Hl as (l & Hli & Hl). eauto.
    - exfalso. destruct (entry_writes _ _ He _ _ _ _ Hwj) as (g' & Hj' & -> & Hr2). destruct (ev_at_fun _ _ _ _ _ _ Hj Hj') as (<- & ->).
      destruct Ha as (v & [Ha|Ha]).
      + apply Hn. right. destruct (ev_role _ _ He _ _ _ Hi) as (r & Hr & Hc).
        assert (Hck : checker e g1 /\ a = ARead Plain (LEntry c d) v).
        { destruct a as [[] x w|[] x w|x w w'| | |]; try done; cbn in Ha; injection Ha as -> ->; destruct r; roles Hc; (split; [|done]); [by left|right; by eexists]. }
        destruct Hck as (Hck & ->).
        destruct (check_use_known _ _ He _ _ _ c Hck Hi) as (l & g3 & o & Hl & Hb1 & ->); [right; eauto|].
        destruct (cell_known _ _ He _ _ _ _ Hl (fun x => x) eq_refl) as (_ & _ & H & _). eapply hb_trans; [|exact Hb1]. eauto.
      + destruct (entry_writes _ _ He i c d v) as (g3 & Hi' & _ & Hr1); [by eexists _, _|].
        destruct (ev_at_fun _ _ _ _ _ _ Hi Hi') as (<- & _). apply Hn. rewrite (one_fetch _ _ _ _ Hr1 Hr2) in Hi. destruct (Nat.lt_trichotomy i j) as [H|[H|H]]; [left; exact (hb_seq _ _ _ _ _ _ Hi Hj H)|done|right; exact (hb_seq _ _ _ _ _ _ Hj Hi H)].
  Qed.

  (** Every data race of every execution is at one of three places, and one of the two is a read. *)
  Theorem C100_where_the_races_are i j : race e i j ->
    (at_nil_test i j \/ at_pointer i j \/ at_interface i j) \/ (at_nil_test j i \/ at_pointer j i \/ at_interface j i).
  Proof.
    intros (g & g' & a & b & Hi & Hj & Hne & (x & v & u & Ha & Hb & Hw) & Hp & Hn1 & Hn2). destruct Hw as [Hw|Hw].
    - right. eapply (where_raced j i g' g b a x v); try done; [by exists u|tauto|by apply not_ordered].
    - left. eapply (where_raced i j g g' a b x u); try done; [by exists v|by apply not_ordered].
  Qed.
  (** So with the tests for nil and the reads of rolePolicies ordered there would be no race. *)
  Corollary C100_two_reads_to_repair : (forall i j, at_nil_test i j \/ at_pointer i j -> hb e i j \/ hb e j i) -> forall i j, ~ race e i j.
  Proof.
    intros H. assert (Hs : forall i j, race e i j -> ~ (at_nil_test i j \/ at_pointer i j)).
    { intros i j (g & g' & a & b & _ & _ & _ & _ & _ & Hn1 & Hn2) Hk. destruct (H _ _ Hk); done. }
    assert (Hs' : forall i j, race e i j -> race e j i).
    { intros i j (g & g' & a & b & H1 & H2 & H3 & (x & v & u & Ha & Hb & Hc) & Hp & Hn). exists g', g, b, a. do 2 (split; [done|]). split; [done|].
      split; [exists x, u, v; tauto|]. tauto. }
    assert (Hi : forall i j, ~ at_interface i j). { intros i j (g & g' & o & v & _ & _ & _ & l & w & _ & _ & Hr & Hp). apply (Hs _ _ Hr). by right. }
    intros i j Hr. destruct (C100_where_the_races_are _ _ Hr) as [[Hk|[Hk|Hk]]|[Hk|[Hk|Hk]]]; try (by eapply Hi); [apply (Hs _ _ Hr)|apply (Hs _ _ Hr)|apply (Hs _ _ (Hs' _ _ Hr))|apply (Hs _ _ (Hs' _ _ Hr))]; tauto.
  Qed.
End claims.

(** The three kinds are there: in the witness of the two fetches, and in that of the hook; and the
    execution of C99 has no race. *)
Example C100_sites_nonvacuous :
  at_nil_test eF 8 12 /\ race eF 8 12 /\ at_pointer eH 20 19 /\ race eH 20 19 /\ at_interface eH 21 11 /\ race eH 21 11 /\
  (forall i j, ~ race eP i j).
Proof.
  destruct C100_two_fetches_race_refuted as (_ & _ & HF & _). destruct C100_hook_races_with_updates_refuted as (_ & _ & HP & HI & HR & _).
  assert (Hp : at_pointer eH 20 19). { exists 3%nat, 1%nat, (VObj 2), (VObj 1), (VObj 2). split; [by eexists|]. split; [by eexists|by left]. }
  split; [exists 4%nat, 2%nat, 0%nat, (VObj 5), (VObj 5); split; by eexists|]. split; [done|]. split; [done|]. split; [done|].
  split; [|split; [done|]].
  - exists 3%nat, 1%nat, 2%nat, VNil. split; [by eexists|]. split; [by eexists|]. split; [by left|]. exists 20%nat, 19%nat. split; [lia|]. split; [by eexists|done].
  - destruct C100_nonvacuous as (He & H1 & H2 & H3 & _). intros i j. by apply (C100_one_loop_has_no_race_partial _ _ He).
Qed.
Print Assumptions C100_where_the_races_are.
Print Assumptions C100_two_reads_to_repair.
Print Assumptions C100_sites_nonvacuous.
