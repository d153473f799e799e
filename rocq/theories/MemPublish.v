(** * Publication of the caches by the memory model *)
From Verif Require Export MemFacts.

Lemma check_cell t t1 t2 o v : check_tr t -> t = t1 ++ ARead Plain (LCell o) v :: t2 -> ARead Sync LCur (VObj o) ∈ t1.
Proof.
  assert (H : forall t, Forall (fun a : macc => match a with ARead _ (LCell _) _ => False | _ => True end) t -> ARead Plain (LCell o) v ∉ t).
  { intros t' Hf Hin. rewrite Forall_forall in Hf. by apply Hf in Hin. }
  intros Hc E. destruct Hc as [o' c gs|o' c t Ht|o'];
    (destruct t1 as [|x t1]; [discriminate|]; injection E as <- E; destruct t1 as [|y t1]; [injection E as -> _; constructor|injection E as <- E]).
  - exfalso. eapply (H (map (fun g => AGo g (RMatch c)) gs)); [|rewrite E, elem_of_app, elem_of_cons; by auto]. by apply Forall_fmap, Forall_true.
  - exfalso. eapply (H t); [|rewrite E, elem_of_app, elem_of_cons; by auto]. eapply Forall_impl; [exact Ht|]. by intros a (? & ? & ->).
  - by destruct t1.
Qed.
Definition uses (c : nat) (a : macc) : Prop := (exists g, a = AGo g (RMatch c)) \/ exists d v, a = ARead Plain (LEntry c d) v.
Lemma check_use t t1 t2 a c : check_tr t -> t = t1 ++ a :: t2 -> uses c a ->
  exists o, ARead Sync LCur (VObj o) ∈ t1 /\ ARead Plain (LCell o) (VObj c) ∈ t1.
Proof.
  intros Hc E Hu. assert (Hn1 : forall o, a <> ARead Sync LCur o) by (intros o ->; destruct Hu as [(? & ?)|(? & ? & ?)]; discriminate).
  assert (Hn2 : forall o v, a <> ARead Plain (LCell o) v) by (intros o v ->; destruct Hu as [(? & ?)|(? & ? & ?)]; discriminate).
  assert (Hgo : forall o c' t, check_tr ([ARead Sync LCur (VObj o); ARead Plain (LCell o) (VObj c')] ++ t) -> Forall (uses c') t ->
            [ARead Sync LCur (VObj o); ARead Plain (LCell o) (VObj c')] ++ t = t1 ++ a :: t2 ->
            exists o, ARead Sync LCur (VObj o) ∈ t1 /\ ARead Plain (LCell o) (VObj c) ∈ t1).
  { intros o c' t' _ Hf E'. destruct t1 as [|x t1]; [injection E' as <- _; by edestruct Hn1|]. injection E' as <- E'.
    destruct t1 as [|x t1]; [injection E' as <- _; by edestruct Hn2|]. injection E' as <- E'.
    assert (Hin : a ∈ t') by (rewrite E', elem_of_app, elem_of_cons; auto). rewrite Forall_forall in Hf. apply Hf in Hin.
    assert (c' = c) as -> by (destruct Hu as [(? & ->)|(? & ? & ->)], Hin as [(? & Hin)|(? & ? & Hin)]; congruence).
    exists o. split; [constructor|right; constructor]. }
  destruct Hc as [o c' gs|o c' t Ht|o].
  - eapply Hgo; [apply K_go| |exact E]. apply Forall_fmap, Forall_true. intros g. left. by exists g.
  - eapply Hgo; [by apply K_get| |exact E]. eapply Forall_impl; [exact Ht|]. intros x (d & v & ->). right. by exists d, v.
  - exfalso. destruct t1 as [|x t1]; [injection E as <- _; by edestruct Hn1|]. injection E as <- E.
    destruct t1 as [|x t1]; [injection E as <- _; by edestruct Hn2|]. injection E as _ E. by destruct t1.
Qed.

Section exec.
  Context (doms : list nat) (e : exec loc role) (He : daemon_execution doms e).
  Let Hm := de_mem _ _ He.

  Lemma runs_fun g r r' : runs e g r -> runs e g r' -> r = r'.
  Proof.
    intros [(E & E')|(i & h & H)] [(E1 & E1')|(i' & h' & H')]; subst; try done.
    - by apply (de_main _ _ He) in H'.
    - by apply (de_main _ _ He) in H.
    - pose proof (de_once _ _ He _ _ _ _ _ _ _ H H') as ->. destruct (ev_at_fun _ _ _ _ _ _ H H') as (_ & E). by injection E.
  Qed.
  Lemma ev_trace i g a r : ev_at e i g a -> runs e g r -> exists t t2, trace doms r t /\ t = proj g (take i e) ++ a :: t2.
  Proof.
    intros H Hr. destruct (de_trace _ _ He _ _ Hr) as (t & Ht & (k & E)). destruct (proj_at _ _ _ _ H) as (p2 & E2).
    exists t, (p2 ++ k). split; [done|]. by rewrite E, E2, <- app_assoc.
  Qed.
  Lemma ev_can i g a r : ev_at e i g a -> runs e g r -> can r a.
  Proof.
    intros H Hr. destruct (ev_trace _ _ _ _ H Hr) as (t & t2 & Ht & ->). apply trace_can in Ht. rewrite Forall_forall in Ht.
    apply Ht. rewrite elem_of_app, elem_of_cons. auto.
  Qed.
  Lemma ev_role i g a : ev_at e i g a -> exists r, runs e g r /\ can r a.
  Proof. intros H. destruct (de_role _ _ He _ _ _ H) as (r & Hr). exists r. split; [done|by eapply ev_can]. Qed.
  Lemma seq_hb i j g a b : ev_at e i g a -> ev_at e j g b -> (i < j)%nat -> hb e i j.
  Proof. by econstructor. Qed.

  Lemma swap_upd i g o c : ev_at e i g (ASwap LCur o (VObj c)) -> runs e g RUpd.
  Proof.
    intros H. destruct (ev_role _ _ _ H) as (r & Hr & Hc). destruct r; cbn in Hc; try done.
    - destruct Hc; done.
    - destruct Hc as (? & ? & ?); done.
    - destruct Hc as [(? & ?)|?]; done.
  Qed.
  Lemma cur_writes i v : writes_at e i LCur v -> exists g o c, ev_at e i g (ASwap LCur o (VObj c)) /\ v = VObj c /\ runs e g RUpd.
  Proof.
    intros (g & a & H & Hw). destruct (ev_role _ _ _ H) as (r & Hr & Hc). destruct a as [| k x u|x u u'| | |]; cbn in Hw; try done; injection Hw as -> ->.
    - exfalso. destruct r, k; cbn in Hc; try done; try (by destruct Hc as [Hc|Hc]); try (by destruct Hc as [(? & Hc)|Hc]); try (by destruct Hc as (? & Hc)); by destruct Hc as (? & ? & Hc).
    - destruct r; cbn in Hc; try done; try (by destruct Hc as [Hc|Hc]); try (by destruct Hc as [(? & Hc)|Hc]); try (by destruct Hc as (? & ? & Hc)).
      destruct Hc as (cs & Hc). destruct v as [|c]; [done|]. by exists g, u, c.
  Qed.
  Lemma cell_writes i c v : writes_at e i (LCell c) v -> exists g, ev_at e i g (AWrite Plain (LCell c) (VObj c)) /\ v = VObj c /\ runs e g RUpd.
  Proof.
    intros (g & a & H & Hw). destruct (ev_role _ _ _ H) as (r & Hr & Hc). destruct a as [| k x u|x u u'| | |]; cbn in Hw; try done; injection Hw as -> ->.
    - destruct r, k; cbn in Hc; try done; try (by destruct Hc as [Hc|Hc]); try (by destruct Hc as [(? & Hc)|Hc]); try (by destruct Hc as (? & ? & Hc)); try (by destruct Hc).
      destruct Hc as (cs & -> & Hc). by exists g.
    - exfalso. destruct r; cbn in Hc; try done; try (by destruct Hc as [Hc|Hc]); try (by destruct Hc as [(? & Hc)|Hc]); try (by destruct Hc as (? & ? & Hc)); try (by destruct Hc).
  Qed.
  Lemma entry_writes i c d v : writes_at e i (LEntry c d) v -> exists g, ev_at e i g (AWrite Plain (LEntry c d) (VObj c)) /\ v = VObj c /\ runs e g (RFetch c d).
  Proof.
    intros (g & a & H & Hw). destruct (ev_role _ _ _ H) as (r & Hr & Hc). destruct a as [| k x u|x u u'| | |]; cbn in Hw; try done; injection Hw as -> ->.
    - destruct r, k; cbn in Hc; try done; try (by destruct Hc as [(? & Hc)|Hc]); try (by destruct Hc as (? & ? & Hc)); try (by destruct Hc).
      destruct Hc as [Hc|Hc]; [done|]. injection Hc as -> -> ->. by exists g.
    - exfalso. destruct r; cbn in Hc; try done; try (by destruct Hc as [Hc|Hc]); try (by destruct Hc as [(? & Hc)|Hc]); try (by destruct Hc as (? & ? & Hc)); try (by destruct Hc).
  Qed.
  Lemma fetch_started i g h c d : ev_at e i g (AGo h (RFetch c d)) -> runs e g RUpd /\ exists k, ev_at e k g (AWrite Plain (LCell c) (VObj c)) /\ (k < i)%nat.
  Proof.
    intros H. destruct (ev_role _ _ _ H) as (r & Hr & Hc).
    destruct r; cbn in Hc; try done; try (by destruct Hc as [Hc|Hc]); try (by destruct Hc as [(? & Hc)|Hc]); try (by destruct Hc as (? & ? & Hc)).
    split; [done|]. destruct (ev_trace _ _ _ _ H Hr) as (t & t2 & Ht & E). inversion Ht as [|cs t' Hu| | | |]; subst.
    pose proof (updates_go _ _ _ _ _ _ _ _ Hu eq_refl) as Hin. apply proj_before in Hin as (k & ? & ?). by exists k.
  Qed.

  (** The cache with number c was published by the swap at i: its interface and its entries were written before. *)
  Lemma swapped i g o c : ev_at e i g (ASwap LCur o (VObj c)) ->
    (exists k, ev_at e k g (AWrite Plain (LCell c) (VObj c)) /\ hb e k i) /\
    (forall k d v, writes_at e k (LEntry c d) v -> hb e k i) /\
    (forall d, d ∈ doms -> exists k, writes_at e k (LEntry c d) (VObj c)).
  Proof.
    intros H. pose proof (swap_upd _ _ _ _ H) as Hr. destruct (de_trace _ _ He _ _ Hr) as (t & Ht & (kr & E)).
    destruct (proj_at _ _ _ _ H) as (p2 & E2).
    assert (E3 : t = proj g (take i e) ++ ASwap LCur o (VObj c) :: (p2 ++ kr)) by (by rewrite E, E2, <- app_assoc).
    inversion Ht as [|cs t' Hu| | | |]; subst t'. destruct (updates_swap _ _ _ _ _ _ _ Hu E3) as (ws & (P1 & P2 & P3 & P4) & Hall).
    apply proj_before in P1 as (k1 & Hk1 & P1). split; [|split].
    - exists k1. split; [done|]. by eapply seq_hb.
    - intros k d v Hw. destruct (entry_writes _ _ _ _ Hw) as (h & Hh & -> & Hrh).
      destruct Hrh as [(_ & ?)|(m & g2 & Hgo)]; [done|]. destruct (fetch_started _ _ _ _ _ Hgo) as (_ & k2 & Hk2 & _).
      assert (k2 = k1) as ->. { refine (de_fresh _ _ He k2 k1 (LCell c) (VObj c) (VObj c) _ _); [exists g2|exists g]; eexists; eauto. }
      destruct (ev_at_fun _ _ _ _ _ _ Hk2 P1) as (-> & _).
      assert (Hin : (h, d) ∈ ws).
      { apply Hall. rewrite E, elem_of_app. left. by eapply proj_elem. }
      destruct (P4 _ _ Hin) as (_ & Hj). apply proj_before in Hj as (k3 & Hk3 & Hj).
      eapply hb_trans; [eapply hb_join; [exact Hh|exact Hj]|]. by eapply seq_hb.
    - intros d Hd. rewrite <- P3 in Hd. apply elem_of_list_fmap in Hd as ([h d'] & -> & Hd). cbn.
      destruct (P4 _ _ Hd) as (Hgo & Hj). apply proj_before in Hj as (k3 & Hk3 & Hj). apply proj_before in Hgo as (k4 & Hk4 & Hgo).
      destruct (de_wait _ _ He _ _ _ _ c d' Hj) as (en & Hw & ->); [right; eauto|].
      assert (Hin : AWrite Plain (LEntry c d') (VObj c) ∈ proj h e) by (inversion Hw; subst; [done|rewrite elem_of_app, elem_of_list_singleton; auto]).
      apply proj_in in Hin as (k & Hk). exists k, h. eexists. by split.
  Qed.
End exec.
