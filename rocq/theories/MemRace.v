(** * The fetchers' copies by the memory model, and the loop of Updates *)
From Verif Require Export Prop_Publish.

(** ** Traces of fetches *)
Lemma fetch_tag d t en t1 t2 k v : fetch_tr d t en -> t = t1 ++ ARead Plain (LTag k) v :: t2 -> ARead Sync (LCopy d) (VObj k) ∈ t1.
Proof.
  destruct 1; unfold keep, held, held_nil; intros E; repeat (destruct t1 as [|? t1]; [try discriminate; injection E; intros; subst; rewrite ?elem_of_cons; auto; fail|injection E as <- E]); try (by destruct t1).
Qed.
Lemma fetch_store d t en t1 t2 k : fetch_tr d t en -> t = t1 ++ AWrite Sync (LCopy d) (VObj k) :: t2 -> AWrite Plain (LTag k) (VObj k) ∈ t1.
Proof.
  destruct 1; unfold keep, held, held_nil; intros E; repeat (destruct t1 as [|? t1]; [try discriminate; injection E; intros; subst; rewrite ?elem_of_cons; auto; fail|injection E as <- E]); try (by destruct t1).
Qed.
Lemma retry_tag d t en t1 t2 k v : retry_tr d t en -> t = t1 ++ ARead Plain (LTag k) v :: t2 -> ARead Sync (LCopy d) (VObj k) ∈ t1.
Proof.
  intros H. revert t1 t2. induction H as [t en H _|t t' en H _ IH| |m|m k' v']; intros t1 t2 E.
  - by eapply fetch_tag.
  - apply app_cons_split in E as [(m & -> & ->)|(m & -> & ->)]; [rewrite elem_of_app; right; by eapply IH|by eapply fetch_tag].
  - repeat (destruct t1 as [|? t1]; [discriminate|injection E as <- E]); by destruct t1.
  - unfold held_nil in E. repeat (destruct t1 as [|? t1]; [discriminate|injection E as <- E]); by destruct t1.
  - apply (fetch_tag d (held d m k' v') FOk t1 t2 k v); [by constructor|done].
Qed.
Lemma retry_store d t en t1 t2 k : retry_tr d t en -> t = t1 ++ AWrite Sync (LCopy d) (VObj k) :: t2 -> AWrite Plain (LTag k) (VObj k) ∈ t1.
Proof.
  intros H. revert t1 t2. induction H as [t en H _|t t' en H _ IH| |m|m k' v']; intros t1 t2 E.
  - by eapply fetch_store.
  - apply app_cons_split in E as [(m & -> & ->)|(m & -> & ->)]; [rewrite elem_of_app; right; by eapply IH|by eapply fetch_store].
  - repeat (destruct t1 as [|? t1]; [discriminate|injection E as <- E]); by destruct t1.
  - unfold held_nil in E. repeat (destruct t1 as [|? t1]; [discriminate|injection E as <- E]); by destruct t1.
  - apply (fetch_store d (held d m k' v') FOk t1 t2 k); [by constructor|done].
Qed.
(** A fetch that succeeds has kept a copy or has read one. *)
Lemma retry_ok d t en : retry_tr d t en -> en = FOk ->
  (exists k, AWrite Sync (LCopy d) (VObj k) ∈ t) \/ (exists k, ARead Sync (LCopy d) (VObj k) ∈ t).
Proof.
  intros H. induction H as [t en H Hn|t t' en H _ IH| |m|m k v]; intros E; try done.
  - destruct H; subst; unfold keep, held; cbn; try done.
    + left. exists n. rewrite !elem_of_cons. auto.
    + right. exists k. rewrite !elem_of_cons. auto.
    + left. exists n. rewrite !elem_of_cons. auto 10.
  - destruct (IH E) as [(k & Hk)|(k & Hk)]; [left|right]; exists k; rewrite elem_of_app; auto.
  - right. exists k. unfold held. rewrite !elem_of_cons. auto.
Qed.
(** The piece of a trace of a goroutine before an operation on a copy. *)
Lemma fetch_op_pre r t t1 t2 a doms : trace doms r t -> t = t1 ++ a :: t2 -> (r = RHook \/ exists c d, r = RFetch c d) ->
  (exists d k v, a = ARead Plain (LTag k) v /\ ARead Sync (LCopy d) (VObj k) ∈ t1) \/
  (exists d k, a = AWrite Sync (LCopy d) (VObj k) /\ AWrite Plain (LTag k) (VObj k) ∈ t1) \/
  ((forall k v, a <> ARead Plain (LTag k) v) /\ (forall d k, a <> AWrite Sync (LCopy d) (VObj k))).
Proof.
  assert (Hr : forall d t en t1 t2 a, retry_tr d t en -> t = t1 ++ a :: t2 ->
    (exists d k v, a = ARead Plain (LTag k) v /\ ARead Sync (LCopy d) (VObj k) ∈ t1) \/
    (exists d k, a = AWrite Sync (LCopy d) (VObj k) /\ AWrite Plain (LTag k) (VObj k) ∈ t1) \/
    ((forall k v, a <> ARead Plain (LTag k) v) /\ (forall d k, a <> AWrite Sync (LCopy d) (VObj k)))).
  { clear. intros d t en t1 t2 a H E. pose proof (retry_ops _ _ _ H) as Hops. rewrite Forall_forall in Hops.
    assert (Ha : fetch_op d a) by (apply Hops; rewrite E, elem_of_app, elem_of_cons; auto).
    destruct a as [[] [] ?|[] [] ?| | | |]; cbn in Ha; try done; try (by right; right).
    - left. exists d. eexists _, _. split; [done|]. by eapply retry_tag.
    - destruct Ha as (-> & k & ->). right. left. exists d, k. split; [done|]. by eapply retry_store. }
  intros Ht E Hrole. destruct Ht as [t H|cs t H|c d t en H|t H|c t H|t H]; try (destruct Hrole as [?|(? & ? & ?)]; done).
  - destruct H as [|t en H _|t H|t H|t H]; [by destruct t1|by eapply Hr| | |by eapply Hr].
    all: apply app_cons_split in E as [(m & -> & E)|(m & -> & ->)]; [|by eapply Hr].
    all: destruct m as [|x m]; [injection E as <- _; by right; right|injection E as _ E; by destruct m].
  - clear Hrole. revert t1 t2 E. induction H as [| |o v d t en ts H _ _ IH]; intros t1 t2 E.
    + by destruct t1.
    + destruct t1 as [|x t1]; [injection E as <- _; by right; right|injection E as _ E; by destruct t1].
    + destruct t1 as [|x t1]; [injection E as <- _; by right; right|]. injection E as <- E.
      destruct t1 as [|x t1]; [injection E as <- _; by right; right|]. injection E as <- E.
      apply app_cons_split in E as [(m & -> & ->)|(m & -> & ->)].
      * destruct (IH m _ eq_refl) as [(d' & k & v' & -> & Hin)|[(d' & k & -> & Hin)|?]]; [left|right; left|by right; right].
        -- exists d', k, v'. split; [done|]. rewrite !elem_of_cons, elem_of_app. auto.
        -- exists d', k. split; [done|]. rewrite !elem_of_cons, elem_of_app. auto.
      * destruct (Hr _ _ _ _ _ _ H eq_refl) as [(d' & k & v' & -> & Hin)|[(d' & k & -> & Hin)|?]]; [left|right; left|by right; right].
        -- exists d', k, v'. split; [done|]. rewrite !elem_of_cons. auto.
        -- exists d', k. split; [done|]. rewrite !elem_of_cons. auto.
Qed.

Section exec.
  Context (doms : list nat) (e : exec loc role) (He : daemon_execution doms e).
  Let Hm := de_mem _ _ He.
  Ltac roles Hc := cbn in Hc; try done; try (by destruct Hc as [Hc|Hc]); try (by destruct Hc as [(? & Hc)|Hc]); try (by destruct Hc as (? & ? & Hc)); try (by destruct Hc as (? & Hc)).

  Lemma copy_role i g a x v : ev_at e i g a -> (reads a = Some (x, v) \/ writes a = Some (x, v)) -> match x with LCopy _ | LTag _ => True | _ => False end ->
    exists r, runs e g r /\ (r = RHook \/ exists c d, r = RFetch c d).
  Proof.
    intros H Ha Hx. destruct (ev_role _ _ He _ _ _ H) as (r & Hr & Hc). exists r. split; [done|].
    destruct a as [k y u|k y u|y u u'| | |]; cbn in Ha; destruct Ha as [Ha|Ha]; try discriminate; injection Ha as -> ->; destruct x; try done;
      destruct r; try (by auto); try (by right; eauto); try (destruct k); roles Hc.
  Qed.
  Lemma copy_writes i d v : writes_at e i (LCopy d) v -> exists g k, ev_at e i g (AWrite Sync (LCopy d) (VObj k)) /\ v = VObj k /\
    exists j, ev_at e j g (AWrite Plain (LTag k) (VObj k)) /\ (j < i)%nat.
  Proof.
    intros (g & a & H & Hw). destruct (copy_role _ _ _ _ _ H (or_intror Hw) I) as (r & Hr & Hrr).
    pose proof (ev_can _ _ He _ _ _ _ H Hr) as Hc.
    assert (Ha : exists k, a = AWrite Sync (LCopy d) (VObj k) /\ v = VObj k).
    { destruct a as [| k x u|x u u'| | |]; cbn in Hw; try discriminate; injection Hw as -> ->;
        (destruct Hrr as [-> |(c & d' & ->)]; cbn in Hc; [destruct Hc as [(d1 & Hc)|Hc]|destruct Hc as [Hc|Hc]]; try destruct k; try done).
      all: destruct Hc as (-> & n & ->); by exists n. }
    destruct Ha as (k & -> & ->). exists g, k. split; [done|]. split; [done|].
    destruct (ev_trace _ _ He _ _ _ _ H Hr) as (t & t2 & Ht & E).
    destruct (fetch_op_pre _ _ _ _ _ _ Ht E Hrr) as [(? & ? & ? & ? & _)|[(d' & k' & Ek & Hin)|(_ & Hn)]]; [done| |by edestruct Hn].
    injection Ek as <- <-. apply proj_before in Hin as (j & ? & ?). by exists j.
  Qed.
  Lemma tag_writes i k v : writes_at e i (LTag k) v -> exists g, ev_at e i g (AWrite Plain (LTag k) (VObj k)) /\ v = VObj k.
  Proof.
    intros (g & a & H & Hw). destruct (copy_role _ _ _ _ _ H (or_intror Hw) I) as (r & Hr & Hrr).
    pose proof (ev_can _ _ He _ _ _ _ H Hr) as Hc. exists g.
    destruct a as [| kk x u|x u u'| | |]; cbn in Hw; try discriminate; injection Hw as -> ->;
        (destruct Hrr as [-> |(c & d' & ->)]; cbn in Hc; [destruct Hc as [(d1 & Hc)|Hc]|destruct Hc as [Hc|Hc]]; try destruct kk; try done).
    all: by rewrite Hc in *.
  Qed.
  (** An atomic read of a copy that is not nil: what it points to was written before. *)
  Lemma copy_loaded l g d k : ev_at e l g (ARead Sync (LCopy d) (VObj k)) -> exists j w, writes_at e w (LCopy d) (VObj k) /\ hb e w l /\ writes_at e j (LTag k) (VObj k) /\ hb e j l.
  Proof.
    intros (rf & Hl). pose proof (ge_value _ _ Hm _ _ _ _ _ _ Hl eq_refl) as Hv. destruct rf as [w|]; [|done].
    destruct (copy_writes _ _ _ Hv) as (g' & k' & Hw & E & j & Hj & Hlt). injection E as <-.
    assert (Hwl : hb e w l) by (eapply hb_sync; [exact Hw|by intros []|done|exact Hl|by intros []|done]).
    exists j, w. split; [done|]. split; [done|]. split; [by eexists _, _|]. eapply hb_trans; [exact (hb_seq _ _ _ _ _ _ Hj Hw Hlt)|done].
  Qed.
  Lemma tag_read i g k v : ev_at e i g (ARead Plain (LTag k) v) -> v = VObj k /\ forall j u, writes_at e j (LTag k) u -> hb e j i.
  Proof.
    intros H. destruct (copy_role _ _ _ _ _ H (or_introl eq_refl) I) as (r & Hr & Hrr). destruct (ev_trace _ _ He _ _ _ _ H Hr) as (t & t2 & Ht & E).
    destruct (fetch_op_pre _ _ _ _ _ _ Ht E Hrr) as [(d & k' & v' & Ek & Hin)|[(? & ? & ? & _)|(Hn & _)]]; [|done|by edestruct Hn].
    injection Ek as <- <-. apply proj_before in Hin as (l & Hli & Hl). destruct (copy_loaded _ _ _ _ Hl) as (j & w & _ & _ & Hj & Hjl).
    assert (Hji : hb e j i) by (eapply hb_trans; [exact Hjl|by eapply seq_hb]). split.
    - destruct (read_known _ _ He _ _ _ _ _ _ H Hj Hji) as (j' & Hj'). by destruct (tag_writes _ _ _ Hj') as (_ & _ & ->).
    - intros j' u Hj'. assert (j' = j) as -> by (exact (de_fresh _ _ He j' j (LTag k) u (VObj k) Hj' Hj)). done.
  Qed.
  (** Once an Update has published a cache each fetcher has a copy. *)
  Lemma copies_kept j g h c d : ev_at e j g (AJoin h true) -> runs e h (RFetch c d) -> exists w k, writes_at e w (LCopy d) (VObj k) /\ hb e w j.
  Proof.
    intros Hj Hr. destruct (de_wait _ _ He _ _ _ _ _ _ Hj Hr) as (en & Hw & ->).
    assert (Ht : exists t, retry_tr d t FOk /\ forall a, a ∈ t -> a ∈ proj h e).
    { inversion Hw as [|t en Ht Hn E|t Ht E| |]; subst; [done|]. exists t. split; [done|]. intros a Ha. rewrite elem_of_app. auto. }
    destruct Ht as (t & Ht & Hsub). destruct (retry_ok _ _ _ Ht eq_refl) as [(k & Hk)|(k & Hk)]; apply Hsub, proj_in in Hk as (i & Hi).
    - exists i, k. split; [by eexists _, _|by eapply hb_join].
    - destruct (copy_loaded _ _ _ _ Hi) as (_ & w & Hw1 & Hw2 & _). exists w, k. split; [done|]. eapply hb_trans; [exact Hw2|by eapply hb_join].
  Qed.
  Lemma not_nil_after i g d v w u : ev_at e i g (ARead Sync (LCopy d) v) -> writes_at e w (LCopy d) u -> hb e w i -> v <> VNil.
  Proof.
    intros (rf & Hi) Hw Hb ->. pose proof (ge_value _ _ Hm _ _ _ _ _ _ Hi eq_refl) as Hv.
    destruct (ge_sync _ _ Hm _ _ _ _ _ _ Hi eq_refl (fun x => x)) as (_ & Hlast). pose proof (hb_lt _ _ _ _ Hm Hb) as Hlt.
    pose proof (Hlast _ _ Hw Hlt) as Hl. destruct rf as [w'|]; [|done]. by destruct (copy_writes _ _ _ Hv) as (_ & k & _ & ? & _).
  Qed.
End exec.

(** ** The go statements and Waits of Updates *)
Section doms.
  Context (doms : list nat).
  Lemma hook_gos_joins c ws bs : forall h, AGo h RHook ∉ gos c ws ++ joins bs ws.
  Proof.
    intros h. rewrite not_elem_of_app. split; [unfold gos; intros ([] & ? & _)%elem_of_list_fmap; done|].
    revert bs. induction ws as [|? ? IH]; intros [|]; cbn; rewrite ?not_elem_of_cons; try apply not_elem_of_nil. split; [done|apply IH].
  Qed.
  Lemma updates_hook cs t t1 t2 h : updates_tr doms cs t -> t = t1 ++ AGo h RHook :: t2 ->
    forall d, d ∈ doms -> exists g c, AGo g (RFetch c d) ∈ t1 /\ AJoin g true ∈ t1.
  Proof.
    intros H. revert t1 t2. induction H as [|c cs u t Hu Ht IH Hc]; intros t1 t2 E d Hd; [by destruct t1|].
    apply app_cons_split in E as [(m & -> & ->)|(m & -> & ->)].
    - destruct (IH m _ eq_refl d Hd) as (g & c' & H1 & H2). exists g, c'. rewrite !elem_of_app. auto.
    - clear IH Ht. inversion Hu as [ws Hnd E|ws bs Hnd Hl E|ws h' l1 l2 o w Hnd Hp H1 H2 E].
      + exfalso. destruct t1 as [|x t1]; [done|]. injection E as _ E. assert (Hin : AGo h RHook ∈ gos c ws ++ [AQuit]) by (rewrite E, elem_of_app, elem_of_cons; auto).
        apply elem_of_app in Hin as [Hin|Hin%elem_of_list_singleton]; [|done]. apply (hook_gos_joins c ws [] h). rewrite elem_of_app. auto.
      + exfalso. destruct t1 as [|x t1]; [done|]. injection E as _ E. eapply (hook_gos_joins c ws bs h). rewrite E, elem_of_app, elem_of_cons. auto.
      + destruct t1 as [|x t1]; [done|]. injection E as <- E. rewrite app_assoc in E. apply app_cons_split in E as [(m' & -> & _)|(m' & E & _)].
        2:{ exfalso. eapply (hook_gos_joins c ws _ h). rewrite E, elem_of_app, elem_of_cons. auto. }
        rewrite <- Hp in Hd. apply elem_of_list_fmap in Hd as ([g d'] & -> & Hd). exists g, c. rewrite !elem_of_cons, !elem_of_app.
        split; [right; left; left; by apply gos_in|right; left; right; by eapply joins_in].
  Qed.
  Lemma joins_all ws g d : forall bs, (g, d) ∈ ws -> length bs = length ws -> exists ok, AJoin g ok ∈ joins bs ws.
  Proof.
    induction ws as [|[g' d'] ws IH]; intros [|b bs] Hin Hl; try discriminate; [by apply elem_of_nil in Hin|].
    apply elem_of_cons in Hin as [E|Hin]; [injection E as -> ->; exists b; constructor|]. injection Hl as Hl.
    destruct (IH bs Hin Hl) as (ok & H). exists ok. cbn. by right.
  Qed.
  Lemma fetch_joined c u g d : update_tr doms c u -> AGo g (RFetch c d) ∈ u -> AQuit ∉ u -> exists ok, AJoin g ok ∈ u.
  Proof.
    assert (Hj : forall ws bs g r, AGo g r ∉ joins bs ws).
    { clear. intros ws. induction ws as [|? ? IH]; intros [|] g r; cbn; rewrite ?not_elem_of_cons; try apply not_elem_of_nil. split; [done|apply IH]. }
    intros H Hin Hq. destruct H as [ws Hnd|ws bs Hnd Hl|ws h l1 l2 o w Hnd Hp H1 H2].
    - destruct Hq. rewrite elem_of_cons, elem_of_app, elem_of_list_singleton. auto.
    - revert Hin. rewrite elem_of_cons, elem_of_app. intros [?|[Hin|Hin]]; [done| |by apply Hj in Hin]. apply gos_in in Hin as (_ & Hin).
      destruct (joins_all _ _ _ bs Hin Hl) as (ok & Hok). exists ok. rewrite elem_of_cons, elem_of_app. auto.
    - revert Hin. rewrite elem_of_cons, !elem_of_app, elem_of_cons, !elem_of_app, elem_of_cons, elem_of_app, elem_of_list_singleton.
      intros [?|[Hin|[Hin|[?|[Hin|[?|[Hin|?]]]]]]]; try done; [|by apply Hj in Hin|exfalso; exact (no_fetch_log _ _ _ H1 Hin)|exfalso; exact (no_fetch_log _ _ _ H2 Hin)].
      apply gos_in in Hin as (_ & Hin). exists true. rewrite elem_of_cons, !elem_of_app. right. right. left. by eapply joins_in.
  Qed.
  Lemma updates_joined cs t t1 t2 g1 c1 d1 g2 c2 d2 : updates_tr doms cs t -> t = t1 ++ AGo g2 (RFetch c2 d2) :: t2 ->
    AGo g1 (RFetch c1 d1) ∈ t1 -> c1 <> c2 -> AQuit ∉ t1 -> exists ok, AJoin g1 ok ∈ t1.
  Proof.
    intros H. revert t1 t2. induction H as [|c cs u t Hu Ht IH Hc]; intros t1 t2 E Hin Hne Hq; [by destruct t1|].
    apply app_cons_split in E as [(m & -> & ->)|(m & -> & ->)].
    - rewrite not_elem_of_app in Hq. destruct Hq as (Hq1 & Hq2). apply elem_of_app in Hin as [Hin|Hin].
      + assert (c1 = c) as ->. { pose proof (update_ops _ _ _ Hu) as Ho. rewrite Forall_forall in Ho. by apply Ho, elem_of_list_singleton in Hin. }
        destruct (fetch_joined _ _ _ _ Hu Hin Hq1) as (ok & Hok). exists ok. rewrite elem_of_app. auto.
      + destruct (IH m _ eq_refl Hin Hne Hq2) as (ok & Hok). exists ok. rewrite elem_of_app. auto.
    - exfalso. apply Hne. pose proof (update_ops _ _ _ Hu) as Ho. rewrite Forall_forall in Ho.
      assert (H1 : c1 ∈ [c]) by (apply (Ho (AGo g1 (RFetch c1 d1))); rewrite elem_of_app; auto).
      assert (H2 : c2 ∈ [c]) by (apply (Ho (AGo g2 (RFetch c2 d2))); rewrite elem_of_app, elem_of_cons; auto).
      apply elem_of_list_singleton in H1, H2. congruence.
  Qed.
  Lemma nodup_snd (ws : list (nat * nat)) g1 g2 d : NoDup ws.*2 -> (g1, d) ∈ ws -> (g2, d) ∈ ws -> g1 = g2.
  Proof.
    induction ws as [|[g d'] ws IH]; cbn; [by intros _ ?%elem_of_nil|]. intros (Hn & Hnd)%NoDup_cons [H1|H1]%elem_of_cons [H2|H2]%elem_of_cons.
    - congruence.
    - injection H1 as -> ->. destruct Hn. apply elem_of_list_fmap. by exists (g2, d').
    - injection H2 as -> ->. destruct Hn. apply elem_of_list_fmap. by exists (g1, d').
    - auto.
  Qed.
  Lemma update_one_fetch c u g1 g2 d : update_tr doms c u -> AGo g1 (RFetch c d) ∈ u -> AGo g2 (RFetch c d) ∈ u -> g1 = g2.
  Proof.
    intros H. assert (Hg : exists ws, NoDup ws.*2 /\ forall g d, AGo g (RFetch c d) ∈ u -> (g, d) ∈ ws).
    { assert (Hj : forall ws bs g r, AGo g r ∉ joins bs ws).
      { clear. intros ws. induction ws as [|? ? IH]; intros [|] g r; cbn; rewrite ?not_elem_of_cons; try apply not_elem_of_nil. split; [done|apply IH]. }
      destruct H as [ws Hnd|ws bs Hnd Hl|ws h l1 l2 o w Hnd Hp H1 H2]; exists ws; (split; [done|]); intros g d' Hin.
      - revert Hin. rewrite elem_of_cons, elem_of_app, elem_of_list_singleton. intros [?|[Hin|?]]; try done. by apply gos_in in Hin as (_ & ?).
      - revert Hin. rewrite elem_of_cons, elem_of_app. intros [?|[Hin|Hin]]; [done| |by apply Hj in Hin]. by apply gos_in in Hin as (_ & ?).
      - revert Hin. rewrite elem_of_cons, !elem_of_app, elem_of_cons, !elem_of_app, elem_of_cons, elem_of_app, elem_of_list_singleton.
        intros [?|[Hin|[Hin|[?|[Hin|[?|[Hin|?]]]]]]]; try done; [|by apply Hj in Hin|exfalso; exact (no_fetch_log _ _ _ H1 Hin)|exfalso; exact (no_fetch_log _ _ _ H2 Hin)].
        by apply gos_in in Hin as (_ & ?). }
    destruct Hg as (ws & Hnd & Hall). intros H1 H2. eapply nodup_snd; eauto.
  Qed.
  Lemma updates_one_fetch cs t g1 g2 c d : updates_tr doms cs t -> AGo g1 (RFetch c d) ∈ t -> AGo g2 (RFetch c d) ∈ t -> g1 = g2.
  Proof.
    induction 1 as [|c' cs u t Hu Ht IH Hc]; [by intros ?%elem_of_nil|].
    assert (Hcu : forall g, AGo g (RFetch c d) ∈ u -> c = c').
    { intros g Hin. pose proof (update_ops _ _ _ Hu) as Ho. rewrite Forall_forall in Ho. by apply Ho, elem_of_list_singleton in Hin. }
    assert (Hct : forall g, AGo g (RFetch c d) ∈ t -> c ∈ cs).
    { intros g Hin. pose proof (updates_ops _ _ _ Ht) as Ho. rewrite Forall_forall in Ho. by apply Ho in Hin. }
    rewrite !elem_of_app. intros [H1|H1] [H2|H2]; [|exfalso|exfalso|auto].
    - pose proof (Hcu _ H1) as ->. by eapply update_one_fetch.
    - apply Hc. rewrite <- (Hcu _ H1). eauto.
    - apply Hc. rewrite <- (Hcu _ H2). eauto.
  Qed.
  (** The ordinary reads of rolePolicies and of the interfaces in Updates. *)
  Lemma updates_cell cs t t1 t2 o v : updates_tr doms cs t -> t = t1 ++ ARead Plain (LCell o) v :: t2 ->
    (exists c, ASwap LCur (VObj o) (VObj c) ∈ t1) \/ ARead Plain LCur (VObj o) ∈ t1.
  Proof.
    intros H. revert t1 t2. induction H as [|c cs u t Hu Ht IH Hc]; intros t1 t2 E; [by destruct t1|].
    apply app_cons_split in E as [(m & -> & ->)|(m & -> & ->)].
    { destruct (IH m _ eq_refl) as [(c' & H)|H]; [left; exists c'|right]; rewrite elem_of_app; auto. }
    clear IH Ht.
    assert (Hg : forall c ws, ARead Plain (LCell o) v ∉ gos c ws) by (clear; intros c ws; unfold gos; intros ([] & ? & _)%elem_of_list_fmap; done).
    assert (Hj : forall ws bs, ARead Plain (LCell o) v ∉ joins bs ws).
    { clear. intros ws. induction ws as [|? ? IH]; intros [|]; cbn; rewrite ?not_elem_of_cons; try apply not_elem_of_nil. split; [done|apply IH]. }
    assert (Hlog : forall l t1 m, log_tr l -> l = t1 ++ ARead Plain (LCell o) v :: m -> ARead Plain LCur (VObj o) ∈ t1).
    { clear. intros l t1 m [|o' v'] E; [by destruct t1|]. destruct t1 as [|x t1]; [done|]. injection E as <- E. destruct t1 as [|x t1]; [injection E as -> _; constructor|injection E as _ E; by destruct t1]. }
    inversion Hu as [ws Hnd E|ws bs Hnd Hl E|ws h' l1 l2 o' w Hnd Hp H1 H2 E].
    - exfalso. destruct t1 as [|x t1]; [done|]. injection E as _ E. assert (Hin : ARead Plain (LCell o) v ∈ gos c ws ++ [AQuit]) by (rewrite E, elem_of_app, elem_of_cons; auto).
      apply elem_of_app in Hin as [Hin|Hin%elem_of_list_singleton]; [by eapply Hg|done].
    - exfalso. destruct t1 as [|x t1]; [done|]. injection E as _ E. assert (Hin : ARead Plain (LCell o) v ∈ gos c ws ++ joins bs ws) by (rewrite E, elem_of_app, elem_of_cons; auto).
      apply elem_of_app in Hin as [Hin|Hin]; [by eapply Hg|by eapply Hj].
    - destruct t1 as [|x t1]; [done|]. injection E as <- E.
      apply app_cons_split in E as [(m1 & -> & E)|(m1 & E & _)]; [|exfalso; eapply (Hg c ws); rewrite E, elem_of_app, elem_of_cons; auto].
      apply app_cons_split in E as [(m2 & -> & E)|(m2 & E & _)]; [|exfalso; eapply (Hj ws); rewrite E, elem_of_app, elem_of_cons; auto].
      destruct m2 as [|x m2]; [done|]. injection E as <- E.
      apply app_cons_split in E as [(m3 & -> & E)|(m3 & E & _)].
      2:{ right. rewrite elem_of_cons, !elem_of_app, elem_of_cons. do 4 right. exact (Hlog _ _ _ H1 E). }
      destruct m3 as [|x m3]; [done|]. injection E as <- E.
      apply app_cons_split in E as [(m4 & -> & E)|(m4 & E & _)].
      2:{ right. rewrite elem_of_cons, !elem_of_app, elem_of_cons, !elem_of_app, elem_of_cons. do 6 right. exact (Hlog _ _ _ H2 E). }
      left. exists c. destruct m4 as [|x m4]; [injection E as -> -> _|injection E as _ E; by destruct m4].
      rewrite elem_of_cons, !elem_of_app, elem_of_cons, !elem_of_app, elem_of_cons. right. right. right. right. right. left. done.
  Qed.
End doms.
