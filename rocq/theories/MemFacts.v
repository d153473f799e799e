(** * Facts about executions of the daemon by the memory model *)
From Verif Require Export MemTrace.

Section mem.
  Context {loc role : Type}.
  Implicit Types e : exec loc role.
  Lemma ev_at_fun e i g a g' b : ev_at e i g a -> ev_at e i g' b -> g = g' /\ a = b.
  Proof. intros (? & H1) (? & H2). rewrite H1 in H2. by injection H2 as -> -> ->. Qed.
  Lemma writes_at_ev e i x v g a : writes_at e i x v -> ev_at e i g a -> writes a = Some (x, v).
  Proof. intros (g' & b & H1 & H2) H3. by destruct (ev_at_fun _ _ _ _ _ _ H1 H3) as (_ & ->). Qed.
  Lemma hb_lt ini e i j : go_execution ini e -> hb e i j -> (i < j)%nat.
  Proof.
    intros He H. induction H as [| i j g g' a b x v u H1 H2 H3 H4 H5 H6| | |]; eauto using ge_go, ge_join; [|lia].
    by destruct (ge_sync _ _ He _ _ _ _ _ _ H4 H6 H5) as (? & _).
  Qed.
  Lemma proj_at e i g a : ev_at e i g a -> exists p2, proj g e = proj g (take i e) ++ a :: p2.
  Proof.
    intros (rf & H). exists (proj g (drop (S i) e)). unfold proj.
    rewrite <- (take_drop_middle e i _ H) at 1. rewrite filter_app, map_app, filter_cons. cbn. by rewrite decide_True.
  Qed.
  Lemma proj_in e g a : a ∈ proj g e -> exists i, ev_at e i g a.
  Proof.
    unfold proj. intros ([g' b rf] & -> & H)%elem_of_list_fmap. apply elem_of_list_filter in H as (Hg & H). cbn in *. subst.
    apply elem_of_list_lookup in H as (i & H). by exists i, rf.
  Qed.
  Lemma proj_before e i g a : a ∈ proj g (take i e) -> exists k, (k < i)%nat /\ ev_at e k g a.
  Proof.
    intros (k & rf & H)%proj_in. apply lookup_take_Some in H as (H & Hk). exists k. split; [done|by exists rf].
  Qed.
  Lemma proj_elem e i g a : ev_at e i g a -> a ∈ proj g e.
  Proof. intros (p2 & ->)%proj_at. rewrite elem_of_app, elem_of_cons. auto. Qed.
End mem.

(** What each piece of code may do. *)
Definition fetch_op (d : nat) (a : macc) : Prop :=
  match a with
  | ARead _ (LCopy d') _ => d' = d
  | ARead Plain (LTag _) _ => True
  | AWrite Plain (LTag n) v => v = VObj n
  | AWrite Sync (LCopy d') v => d' = d /\ exists n, v = VObj n
  | _ => False
  end.
Definition update_op (cs : list nat) (a : macc) : Prop :=
  match a with
  | AWrite Plain (LCell c) v => v = VObj c /\ c ∈ cs
  | AGo _ (RFetch c _) => c ∈ cs
  | AGo _ RHook | AJoin _ _ | AQuit => True
  | ARead Plain LCur _ | ARead Plain (LCell _) _ => True
  | ASwap LCur _ (VObj c) => c ∈ cs
  | _ => False
  end.
Definition can (r : role) (a : macc) : Prop :=
  match r with
  | RMain => main_op a
  | RUpd => exists cs, update_op cs a
  | RFetch c d => fetch_op d a \/ a = AWrite Plain (LEntry c d) (VObj c)
  | RCheck => match a with ARead Sync LCur _ | ARead Plain (LCell _) _ | ARead Plain (LEntry _ _) _ | AGo _ (RMatch _) => True | _ => False end
  | RMatch c => exists d v, a = ARead Plain (LEntry c d) v
  | RHook => (exists d, fetch_op d a) \/ match a with ARead Plain LCur _ | ARead Plain (LCell _) _ => True | _ => False end
  end.

Lemma fetch_ops d t en : fetch_tr d t en -> Forall (fetch_op d) t.
Proof. destruct 1; unfold keep, held, held_nil; repeat constructor; eauto. Qed.
Lemma retry_ops d t en : retry_tr d t en -> Forall (fetch_op d) t.
Proof.
  induction 1 as [? ? H|? ? ? H _ IH| | |]; [by eapply fetch_ops| |by repeat constructor..].
  apply Forall_app. split; [by eapply fetch_ops|done].
Qed.
Lemma work_ops c d t en : work_tr c d t en -> Forall (fun a => fetch_op d a \/ a = AWrite Plain (LEntry c d) (VObj c)) t.
Proof.
  assert (Hw : forall t en, retry_tr d t en -> Forall (fun a => fetch_op d a \/ a = AWrite Plain (LEntry c d) (VObj c)) t).
  { intros t' en' H. apply retry_ops in H. eapply Forall_impl; [exact H|auto]. }
  destruct 1; eauto; apply Forall_app; eauto using Forall_cons, Forall_nil.
Qed.

Section doms.
  Context (doms : list nat).
  Lemma gos_ops c cs ws : c ∈ cs -> Forall (update_op cs) (gos c ws).
  Proof. intros Hc. unfold gos. apply Forall_fmap, Forall_true. done. Qed.
  Lemma joins_ops cs ws : forall bs, Forall (update_op cs) (joins bs ws).
  Proof. induction ws as [|? ? IH]; intros [|b bs]; try constructor; [done|]. apply IH. Qed.
  Lemma log_ops cs t : log_tr t -> Forall (update_op cs) t.
  Proof. destruct 1; repeat constructor. Qed.
  Lemma update_ops c t : update_tr doms c t -> Forall (update_op [c]) t.
  Proof.
    assert (c ∈ [c]) by (apply elem_of_list_here).
    destruct 1; rewrite ?Forall_cons, ?Forall_app, ?Forall_cons, ?Forall_app, ?Forall_cons, ?Forall_app, ?Forall_singleton; cbn; repeat split; auto using gos_ops, joins_ops, log_ops.
  Qed.
  Lemma update_op_mono cs cs' a : cs ⊆ cs' -> update_op cs a -> update_op cs' a.
  Proof.
    intros H. destruct a as [[] [] ?|[] [] ?|[] ? []|? []| |]; cbn; auto. intros (-> & ?). auto.
  Qed.
  Lemma updates_ops cs t : updates_tr doms cs t -> Forall (update_op cs) t.
  Proof.
    induction 1 as [|c cs u t Hu _ IH _]; [constructor|]. apply update_ops in Hu.
    apply Forall_app; split; eapply Forall_impl; try eassumption; intros a; apply update_op_mono; set_solver.
  Qed.
  Lemma hook_ops t : hooks_tr t -> Forall (can RHook) t.
  Proof.
    induction 1 as [| |o v d t en ts H1 _ _ IH]; [constructor|repeat constructor; by right|].
    apply retry_ops in H1. cbn. repeat (apply Forall_cons; split; [by right|]). apply Forall_app. split; [|done].
    eapply Forall_impl; [exact H1|]. intros a Ha. left. by exists d.
  Qed.
  Lemma trace_can r t : trace doms r t -> Forall (can r) t.
  Proof.
    destruct 1 as [t H|cs t H|c d t en H|t H|c t H|t H]; cbn.
    - done.
    - apply updates_ops in H. eapply Forall_impl; [exact H|]. intros a Ha. by exists cs.
    - by eapply work_ops.
    - destruct H as [o c gs|o c t H|o]; repeat (apply Forall_cons; split; [done|]).
      + apply Forall_fmap, Forall_true. done.
      + eapply Forall_impl; [exact H|]. by intros a (d & v & ->).
      + constructor.
    - done.
    - by apply hook_ops.
  Qed.

  (** What precedes the swap of an Update. *)
  Lemma app_cons_split {A} (l1 l2 t1 t2 : list A) x : l1 ++ l2 = t1 ++ x :: t2 ->
    (exists m, t1 = l1 ++ m /\ l2 = m ++ x :: t2) \/ (exists m, l1 = t1 ++ x :: m /\ t2 = m ++ l2).
  Proof.
    intros H. apply app_eq_inv in H as [(k & -> & H)|(k & -> & H)].
    - destruct k as [|y k]; cbn in H.
      + left. exists []. rewrite !app_nil_r. split; [done|]. by rewrite <- H.
      + injection H as -> ->. right. by exists k.
    - left. by exists k.
  Qed.
  Definition published (c : nat) (ws : list (nat * nat)) (t1 : list macc) : Prop :=
    AWrite Plain (LCell c) (VObj c) ∈ t1 /\ NoDup ws.*2 /\ ws.*2 ≡ₚ doms /\
    forall g d, (g, d) ∈ ws -> AGo g (RFetch c d) ∈ t1 /\ AJoin g true ∈ t1.
  Lemma gos_in c ws g c' d : AGo g (RFetch c' d) ∈ gos c ws <-> c' = c /\ (g, d) ∈ ws.
  Proof.
    unfold gos. rewrite elem_of_list_fmap. split.
    - intros ([g' d'] & H & Hin). cbn in H. injection H as -> -> ->. done.
    - intros (-> & H). by exists (g, d).
  Qed.
  Lemma joins_in ws g d : (g, d) ∈ ws -> AJoin g true ∈ joins (replicate (length ws) true) ws.
  Proof.
    induction ws as [|[g' d'] ws IH]; cbn; [by intros ?%elem_of_nil|].
    intros [H|H]%elem_of_cons; [injection H as -> ->; constructor|right; auto].
  Qed.
  Lemma no_swap_gos c ws x v u : ASwap x v u ∉ gos c ws.
  Proof. unfold gos. intros ([] & H & _)%elem_of_list_fmap. discriminate. Qed.
  Lemma no_swap_joins ws x v u : forall bs, ASwap x v u ∉ joins bs ws.
  Proof. induction ws as [|? ? IH]; intros [|]; cbn; try apply not_elem_of_nil. apply not_elem_of_cons. split; [done|apply IH]. Qed.
  Lemma no_swap_log t x v u : log_tr t -> ASwap x v u ∉ t.
  Proof. destruct 1; rewrite ?not_elem_of_cons; repeat split; try discriminate; apply not_elem_of_nil. Qed.
  Lemma no_fetch_log t g r : log_tr t -> AGo g r ∉ t.
  Proof. destruct 1; rewrite ?not_elem_of_cons; repeat split; try discriminate; apply not_elem_of_nil. Qed.
  Lemma update_swap c t t1 t2 v c' : update_tr doms c t -> t = t1 ++ ASwap LCur v (VObj c') :: t2 ->
    c' = c /\ exists ws, published c ws t1 /\ (forall g d, AGo g (RFetch c d) ∈ t -> (g, d) ∈ ws).
  Proof.
    intros H E. assert (Hin : ASwap LCur v (VObj c') ∈ t) by (rewrite E, elem_of_app, elem_of_cons; auto).
    destruct H as [ws Hnd|ws bs Hnd Hl|ws h l1 l2 o w Hnd Hp H1 H2].
    { exfalso. revert Hin. rewrite elem_of_cons, elem_of_app, elem_of_list_singleton. intros [?|[?|?]]; [done|by eapply no_swap_gos|done]. }
    { exfalso. revert Hin. rewrite elem_of_cons, elem_of_app. intros [?|[?|?]]; [done|by eapply no_swap_gos|by eapply no_swap_joins]. }
    clear Hin.
    set (pre := AWrite Plain (LCell c) (VObj c) :: gos c ws ++ joins (replicate (length ws) true) ws ++ AGo h RHook :: l1).
    assert (E' : pre ++ (ASwap LCur (VObj o) (VObj c) :: l2 ++ [ARead Plain (LCell o) w]) = t1 ++ ASwap LCur v (VObj c') :: t2).
    { rewrite <- E. unfold pre. cbn. rewrite <- !app_assoc. cbn. rewrite <- ?app_assoc. done. }
    assert (Hpre : forall u c'', ASwap LCur u c'' ∉ pre).
    { intros u c''. unfold pre. rewrite not_elem_of_cons, !not_elem_of_app, not_elem_of_cons.
      repeat split; eauto using no_swap_gos, no_swap_joins, no_swap_log. }
    assert (Hpost : forall u c'', ASwap LCur u c'' ∉ l2 ++ [ARead Plain (LCell o) w]).
    { intros u c''. rewrite not_elem_of_app, elem_of_list_singleton. split; [by apply no_swap_log|done]. }
    apply app_cons_split in E' as [(m & -> & Hm)|(m & Hm & _)].
    2:{ exfalso. apply (Hpre v (VObj c')). rewrite Hm, elem_of_app, elem_of_cons. auto. }
    destruct m as [|x m].
    2:{ exfalso. injection Hm as _ Hm. apply (Hpost v (VObj c')). rewrite Hm, elem_of_app, elem_of_cons. auto. }
    injection Hm as _ <- Ht2. split; [done|]. exists ws. split.
    - split; [unfold pre; constructor|]. split; [done|]. split; [done|]. intros g d Hin. unfold pre.
      rewrite !elem_of_app, !elem_of_cons, !elem_of_app. split; [left; right; left; by apply gos_in|left; right; right; left; by eapply joins_in].
    - intros g d. rewrite E. rewrite !elem_of_app, elem_of_cons. intros [[Hin|Hin]|[?|Hin]]; [|by apply elem_of_nil in Hin|done|].
      + revert Hin. unfold pre. rewrite elem_of_cons, !elem_of_app, elem_of_cons. intros [?|[Hin|[Hin|[?|Hin]]]]; try done.
        * by apply gos_in in Hin as (_ & ?).
        * exfalso. clear -Hin. revert Hin. generalize (replicate (length ws) true). induction ws as [|? ? IH]; intros [|]; cbn; rewrite ?elem_of_nil, ?elem_of_cons; try done.
          intros [?|?]; [done|by eapply IH].
        * exfalso. exact (no_fetch_log _ _ _ H1 Hin).
      + exfalso. rewrite <- Ht2 in Hin. apply elem_of_app in Hin as [Hin|Hin%elem_of_list_singleton]; [exact (no_fetch_log _ _ _ H2 Hin)|done].
  Qed.
  Lemma updates_swap cs t t1 t2 v c : updates_tr doms cs t -> t = t1 ++ ASwap LCur v (VObj c) :: t2 ->
    exists ws, published c ws t1 /\ (forall g d, AGo g (RFetch c d) ∈ t -> (g, d) ∈ ws).
  Proof.
    intros H. revert t1. induction H as [|c' cs u t Hu Ht IH Hc]; intros t1 E.
    { by destruct t1. }
    pose proof (updates_ops _ _ Ht) as Hops. pose proof (update_ops _ _ Hu) as Hopu.
    apply app_cons_split in E as [(m & -> & ->)|(m & -> & ->)].
    - destruct (IH m eq_refl) as (ws & (P1 & P2 & P3 & P4) & Hall). exists ws.
      assert (Hcc : c ∈ cs). { rewrite Forall_forall in Hops. apply (Hops (ASwap LCur v (VObj c))). rewrite elem_of_app, elem_of_cons. auto. }
      split.
      + split; [rewrite elem_of_app; auto|]. repeat split; try done; rewrite elem_of_app; right; by eapply P4.
      + intros g d [Hin|Hin]%elem_of_app; [|by apply Hall]. rewrite Forall_forall in Hopu. apply Hopu in Hin. cbn in Hin.
        apply elem_of_list_singleton in Hin as ->. done.
    - destruct (update_swap _ _ _ _ _ _ Hu eq_refl) as (-> & ws & Hp & Hall). exists ws. split; [done|].
      intros g d [Hin|Hin]%elem_of_app; [by apply Hall|]. rewrite Forall_forall in Hops. apply Hops in Hin. done.
  Qed.
  (** What precedes the goroutine of a fetch. *)
  Lemma update_go c t t1 t2 g c' d : update_tr doms c t -> t = t1 ++ AGo g (RFetch c' d) :: t2 ->
    c' = c /\ AWrite Plain (LCell c) (VObj c) ∈ t1.
  Proof.
    intros H E. pose proof (update_ops _ _ H) as Hop. rewrite Forall_forall in Hop.
    assert (Hin : AGo g (RFetch c' d) ∈ t) by (rewrite E, elem_of_app, elem_of_cons; auto).
    apply Hop, elem_of_list_singleton in Hin as ->. split; [done|].
    assert (Hh : exists t', t = AWrite Plain (LCell c) (VObj c) :: t') by (destruct H; eauto). destruct Hh as (t' & ->).
    destruct t1 as [|x t1]; [done|]. injection E as -> _. constructor.
  Qed.
  Lemma updates_go cs t t1 t2 g c d : updates_tr doms cs t -> t = t1 ++ AGo g (RFetch c d) :: t2 -> AWrite Plain (LCell c) (VObj c) ∈ t1.
  Proof.
    intros H. revert t1. induction H as [|c' cs u t Hu Ht IH Hc]; intros t1 E; [by destruct t1|].
    apply app_cons_split in E as [(m & -> & ->)|(m & -> & ->)].
    - rewrite elem_of_app. right. by apply IH.
    - by destruct (update_go _ _ _ _ _ _ _ Hu eq_refl) as (-> & ?).
  Qed.
End doms.
