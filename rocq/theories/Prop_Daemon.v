(** * Properties C61-C65: the refresh loops, Init and Start *)
From Verif Require Import Daemon.
From Verif Require Export GoStrings.

(** ** What happened, read off the schedule *)
Definition failure (l : rlabel) : list str := match l with RUpdated (Some e) => [e] | _ => [] end.
(** The errors Update returned, in order. *)
Definition failures (ls : list rlabel) : list str := ls ≫= failure.
(** The result of the last Update that returned. *)
Fixpoint last_update (ls : list rlabel) : option (option str) :=
  match ls with
  | [] => None
  | l :: ls => match last_update ls, l with Some r, _ => Some r | None, RUpdated r => Some r | None, _ => None end
  end.
Definition cancelled (ls : list rlabel) (e : str) : Prop := RCancel e ∈ ls.
Definition reaches (k : kind) (pre : str) (ls : list rlabel) (s : rst) : Prop := rrun k pre ls rinit = Some s.

Lemma rrun_app k pre ls1 ls2 s : rrun k pre (ls1 ++ ls2) s = match rrun k pre ls1 s with Some s' => rrun k pre ls2 s' | None => None end.
Proof. revert s. induction ls1 as [|l ls1 IH]; intros s; [done|]. cbn. destruct (rstep k pre l s); [apply IH|done]. Qed.
Lemma reaches_ind k pre (P : list rlabel -> rst -> Prop) : P [] rinit ->
  (forall ls s l s', reaches k pre ls s -> P ls s -> rstep k pre l s = Some s' -> P (ls ++ [l]) s') ->
  forall ls s, reaches k pre ls s -> P ls s.
Proof.
  intros H0 HS ls. induction ls as [|l ls IH] using rev_ind; intros s H.
  - unfold reaches in H. cbn in H. by injection H as <-.
  - unfold reaches in H. rewrite rrun_app in H. destruct (rrun k pre ls rinit) as [s1|] eqn:E; [|done]. cbn in H.
    destruct (rstep k pre l s1) as [s2|] eqn:E2; [|done]. injection H as <-. apply (HS _ s1); auto.
Qed.
Lemma last_update_snoc ls l : last_update (ls ++ [l]) = match l with RUpdated r => Some r | _ => last_update ls end.
Proof. induction ls as [|x ls IH]; cbn; [by destruct l|]. rewrite IH. destruct l; try done; by destruct (last_update ls). Qed.
Lemma failures_snoc ls l : failures (ls ++ [l]) = failures ls ++ failure l.
Proof. unfold failures. rewrite bind_app. cbn. by rewrite app_nil_r. Qed.

(** Case analysis of one step. *)
Ltac step_cases H :=
  let simp := cbn [r_loc r_retry r_tick r_ech r_buf r_got r_ctx r_goto] in * in
  unfold rstep in H;
  repeat match type of H with
  | match ?x with _ => _ end = Some _ => destruct x eqn:?
  end; try done; injection H as <-; simp.

(** ** C61 *)
Theorem C61_at_most_one_retry k pre ls s : reaches k pre ls s -> (r_retry s <= 1)%nat.
Proof.
  intros H. apply (reaches_ind k pre (fun _ s => (r_retry s <= 1)%nat)) in H; [done|cbn; lia|].
  clear. intros ls s l s' _ IH H. destruct s as [lo re ti ec bu go cx]. step_cases H; unfold fcap in *; try lia.
  - destruct (length ec <? ecap)%nat; cbn; lia.
  - destruct (re <? 1)%nat eqn:E; cbn; lia.
Qed.
(** Whenever the loop waits and the last Update failed, a retry is queued. *)
Theorem C61_failure_queues_retry k pre ls s e : reaches k pre ls s -> r_loc s = LSelect -> last_update ls = Some (Some e) -> r_retry s = 1%nat.
Proof.
  intros H Hl Hu. pose proof (C61_at_most_one_retry _ _ _ _ H) as H1.
  assert (forall ls s, reaches k pre ls s -> r_loc s = LSelect -> (exists e, last_update ls = Some (Some e)) -> (1 <= r_retry s)%nat) as Hx.
  { clear. apply (reaches_ind k pre (fun ls s => r_loc s = LSelect -> (exists e, last_update ls = Some (Some e)) -> (1 <= r_retry s)%nat)); [intros _ [e [=]]|].
    intros ls s l s' _ IH H Hl [e Hu]. rewrite last_update_snoc in Hu. destruct s as [lo re ti ec bu go cx]. step_cases H; simplify_eq; try (apply IH; eauto).
    all: repeat case_match; cbn in *; simplify_eq; unfold fcap in *; lia. }
  specialize (Hx _ _ H Hl (ex_intro _ e Hu)). lia.
Qed.
(** Queueing never blocks, and a queued retry is only removed by the Update it starts. *)
Theorem C61_queue_never_blocks k pre s : r_loc s = LQueue -> exists s', rstep k pre RStep s = Some s' /\ r_loc s' = LSelect /\ (1 <= r_retry s')%nat.
Proof. intros H. unfold rstep. rewrite H. eexists. split_and!; [done|done|]. cbn. unfold fcap. destruct (r_retry s) as [|n]; cbn; lia. Qed.
Theorem C61_retry_kept k pre l s s' : rstep k pre l s = Some s' -> (r_retry s' < r_retry s)%nat -> l = RRetry /\ r_loc s' = LUpdate true.
Proof. intros H Hlt. destruct s as [lo re ti ec bu go cx]. step_cases H; repeat case_match; cbn in *; try lia; done. Qed.
(** No tick is needed: from the failed Update on, the goroutine alone (and room in the error
    channel) leads to the next Update. *)
Theorem C61_retry_without_tick k pre ls s b e : reaches k pre ls s -> r_loc s = LUpdate b -> (length (r_ech s) < 100)%nat ->
  exists n s', rrun k pre (RUpdated (Some e) :: replicate n RStep ++ [RRetry]) s = Some s' /\ r_loc s' = LUpdate true.
Proof.
  intros H Hl Hec. pose proof (C61_at_most_one_retry _ _ _ _ H) as Hre. destruct s as [lo re ti ec bu go cx]. cbn [r_loc r_ech r_retry] in *. subst lo.
  assert ((length ec <? ecap)%nat = true) as Hb by (unfold ecap; lia).
  exists (match k, b with Sending, false => 2 | _, _ => 3 end)%nat.
  destruct k, b; cbn [replicate app rrun rstep r_loc r_ech r_goto r_retry r_tick r_buf r_got r_ctx]; rewrite ?Hb; cbn [rrun rstep r_loc r_ech r_goto r_retry r_tick r_buf r_got r_ctx];
    destruct re as [|[|re]]; try lia; cbn; eexists; (split; [reflexivity|done]).
Qed.

(** ** C62 *)
Definition taken (s : rst) : list str := r_got s ++ r_ech s.
(** The message of an error the loop has not sent yet. *)
Definition unsent (l : loc) : list str := match l with LSend _ m => [m] | _ => [] end.
Lemma cancelled_snoc ls l e : cancelled ls e -> cancelled (ls ++ [l]) e.
Proof. unfold cancelled. rewrite elem_of_app. auto. Qed.
Definition sending_ok (pre : str) (ls : list rlabel) (s : rst) : Prop :=
  match r_loc s with
  | LEnd => exists e, cancelled ls e /\ r_ctx s = Some e /\ taken s = map (wrap pre) (failures ls) ++ [e]
  | LBye m => cancelled ls m /\ r_ctx s = Some m /\ taken s = map (wrap pre) (failures ls)
  | LPut _ => False
  | l => taken s ++ unsent l = map (wrap pre) (failures ls)
  end /\ forall e, r_ctx s = Some e -> cancelled ls e.
Lemma sending_inv pre ls s : reaches Sending pre ls s -> sending_ok pre ls s.
Proof.
  apply (reaches_ind Sending pre (sending_ok pre)); [done|]. clear.
  intros ls s l s' _ [IH Hc] H. assert (forall e, r_ctx s' = Some e -> cancelled (ls ++ [l]) e) as Hc'.
  { intros e. unfold cancelled in *. rewrite elem_of_app, elem_of_list_singleton. destruct s as [lo re ti ec bu go cx]. step_cases H; repeat case_match; cbn in *; intros ?; simplify_eq; auto. }
  split; [|done]. clear Hc'. rewrite failures_snoc. pose proof (cancelled_snoc ls l) as Hcs. destruct s as [lo re ti ec bu go cx]. unfold taken in *.
  step_cases H; cbn [failure]; rewrite ?app_nil_r in *; simplify_eq; repeat case_match; simplify_eq; cbn in *; rewrite ?app_nil_r, ?map_app in *; rewrite <- ?app_assoc in *; cbn in *; try (naive_solver congruence).
  - by rewrite app_assoc, IH.
  - destruct IH as (IH1 & IH2 & IH3). exists m. split_and!; [auto|done|]. by rewrite app_assoc, IH3.
Qed.

(** policyd and pubkeyd: what was received followed by what is still in the channel is every error
    so far, in order, except one about to be sent. *)
Theorem C62_errors_in_order pre ls s : reaches Sending pre ls s -> r_loc s <> LEnd ->
  exists rest, map (wrap pre) (failures ls) = r_got s ++ r_ech s ++ rest /\ (length rest <= 1)%nat /\
    ((forall b m, r_loc s <> LSend b m) -> rest = []).
Proof.
  intros H He. apply sending_inv in H as [H _]. exists (unsent (r_loc s)). unfold taken in H. rewrite app_assoc.
  destruct (r_loc s); cbn [unsent] in *; (split_and!; [|cbn; lia|naive_solver]); try done; try (by rewrite <- H); destruct H as (_ & _ & ->); by rewrite app_nil_r.
Qed.
Theorem C62_closing pre ls s : reaches Sending pre ls s -> r_loc s = LEnd ->
  exists e, cancelled ls e /\ r_got s ++ r_ech s = map (wrap pre) (failures ls) ++ [e].
Proof. intros H He. apply sending_inv in H as [H _]. rewrite He in H. destruct H as (e & H1 & _ & H2). by exists e. Qed.

(** jwkd: consecutive errors may be merged into one text, the newest first. *)
Fixpoint merge (es : list str) (acc : str) : str := match es with [] => acc | e :: es => merge es (wrap e acc) end.
Definition merged (es : list str) : str := merge es [].
Lemma merge_snoc es e acc : merge (es ++ [e]) acc = wrap e (merge es acc).
Proof. revert acc. induction es as [|x es IH]; intros acc; [done|]. cbn. apply IH. Qed.
Lemma wrap_not_nil m e : wrap m e <> [].
Proof. unfold wrap. by destruct m. Qed.
Lemma merged_nil es : merged es = [] <-> es = [].
Proof.
  split; [|by intros ->]. destruct es as [|e es] using rev_ind; [done|]. unfold merged. rewrite merge_snoc. intros H. by apply wrap_not_nil in H.
Qed.
(** Errors not yet put into the channel or ebuf. *)
Definition held (l : loc) : list str := match l with LSleep m | LPut m => [m] | _ => [] end.
(** The last message: the context's error, wrapped with the text kept back. *)
Definition farewell (kept : list str) (e : str) : str := match kept with [] => e | _ => wrap (merged kept) e end.
Definition buffering_ok (pre : str) (ls : list rlabel) (s : rst) : Prop :=
  (exists blocks kept, map (wrap pre) (failures ls) = concat blocks ++ kept ++ held (r_loc s) /\ Forall (fun b => b <> []) blocks /\ r_buf s = merged kept /\
    match r_loc s with
    | LEnd => exists e, cancelled ls e /\ r_ctx s = Some e /\ taken s = map merged blocks ++ [farewell kept e]
    | LBye m => taken s = map merged blocks /\ exists e, cancelled ls e /\ r_ctx s = Some e /\ m = farewell kept e
    | LSend _ _ => False
    | _ => taken s = map merged blocks
    end) /\ forall e, r_ctx s = Some e -> cancelled ls e.
Lemma buffering_inv pre ls s : reaches Buffering pre ls s -> buffering_ok pre ls s.
Proof.
  apply (reaches_ind Buffering pre (buffering_ok pre)).
  { split; [|done]. exists [], []. by split_and!. }
  clear. intros ls s l s' _ [IH Hc] H. assert (forall e, r_ctx s' = Some e -> cancelled (ls ++ [l]) e) as Hc'.
  { intros e. unfold cancelled in *. rewrite elem_of_app, elem_of_list_singleton. destruct s as [lo re ti ec bu go cx]. step_cases H; repeat case_match; cbn in *; intros ?; simplify_eq; auto. }
  split; [|done]. clear Hc'. rewrite failures_snoc. pose proof (cancelled_snoc ls l) as Hcs. destruct s as [lo re ti ec bu go cx]. unfold taken in *.
  destruct IH as (bl & ke & H1 & H2 & H3 & H5). destruct l; unfold rstep in H; cbn [r_loc r_retry r_tick r_ech r_buf r_got r_ctx r_goto failure] in *; rewrite ?app_nil_r.
  - exists bl, ke. destruct lo; try done; injection H as <-; cbn; split_and!; naive_solver.
  - exists bl, ke. destruct cx; [done|]. injection H as <-. cbn. split_and!; try done. destruct lo; naive_solver.
  - exists bl, ke. destruct lo; try done. destruct cx as [e|]; [|done]. injection H as <-. cbn. split_and!; try done. exists e. split_and!; [auto|done|].
    subst bu. unfold farewell. destruct ke as [|x ke]; [done|]. by destruct (merged (x :: ke)) eqn:E; [apply merged_nil in E|].
  - exists bl, ke. destruct lo; try done. destruct re; [done|]. injection H as <-. cbn. by split_and!.
  - exists bl, ke. destruct lo; try done. destruct ti; [|done]. injection H as <-. cbn. by split_and!.
  - exists bl, ke. destruct lo; try done. cbn in H1. rewrite app_nil_r in H1. destruct r as [e|]; injection H as <-; cbn; rewrite ?app_nil_r; (split_and!; [|done..]).
    + by rewrite map_app, H1, app_assoc.
    + done.
  - destruct lo; try done.
    + exists bl, ke. injection H as <-. by split_and!.
    + destruct (length ec <? ecap)%nat eqn:E; injection H as <-; cbn.
      * exists (bl ++ [ke ++ [m]]), []. cbn in H1. rewrite concat_app, map_app. cbn. rewrite !app_nil_r. split_and!; [done| |done|].
        { apply Forall_app. split; [done|]. constructor; [by destruct ke|constructor]. }
        rewrite app_assoc, H5, H3. do 2 f_equal. unfold merged. by rewrite merge_snoc.
      * exists bl, (ke ++ [m]). cbn in H1. rewrite app_nil_r. split_and!; [done|done|unfold merged; rewrite merge_snoc; by subst bu|done].
    + exists bl, ke. injection H as <-. by split_and!.
    + destruct (length ec <? ecap)%nat eqn:E; [|done]. injection H as <-. cbn. exists bl, ke. destruct H5 as (H5 & e & H6 & H7 & ->). split_and!; auto. exists e. split_and!; auto. by rewrite app_assoc, H5.
  - destruct ec as [|m ec]; [done|]. injection H as <-. cbn. exists bl, ke. rewrite <- app_assoc. cbn. split_and!; try done. destruct lo; naive_solver.
Qed.
Theorem C62_jwk_errors_in_order pre ls s : reaches Buffering pre ls s -> r_loc s <> LEnd ->
  exists blocks rest, map (wrap pre) (failures ls) = concat blocks ++ rest /\ Forall (fun b => b <> []) blocks /\ r_got s ++ r_ech s = map merged blocks.
Proof.
  intros H He. apply buffering_inv in H as [(bl & ke & H1 & H2 & _ & H5) _]. exists bl, (ke ++ held (r_loc s)). split_and!; [done|done|]. unfold taken in H5. destruct (r_loc s); naive_solver.
Qed.
Theorem C62_jwk_closing pre ls s : reaches Buffering pre ls s -> r_loc s = LEnd ->
  exists blocks kept e, map (wrap pre) (failures ls) = concat blocks ++ kept /\ Forall (fun b => b <> []) blocks /\ cancelled ls e /\
    r_got s ++ r_ech s = map merged blocks ++ [farewell kept e].
Proof.
  intros H He. apply buffering_inv in H as [(bl & ke & H1 & H2 & _ & H5) _]. rewrite He in H5, H1. cbn in H1. rewrite app_nil_r in H1. destruct H5 as (e & H6 & _ & H7).
  exists bl, ke, e. by split_and!.
Qed.

(** The goroutine can finish: by its own steps, Update returning, and the user receiving. *)
Definition finishes (k : kind) (pre : str) (s : rst) : Prop :=
  exists ls s', rrun k pre ls s = Some s' /\ r_loc s' = LEnd /\ Forall (fun l => l = RStep \/ l = RRecv \/ l = RDone \/ l = RUpdated None) ls.
Lemma finishes_step k pre l s s1 : l = RStep \/ l = RRecv \/ l = RDone \/ l = RUpdated None -> rstep k pre l s = Some s1 -> finishes k pre s1 -> finishes k pre s.
Proof. intros Hl H1 (ls & s' & H2 & H3 & H4). exists (l :: ls), s'. cbn. rewrite H1. split_and!; [done|done|]. by constructor. Qed.
(** Once the context ended it can always finish if the user keeps receiving. *)
Theorem C62_can_finish k pre ls s e : reaches k pre ls s -> r_ctx s = Some e -> finishes k pre s.
Proof.
  intros _ Hc. destruct s as [lo re ti ec bu go cx]. cbn in Hc. subst cx. set (cx := Some e).
  assert (forall lo re ti bu, (forall go, finishes k pre (RSt lo re ti [] bu go cx)) -> forall ec go, finishes k pre (RSt lo re ti ec bu go cx)) as Hdrain.
  { clear. intros lo re ti bu H ec. induction ec as [|m ec IH]; intros go; [done|]. eapply (finishes_step _ _ RRecv); [auto|reflexivity|apply IH]. }
  assert (forall m re ti ec bu go, finishes k pre (RSt (LBye m) re ti ec bu go cx)) as Hbye.
  { clear -Hdrain. intros. apply Hdrain. clear. intros go. eapply (finishes_step _ _ RStep); [auto|reflexivity|]. eexists [], _. by split_and!. }
  assert (forall re ti ec bu go, finishes k pre (RSt LSelect re ti ec bu go cx)) as Hsel.
  { clear -Hbye. intros. eapply (finishes_step _ _ RDone); [auto|reflexivity|apply Hbye]. }
  assert (forall re ti ec bu go, finishes k pre (RSt LQueue re ti ec bu go cx)) as Hq.
  { clear -Hsel. intros. eapply (finishes_step _ _ RStep); [auto|reflexivity|apply Hsel]. }
  assert (forall m re ti ec bu go, finishes k pre (RSt (LPut m) re ti ec bu go cx)) as Hput.
  { clear -Hq. intros. eapply (finishes_step _ _ RStep); [auto|reflexivity|]. destruct (_ <? _)%nat; apply Hq. }
  assert (forall m re ti ec bu go, finishes k pre (RSt (LSleep m) re ti ec bu go cx)) as Hsl.
  { clear -Hq Hput. intros. eapply (finishes_step _ _ RStep); [auto|reflexivity|]. destruct k; [apply Hq|apply Hput]. }
  destruct lo; auto.
  - eapply (finishes_step _ _ (RUpdated None)); [auto|reflexivity|apply Hsel].
  - apply Hdrain. clear -Hq Hsl. intros go. eapply (finishes_step _ _ RStep); [auto|reflexivity|]. destruct r; auto.
  - eexists [], _. by split_and!.
Qed.
Theorem C62_nothing_after_closing k pre ls s l s' : reaches k pre ls s -> r_loc s = LEnd -> rstep k pre l s = Some s' ->
  r_loc s' = LEnd /\ r_got s' ++ r_ech s' = r_got s ++ r_ech s /\ (l = RRecv \/ exists e, l = RCancel e).
Proof.
  intros _ Hl H. destruct s as [lo re ti ec bu go cx]. cbn in Hl. subst lo. destruct l; cbn in H; try done.
  - destruct cx; [done|]. injection H as <-. naive_solver.
  - destruct ec; [done|]. injection H as <-. cbn. rewrite <- app_assoc. auto.
Qed.
Definition fail (e : str) : list rlabel := [RTick; RFire; RUpdated (Some e); RStep; RStep].
Definition shown (o : option rst) : option (loc * list str) := match o with Some s => Some (r_loc s, r_got s ++ r_ech s) | None => None end.
Example C61_nonvacuous : exists s, reaches Sending (B "p") (fail (B "x")) s /\ r_loc s = LSelect /\ last_update (fail (B "x")) = Some (Some (B "x")) /\ r_retry s = 1%nat.
Proof. eexists. split_and!; [vm_compute; reflexivity|done..]. Qed.
Example C62_nonvacuous :
  shown (rrun Sending (B "p") (fail (B "x") ++ [RRetry; RRecv; RUpdated (Some (B "y")); RStep; RStep; RStep; RCancel (B "c"); RDone; RStep]) rinit) = Some (LEnd, [B "p: x"; B "p: y"; B "c"]) /\
  shown (rrun Buffering (B "p") (fail (B "x") ++ [RStep; RCancel (B "c"); RDone; RStep]) rinit) = Some (LEnd, [B "p: x: "; B "c"]).
Proof. split; vm_compute; reflexivity. Qed.

(** ** C63 *)
(** policyd and pubkeyd: never more than 101 errors ahead of the user. *)
Theorem C63_backlog_bound pre ls s : reaches Sending pre ls s -> (length (failures ls) <= length (r_got s) + 101)%nat.
Proof.
  intros H. assert (length (r_ech s) <= 100)%nat as He.
  { apply (reaches_ind Sending pre (fun _ s => (length (r_ech s) <= 100)%nat)) in H; [done|cbn; lia|]. clear. intros ls s l s' _ IH H. destruct s as [lo re ti ec bu go cx].
    step_cases H; repeat case_match; unfold ecap in *; cbn in *; rewrite ?app_length; cbn; lia. }
  apply sending_inv in H as [H _]. apply (f_equal length) in H || idtac. unfold taken in H.
  assert (length (map (wrap pre) (failures ls)) <= length (r_got s) + length (r_ech s) + 1)%nat as Hm.
  { destruct (r_loc s); cbn [unsent] in H; try (rewrite <- H; rewrite !app_length; cbn; lia); [done| |].
    - destruct H as (_ & _ & <-). rewrite app_length. lia.
    - destruct H as (e & _ & _ & H). apply (f_equal length) in H. rewrite !app_length in H. cbn in H. lia. }
  rewrite map_length in Hm. lia.
Qed.
(** Once full, nothing but a receive moves the loop: no refresh, no shutdown. *)
Theorem C63_stuck pre ls s s' b m : r_loc s = LSend b m -> (100 <= length (r_ech s))%nat -> RRecv ∉ ls -> rrun Sending pre ls s = Some s' ->
  r_loc s' = LSend b m /\ r_ech s' = r_ech s /\ failures ls = [].
Proof.
  revert s. induction ls as [|l ls IH]; intros s Hl He Hn H; [by injection H as <-|]. rewrite elem_of_cons in Hn. cbn in H. destruct (rstep Sending pre l s) as [s1|] eqn:E; [|done].
  assert (r_loc s1 = LSend b m /\ r_ech s1 = r_ech s /\ failure l = []) as (H1 & H2 & H3).
  { destruct s as [lo re ti ec bu go cx]. cbn in Hl, He. subst lo. destruct l; cbn [rstep r_loc r_ctx r_retry r_tick r_ech r_goto] in E; try done; try (by injection E as <-); try (by destruct cx; [done|injection E as <-]).
    - assert ((length ec <? ecap)%nat = false) as E1 by (unfold ecap; lia). by rewrite E1 in E.
    - exfalso. auto. }
  destruct (IH s1) as (H4 & H5 & H6); [done|by rewrite H2|auto|done|]. split_and!; [done|congruence|]. unfold failures. cbn. rewrite H3. exact H6.
Qed.
(** Such a state is reached after 101 failures nobody read. *)
Definition flood : list rlabel := concat (replicate 100 (fail (B "x"))) ++ [RTick; RFire; RUpdated (Some (B "x"))].
Theorem C63_stalls_refuted : exists ls s, reaches Sending (B "p") ls s /\ RRecv ∉ ls /\ r_ctx s = None /\ r_loc s = LSend false (B "p: x") /\ length (r_ech s) = 100%nat /\
  length (failures ls) = 101%nat.
Proof.
  assert (exists s, reaches Sending (B "p") flood s /\ r_ctx s = None /\ r_loc s = LSend false (B "p: x") /\ length (r_ech s) = 100%nat) as (s & H1 & H2 & H3 & H4).
  { eexists. split_and!; [vm_compute; reflexivity|done..]. }
  exists flood, s. split_and!; [exact H1| |exact H2|exact H3|exact H4|vm_compute; reflexivity].
  clear. enough (forallb (fun l => match l with RRecv => false | _ => true end) flood = true) as H.
  { intros Hin. apply elem_of_list_In in Hin. by apply (proj1 (forallb_forall _ _) H) in Hin. }
  vm_compute. reflexivity.
Qed.
(** jwkd goes on to the next Update without the user. *)
Definition goes_on (k : kind) (pre : str) (s : rst) : Prop :=
  exists ls s', rrun k pre ls s = Some s' /\ (exists b, r_loc s' = LUpdate b) /\ Forall (fun l => l = RStep \/ l = RTick \/ l = RFire \/ l = RUpdated None) ls.
Lemma goes_on_step k pre l s s1 : l = RStep \/ l = RTick \/ l = RFire \/ l = RUpdated None -> rstep k pre l s = Some s1 -> goes_on k pre s1 -> goes_on k pre s.
Proof. intros Hl H1 (ls & s' & H2 & H3 & H4). exists (l :: ls), s'. cbn. rewrite H1. split_and!; [done|done|]. by constructor. Qed.
Theorem C63_jwk_never_stalls_partial pre ls s : reaches Buffering pre ls s -> (forall m, r_loc s <> LBye m) -> r_loc s <> LEnd -> goes_on Buffering pre s.
Proof.
  intros H Hb He. apply buffering_inv in H as [(bl & ke & _ & _ & _ & H) _]. destruct s as [lo re ti ec bu go cx]. cbn in Hb, He, H.
  assert (forall re ti ec bu, goes_on Buffering pre (RSt LSelect re ti ec bu go cx)) as Hsel.
  { clear. intros. eapply (goes_on_step _ _ RTick); [auto|reflexivity|]. eapply (goes_on_step _ _ RFire); [auto|reflexivity|]. eexists [], _. split_and!; [done|by eexists|constructor]. }
  assert (forall re ti ec bu, goes_on Buffering pre (RSt LQueue re ti ec bu go cx)) as Hq.
  { clear -Hsel. intros. eapply (goes_on_step _ _ RStep); [auto|reflexivity|]. apply Hsel. }
  assert (forall m re ti ec bu, goes_on Buffering pre (RSt (LPut m) re ti ec bu go cx)) as Hput.
  { clear -Hq. intros. eapply (goes_on_step _ _ RStep); [auto|reflexivity|]. destruct (_ <? _)%nat; apply Hq. }
  destruct lo; auto; [|done| |by destruct (Hb m)|done].
  - eapply (goes_on_step _ _ (RUpdated None)); [auto|reflexivity|]. apply Hsel.
  - eapply (goes_on_step _ _ RStep); [auto|reflexivity|]. apply Hput.
Qed.
(** But it cannot stop while the channel is full. *)
Definition jflood : list rlabel := concat (replicate 100 (fail (B "x") ++ [RStep])) ++ [RCancel (B "c"); RDone].
Theorem C63_jwk_shutdown_stalls_refuted : exists s, reaches Buffering (B "p") jflood s /\ RRecv ∉ jflood /\ r_loc s = LBye (B "c") /\ length (r_ech s) = 100%nat /\
  forall l s', rstep Buffering (B "p") l s = Some s' -> l = RRecv.
Proof.
  assert (exists s, reaches Buffering (B "p") jflood s /\ r_ctx s = Some (B "c") /\ r_loc s = LBye (B "c") /\ length (r_ech s) = 100%nat) as (s & H1 & H2 & H3 & H4).
  { eexists. split_and!; [vm_compute; reflexivity|done..]. }
  exists s. split_and!; [exact H1| |exact H3|exact H4|].
  { clear. enough (forallb (fun l => match l with RRecv => false | _ => true end) jflood = true) as H.
    { intros Hin. apply elem_of_list_In in Hin. by apply (proj1 (forallb_forall _ _) H) in Hin. }
    vm_compute. reflexivity. }
  clear H1. intros l s' H. destruct s as [lo re ti ec bu go cx]. cbn [r_loc r_ech r_ctx] in *. subst. destruct l; cbn [rstep r_loc r_ech r_ctx] in H; try done.
  rewrite H4 in H. done.
Qed.

Example C63_nonvacuous : exists s, reaches Sending (B "p") flood s /\ r_loc s = LSend false (B "p: x") /\ (100 <= length (r_ech s))%nat /\
  shown (rrun Sending (B "p") (flood ++ [RRecv; RStep; RStep]) rinit) = Some (LSelect, replicate 101 (B "p: x")) /\
  rstep Sending (B "p") RStep s = None.
Proof. eexists. split_and!; [vm_compute; reflexivity|done|cbn; lia|vm_compute; reflexivity..]. Qed.

Print Assumptions C61_at_most_one_retry.
Print Assumptions C61_failure_queues_retry.
Print Assumptions C61_queue_never_blocks.
Print Assumptions C61_retry_kept.
Print Assumptions C61_retry_without_tick.
Print Assumptions C62_errors_in_order.
Print Assumptions C62_closing.
Print Assumptions C62_jwk_errors_in_order.
Print Assumptions C62_jwk_closing.
Print Assumptions C62_can_finish.
Print Assumptions C62_nothing_after_closing.
Print Assumptions C61_nonvacuous.
Print Assumptions C62_nonvacuous.
Print Assumptions C63_backlog_bound.
Print Assumptions C63_stuck.
Print Assumptions C63_stalls_refuted.
Print Assumptions C63_jwk_never_stalls_partial.
Print Assumptions C63_jwk_shutdown_stalls_refuted.
Print Assumptions C63_nonvacuous.
