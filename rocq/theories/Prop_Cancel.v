(** * Property C105: when its context ends, Update stops *)
From Verif Require Import PolicyUpdateFacts PolicySimplify PolicySimplifySpec Prop_PolicyUpdate.
From Verif Require PolicySimplifyProofs.
From Verif Require Import GoStrings.

(** ** Reading a document: simplifyAndCachePolicy, policy/daemon.go:324-354 *)
Section reading.
  Context (U : unicode).
  (** What goroutine [i] has not looked at yet. *)
  Definition unread (s : sst) (i : nat) : list raw :=
    match ss_work s !! i with Some (SLoop r) | Some (SStore _ _ r) => r | _ => [] end.
  Lemma srun_cancelled ls s s' : srun U ls s = Some s' -> ss_cancel s = true -> ss_cancel s' = true.
  Proof.
    revert s. induction ls as [|l ls IH]; intros s H Hc; cbn in H; [by injection H as <-|].
    destruct (sstep U l s) as [s1|] eqn:E; [|done]. eapply IH; [exact H|]. destruct l; cbn in E; [|by injection E as <-].
    repeat case_match; try done; by injection E as <-.
  Qed.
  (** The context has ended: a goroutine with something left looks at none of it, so the document is not
      cached; unless it fails it has the same left. *)
  Theorem C105_reading_stops ls s s' i : srun U ls s = Some s' -> ss_cancel s = true -> unread s i <> [] ->
    (ss_work s' !! i = Some (SDone (Some ErrCanceled)) \/ unread s' i = unread s i) /\ ~ simplified s'.
  Proof.
    intros H Hc Hu.
    assert (ss_work s' !! i = Some (SDone (Some ErrCanceled)) \/ unread s' i = unread s i) as Hd.
    { revert s H Hc Hu. induction ls as [|l ls IH]; intros s H Hc Hu; cbn in H; [injection H as <-; by right|].
      destruct (sstep U l s) as [s1|] eqn:E; [|done].
      assert (ss_cancel s1 = true) as Hc1 by (eapply (srun_cancelled [l]); [cbn; by rewrite E|done]).
      assert (ss_work s1 !! i = Some (SDone (Some ErrCanceled)) \/ unread s1 i = unread s i) as [Hx|Hx].
      { unfold unread in *. destruct l as [j|]; cbn in E; [|injection E as <-; by right]. rewrite Hc in E.
        destruct (decide (j = i)) as [->|Hne].
        - destruct (ss_work s !! i) as [w|] eqn:Ew; [|done]. pose proof (lookup_lt_Some _ _ _ Ew) as Hlt.
          destruct w as [[|a r]|a f r|e]; try done; injection E as <-; cbn; rewrite list_lookup_insert by done; [by left|by right].
        - right. destruct (ss_work s !! j) as [w|] eqn:Ew; [|done]. destruct w as [[|a r]|a f r|e]; try done; injection E as <-; cbn; by rewrite list_lookup_insert_ne. }
      - left. clear -H Hx. revert s1 H Hx. induction ls as [|l ls IH]; intros s H Hx; cbn in H; [by injection H as <-|].
        destruct (sstep U l s) as [s1|] eqn:E; [|done]. eapply IH; [exact H|]. destruct l as [j|]; cbn in E; [|by injection E as <-].
        destruct (decide (j = i)) as [->|Hne]; [by rewrite Hx in E|].
        repeat case_match; try done; injection E as <-; cbn; by rewrite list_lookup_insert_ne.
      - destruct (IH _ H Hc1) as [?|?]; [by rewrite Hx|by left|right; congruence]. }
    split; [done|]. intros Hs. unfold simplified in Hs. rewrite Forall_lookup in Hs. destruct Hd as [Hd|Hd].
    - by specialize (Hs _ _ Hd).
    - unfold unread in Hd, Hu. destruct (ss_work s' !! i) as [w|] eqn:Ew; [rewrite (Hs _ _ Ew) in Hd|]; congruence.
  Qed.
  Theorem C105_reading_cancelled doc c l1 l2 s1 s i : srun U l1 (sinit doc c) = Some s1 -> unread s1 i <> [] ->
    srun U (SCancel :: l2) s1 = Some s -> ~ simplified s.
  Proof. intros _ Hu H. cbn [srun sstep] in H. by eapply (C105_reading_stops l2 _ s i H). Qed.
  (** A document whose context had ended before is not cached unless it is without assertions. *)
  Theorem C105_nothing_read doc ls s : srun U ls (sinit doc true) = Some s -> (exists pol, pol ∈ doc /\ pol <> []) -> ~ simplified s /\ ss_map s = ∅.
  Proof.
    intros H (pol & Hin & Hne). split.
    - apply elem_of_list_lookup in Hin as [i Hi]. eapply (C105_reading_stops ls _ s i H); [done|]. unfold unread. cbn. rewrite list_lookup_fmap, Hi. by cbn.
    - assert (forall ls s s', srun U ls s = Some s' -> ss_cancel s = true -> ss_map s = ∅ -> (forall w, w ∈ ss_work s -> match w with SStore _ _ _ => False | _ => True end) -> ss_map s' = ∅) as Hgen.
      { clear. induction ls as [|l ls IH]; intros s s' H Hc Hm Hw; cbn in H; [by injection H as <-|]. destruct (sstep U l s) as [s1|] eqn:E; [|done].
        destruct l as [j|]; cbn in E; [|injection E as <-; by eapply IH]. rewrite Hc in E. destruct (ss_work s !! j) as [w|] eqn:Ew; [|done].
        pose proof (Hw _ (elem_of_list_lookup_2 _ _ _ Ew)) as Hj. destruct w as [[|a r]|a f r|e]; try done; injection E as <-; (eapply IH; [exact H|done|done|]);
          intros w Hin; cbn in Hin; apply elem_of_list_lookup in Hin as [k Hk]; apply list_lookup_insert_Some in Hk as [(_ & <- & _)|[_ Hk]]; try done; by apply Hw, elem_of_list_lookup_2 with k. }
      eapply Hgen; [exact H|done|done|]. intros w Hw. cbn in Hw. apply elem_of_list_fmap in Hw as (p & -> & _). done.
  Qed.
End reading.

(** ** Update, policy/daemon.go:156-211 *)
Section update.
  Context (U : unicode).
  (** The context has ended while fetchers were left to be started. *)
  Definition interrupted (n : nat) (s : ust) : Prop := u_cancel s = true /\ (u_spawned s < n)%nat /\ length (c_work (u_c s)) = n.
  Lemma cwork_length l c c' : cstep U l c = Some c' -> length (c_work c') = length (c_work c).
  Proof. destruct l; cbn [cstep]; intros H; repeat case_match; try done; injection H as <-; cbn [c_work]; by rewrite ?insert_length. Qed.
  (** No further fetcher is started, and Update fails with the context's error if it returns, whatever its goroutines
      do; the cache in use is not replaced. *)
  Theorem C105_update_stops n ls s s' : urun U ls s = Some s' -> interrupted n s -> u_ret s = None ->
    interrupted n s' /\ u_spawned s' = u_spawned s /\ u_cur s' = u_cur s /\ (u_ret s' = None \/ u_ret s' = Some (Err ErrCanceled)).
  Proof.
    intros H Hi Hr. assert (u_ret s = None \/ u_ret s = Some (Err ErrCanceled)) as Hr' by by left. clear Hr.
    revert s H Hi Hr'. induction ls as [|l ls IH]; intros s H (Hc & Hlt & Hlen) Hr; cbn in H; [injection H as <-; done|].
    destruct (ustep U l s) as [s1|] eqn:E; [|done].
    assert (interrupted n s1 /\ u_spawned s1 = u_spawned s /\ u_cur s1 = u_cur s /\ (u_ret s1 = None \/ u_ret s1 = Some (Err ErrCanceled))) as (H1 & H2 & H3 & H4).
    { destruct l as [| |i inp|]; cbn [ustep] in E.
      - injection E as <-. done.
      - destruct Hr as [Hr|Hr]; rewrite Hr in E; [|done]. rewrite Hc in E. destruct (decide _) in E; [|done]. injection E as <-. cbn. split; [done|]. split; [done|]. split; [done|by right].
      - destruct (decide _) in E; [|done]. destruct (cstep U (CWork i inp) (u_c s)) as [c|] eqn:Ec; [|done]. injection E as <-. unfold interrupted. cbn.
        apply cwork_length in Ec. split; [|done]. split; [done|]. split; [done|congruence].
      - destruct Hr as [Hr|Hr]; rewrite Hr in E; [|done]. destruct (decide (u_spawned s = length (c_work (u_c s)))) as [Hx|]; [lia|done]. }
    destruct (IH _ H H1 H4) as (I1 & I2 & I3 & I4). split_and!; [done|congruence|congruence|done].
  Qed.
  (** And it does return at its next own step, without waiting for the goroutines. *)
  Theorem C105_update_returns n s : interrupted n s -> u_ret s = None ->
    exists s', ustep U USpawn s = Some s' /\ u_ret s' = Some (Err ErrCanceled) /\ ustep U UFinish s = None.
  Proof.
    intros (Hc & Hlt & Hlen) Hr. cbn [ustep]. rewrite Hr, Hc. destruct (decide _) as [_|Hn]; [|rewrite Hlen in Hn; lia].
    eexists. split; [done|]. split; [done|]. destruct (decide _) as [Hx|]; [lia|done].
  Qed.
  Lemma urun_app l1 l2 s : urun U (l1 ++ l2) s = match urun U l1 s with Some s1 => urun U l2 s1 | None => None end.
  Proof. revert s. induction l1 as [|l l1 IH]; intros s; cbn; [done|]. destruct (ustep U l s); [apply IH|done]. Qed.
  Lemma work_length ls s s' : urun U ls s = Some s' -> length (c_work (u_c s')) = length (c_work (u_c s)).
  Proof.
    revert s. induction ls as [|l ls IH]; intros s H; cbn in H; [by injection H as <-|]. destruct (ustep U l s) as [s1|] eqn:E; [|done]. rewrite (IH _ H). clear IH H.
    destruct l as [| |i inp|]; cbn [ustep] in E.
    - by injection E as <-.
    - repeat case_match; try done; by injection E as <-.
    - destruct (decide _) in E; [|done]. destruct (cstep U (CWork i inp) (u_c s)) as [c|] eqn:Ec; [|done]. injection E as <-. by apply cwork_length in Ec.
    - repeat case_match; try done; by injection E as <-.
  Qed.
  (** In an execution: the context ends when [k] of [n] goroutines have been started; none is started any more, and Update does not succeed. *)
  Theorem C105_cancelled cur n c l1 l2 s1 s : urun U l1 (uinit cur n c) = Some s1 -> (u_spawned s1 < n)%nat -> u_ret s1 = None ->
    urun U (l1 ++ UCancel :: l2) (uinit cur n c) = Some s ->
    u_spawned s = u_spawned s1 /\ u_cur s = cur /\ (u_ret s = None \/ u_ret s = Some (Err ErrCanceled)) /\ forall i inp, UWork i inp ∈ l2 -> (i < u_spawned s1)%nat.
  Proof.
    intros H1 Hlt Hr H. rewrite urun_app, H1 in H. cbn [urun ustep] in H. pose proof (work_length _ _ _ H1) as Hw. cbn in Hw. rewrite replicate_length in Hw.
    set (s2 := USt (u_c s1) (u_spawned s1) true (u_cur s1) (u_err s1) (u_ret s1)) in H. assert (interrupted n s2) as Hi by (split; [done|]; split; [exact Hlt|exact Hw]).
    destruct (C105_update_stops _ _ _ _ H Hi Hr) as (_ & G2 & G3 & G4). split; [done|]. split; [|split; [done|]].
    - destruct (C17_update_all_or_nothing _ _ _ _ _ _ H1) as [G5 _]. rewrite G3. apply G5. by rewrite Hr.
    - intros i inp Hin. apply elem_of_list_split in Hin as (la & lb & ->). rewrite urun_app in H. destruct (urun U la s2) as [s3|] eqn:E; [|done].
      destruct (C105_update_stops _ _ _ _ E Hi Hr) as (_ & G5 & _). cbn [urun ustep] in H. rewrite G5 in H. destruct (decide (i < u_spawned s2)%nat); [done|done].
  Qed.
  (** The context had ended before: Update fetches nothing, if there is anything to fetch. *)
  Theorem C105_update_not_begun cur n ls s : urun U ls (uinit cur n true) = Some s -> (0 < n)%nat ->
    u_cur s = cur /\ (u_ret s = None \/ u_ret s = Some (Err ErrCanceled)) /\ forall i inp, UWork i inp ∉ ls.
  Proof.
    intros H Hn. assert (interrupted n (uinit cur n true)) as Hi by (split; [done|]; split; [done|]; cbn; by rewrite replicate_length).
    destruct (C105_update_stops _ _ _ _ H Hi ltac:(done)) as (_ & _ & H3 & H4). split; [done|]. split; [done|]. intros i inp Hin.
    apply elem_of_list_split in Hin as (l1 & l2 & ->). rewrite urun_app in H. destruct (urun U l1 _) as [s1|] eqn:E; [|done].
    destruct (C105_update_stops _ _ _ _ E Hi ltac:(done)) as (_ & H5 & _). cbn [urun ustep] in H. cbn in H5. rewrite H5 in H. destruct (decide (i < 0)%nat); [lia|done].
  Qed.
End update.

(** ** Examples *)
(** Two policies; the context ends when the first assertion of the first has been read. *)
Example C105_reading_nonvacuous :
  let a := Raw (B "d:role.r") (B "get") (B "d:/x") (B "ALLOW") in
  let b := Raw (B "d:role.r") (B "put") (B "d:/x") (B "ALLOW") in
  (exists s1, srun U0 [SWork 0] (sinit [[a; b]; [b]] false) = Some s1 /\ unread s1 0 = [b] /\ unread s1 1 = [b]) /\
  option_map ss_work (srun U0 [SWork 0; SCancel; SWork 0; SWork 0; SWork 1] (sinit [[a; b]; [b]] false)) = Some [SDone (Some ErrCanceled); SDone (Some ErrCanceled)] /\
  option_map ss_work (srun U0 ([SWork 0; SWork 0; SWork 0; SWork 0; SWork 0] ++ [SWork 1; SWork 1; SWork 1]) (sinit [[a; b]; [b]] false)) = Some [SDone None; SDone None].
Proof. cbn zeta. split; [eexists; split; [vm_compute; reflexivity|split; vm_compute; reflexivity]|]. split; vm_compute; reflexivity. Qed.
(** Two domains; the context ends when the first goroutine has been started; that finishes its work, and the old cache stays. *)
Example C105_update_nonvacuous :
  let old : gache (list assertion) := {[ B "old" := GEntry [] 0 ]} in
  option_map (fun s => (u_spawned s, u_ret s)) (urun U0 [USpawn] (uinit old 2 false)) = Some (1%nat, None) /\
  option_map (fun s => (u_ret s, size (c_g (u_c s)), bool_decide (is_Some (u_cur s !! B "old"))))
    (urun U0 ([USpawn; UCancel; UWork 0 (IFetch (Ok ex_job2)); USpawn] ++ [tick 0 12; tick 0 12]) (uinit old 2 false)) = Some (Some (Err ErrCanceled), 1%nat, true).
Proof. split; vm_compute; reflexivity. Qed.

(** A context that ends after the last goroutine has been started comes too late: the new cache is published. *)
Example C105_too_late :
  let old : gache (list assertion) := {[ B "old" := GEntry [] 0 ]} in
  option_map (fun s => (u_ret s, bool_decide (is_Some (u_cur s !! B "old"))))
    (urun U0 ([USpawn; UCancel; UWork 0 (IFetch (Ok ex_job2))] ++ [tick 0 12; tick 0 12; tick 0 12] ++ [UFinish]) (uinit old 1 false)) = Some (Some (Ok tt), false).
Proof. vm_compute; reflexivity. Qed.

Print Assumptions C105_reading_stops.
Print Assumptions C105_reading_cancelled.
Print Assumptions C105_nothing_read.
Print Assumptions C105_update_stops.
Print Assumptions C105_update_returns.
Print Assumptions C105_cancelled.
Print Assumptions C105_update_not_begun.
