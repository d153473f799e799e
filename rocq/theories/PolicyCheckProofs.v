From Verif Require Export PolicyCheck PolicySpec GoStringsFacts.

Section proofs.
  Context (U : unicode) (domain : str) (roles : list str) (action resource : str).
  Notation mt := (mt U domain action resource).
  Notation step := (step U domain roles action resource).
  Notation run := (run U domain roles action resource).
  Notation init := (init roles).
  Notation n := (length roles).
  Notation msgs := (list (nat * option error)).

  Definition role_of (i : nat) : str := match roles !! i with Some r => r | None => [] end.
  Definition msg (x : nat * option error) : str * option error := (role_of x.1, x.2).

  Definition explained (rd : list (option (option (list assertion)))) (i : nat) (e : option error) : Prop :=
    exists l a, rd !! i = Some (Some (Some l)) /\ find mt l = Some a /\ e = a_effect a.
  Definition nomatch (rd : list (option (option (list assertion)))) (i : nat) : Prop :=
    rd !! i = Some (Some None) \/ exists l, rd !! i = Some (Some (Some l)) /\ find mt l = None.

  Definition winv (rd : list (option (option (list assertion)))) (ca : bool) (idx : list nat) (i : nat) (w : wst) : Prop :=
    match w with
    | WIdle | WInit | WGet => rd !! i = Some None /\ i ∉ idx
    | WScan l' => (exists l, rd !! i = Some (Some (Some l)) /\ find mt l = find mt l') /\ i ∉ idx
    | WEval a l' => (exists l, rd !! i = Some (Some (Some l)) /\ find mt l = find mt (a :: l')) /\ i ∉ idx
    | WSend e => (explained rd i e \/ (e = Some ErrCanceled /\ ca = true)) /\ i ∉ idx
    | WRet | WFin => (i ∉ idx /\ nomatch rd i) \/ i ∈ idx
    end.

  Fixpoint nonfin (l : list wst) : nat :=
    match l with [] => 0 | WFin :: l => nonfin l | _ :: l => S (nonfin l) end.

  Definition dinv (d : dst) (rp : option ptr) (wg : nat) (wk : list wst) (cl : bool) : Prop :=
    match d with
    | DInit => rp = None /\ (forall i w, wk !! i = Some w -> w = WIdle) /\ cl = false
    | DSpawn k => rp <> None /\ (k <= n)%nat /\ (forall i w, wk !! i = Some w -> (w = WIdle <-> (k <= i)%nat))
                  /\ wg = nonfin wk /\ cl = false
    | DWait => rp <> None /\ (forall i w, wk !! i = Some w -> w <> WIdle) /\ wg = nonfin wk /\ cl = false
    | DClosed => rp <> None /\ (forall i w, wk !! i = Some w -> w = WFin) /\ cl = true
    end.

  Definition rinv (r : outcome (list str)) (recvd pend : msgs) (cl : bool) : Prop :=
    match r with
    | Ok acc => cl = true /\ pend = [] /\ acc <> [] /\
                Forall (fun x => x.2 = None) recvd /\ acc = map (fun x => role_of x.1) recvd
    | Err e => (e = ErrNoMatch /\ recvd = [] /\ pend = [] /\ cl = true) \/
               (exists i pre, recvd = pre ++ [(i, Some e)] /\ Forall (fun x => x.2 = None) pre)
    | Panic => False
    end.

  Definition minv (m : mst) (recvd pend : msgs) (cl : bool) : Prop :=
    match m with
    | MLoop acc => Forall (fun x => x.2 = None) recvd /\ acc = map (fun x => role_of x.1) recvd
    | MRtn r | MDone r => rinv r recvd pend cl
    end.

  (** [ec]: the caller's context has been cancelled by the environment. *)
  Definition inv (ec : bool) (s : st) (recvd pend : msgs) : Prop :=
    let 'St h cu ca rp d wg wk ch cl m p rd := s in
    length wk = n /\ length rd = n /\
    NoDup (map fst (recvd ++ pend)) /\
    ch = map msg pend /\
    (forall x, x ∈ recvd -> (x.1 < n)%nat /\ (explained rd x.1 x.2 \/ (x.2 = Some ErrCanceled /\ ec = true))) /\
    (forall x, x ∈ pend -> (x.1 < n)%nat /\ (explained rd x.1 x.2 \/ (x.2 = Some ErrCanceled /\ ca = true))) /\
    (forall i w, wk !! i = Some w -> winv rd ca (map fst (recvd ++ pend)) i w) /\
    (ca = true -> ec = true \/ exists r, m = MDone r) /\
    dinv d rp wg wk cl /\ minv m recvd pend cl /\ p = false.

  Lemma lookup_replicate_inv {A} k (x y : A) i : replicate k x !! i = Some y -> y = x.
  Proof. intros H. by apply lookup_replicate in H as [-> _]. Qed.

  Lemma inv_init h cu c : inv c (init h cu c) [] [].
  Proof.
    unfold init, inv. rewrite !replicate_length. split; [done|]. split; [done|].
    split; [constructor|]. split; [done|].
    split; [intros x Hx; by apply elem_of_nil in Hx|].
    split; [intros x Hx; by apply elem_of_nil in Hx|].
    split.
    { intros i w Hw. pose proof (lookup_replicate_inv _ _ _ _ Hw) as ->. simpl.
      split; [|by apply not_elem_of_nil]. apply lookup_lt_Some in Hw. rewrite replicate_length in Hw.
      by apply lookup_replicate. }
    split; [by left|]. split.
    { simpl. split; [done|]. split; [|done]. intros i w Hw. by eapply lookup_replicate_inv. }
    split; [by split|]. done.
  Qed.

  (** Monotonicity of the pieces. *)
  Lemma explained_set rd i e j v : rd !! j = Some None -> explained rd i e -> explained (<[j := Some v]> rd) i e.
  Proof.
    intros Hj (l & a & Hl & Hf & He). exists l, a. split; [|done].
    rewrite list_lookup_insert_ne; [done|]. intros ->. rewrite Hj in Hl. done.
  Qed.
  Lemma nomatch_set rd i j v : rd !! j = Some None -> nomatch rd i -> nomatch (<[j := Some v]> rd) i.
  Proof.
    intros Hj [Hl|(l & Hl & Hf)]; [left|right; exists l; split; [|done]];
      (rewrite list_lookup_insert_ne; [done|]; intros ->; rewrite Hj in Hl; done).
  Qed.
  Lemma winv_set rd ca idx i w j v : i <> j -> rd !! j = Some None ->
    winv rd ca idx i w -> winv (<[j := Some v]> rd) ca idx i w.
  Proof.
    intros Hne Hj. assert (<[j := Some v]> rd !! i = rd !! i) as Hi by (by rewrite list_lookup_insert_ne).
    destruct w; simpl; rewrite ?Hi; try done.
    - intros [[H|H] ?]; split; auto. left. by apply explained_set.
    - intros [[? ?]|?]; [left; split; [done|by apply nomatch_set]|by right].
    - intros [[? ?]|?]; [left; split; [done|by apply nomatch_set]|by right].
  Qed.
  Lemma winv_cancel rd ca idx i w : winv rd ca idx i w -> winv rd true idx i w.
  Proof. destruct w; simpl; try done. intros [[?|[? ?]] ?]; split; auto. Qed.
  Lemma winv_idx rd ca idx idx' i w : (i ∈ idx <-> i ∈ idx') -> winv rd ca idx i w -> winv rd ca idx' i w.
  Proof. intros H. destruct w; simpl; rewrite H; done. Qed.

  Lemma nonfin_insert wk i w w' : wk !! i = Some w -> w <> WFin -> w' <> WFin -> nonfin (<[i := w']> wk) = nonfin wk.
  Proof.
    revert i. induction wk as [|x wk IH]; intros [|i] Hi Hw Hw'; [done|done| |]; cbn in Hi.
    - injection Hi as ->. simpl. destruct w, w'; done.
    - change (<[S i := w']> (x :: wk)) with (x :: <[i := w']> wk). cbn [nonfin]. by rewrite (IH i).
  Qed.
  Lemma nonfin_fin wk i w : wk !! i = Some w -> w <> WFin -> nonfin wk = S (nonfin (<[i := WFin]> wk)).
  Proof.
    revert i. induction wk as [|x wk IH]; intros [|i] Hi Hw; [done|done| |]; cbn in Hi.
    - injection Hi as ->. simpl. by destruct w.
    - change (<[S i := WFin]> (x :: wk)) with (x :: <[i := WFin]> wk). cbn [nonfin]. rewrite (IH i) by done. by destruct x.
  Qed.
  Lemma nonfin_zero wk i w : nonfin wk = 0%nat -> wk !! i = Some w -> w = WFin.
  Proof.
    revert i. induction wk as [|x wk IH]; intros [|i] Hz Hi; [done|done| |]; cbn in *.
    - injection Hi as ->. by destruct w.
    - apply (IH i); [by destruct x|done].
  Qed.
  Lemma nonfin_replicate k : nonfin (replicate k WIdle) = k.
  Proof. induction k; simpl; congruence. Qed.
  Lemma all_idle_replicate wk : (forall i w, wk !! i = Some w -> w = WIdle) -> wk = replicate (length wk) WIdle.
  Proof.
    induction wk as [|x wk IH]; intros H; [done|]. simpl. rewrite (H 0%nat x) by done. f_equal.
    apply IH. intros i w Hi. by apply (H (S i)).
  Qed.

  Lemma work_update (P : nat -> wst -> Prop) (wk : list wst) i w' :
    (forall j x, j <> i -> wk !! j = Some x -> P j x) -> P i w' ->
    forall j x, <[i := w']> wk !! j = Some x -> P j x.
  Proof.
    intros Hall Hi j x Hj. destruct (decide (j = i)) as [->|Hne].
    - assert (i < length (<[i := w']> wk))%nat as Hlt by (by eapply lookup_lt_Some).
      rewrite insert_length in Hlt. rewrite list_lookup_insert in Hj by done. by injection Hj as <-.
    - rewrite list_lookup_insert_ne in Hj by done. by apply Hall.
  Qed.

  Lemma dinv_work d rp wg wk cl i w w' :
    wk !! i = Some w -> w <> WIdle -> w <> WFin -> w' <> WIdle -> w' <> WFin ->
    dinv d rp wg wk cl -> dinv d rp wg (<[i := w']> wk) cl /\ d <> DInit /\ cl = false.
  Proof.
    intros Hi H1 H2 H3 H4. destruct d; simpl.
    - intros (_ & Hall & _). by rewrite (Hall i w Hi) in H1.
    - intros (? & ? & Hall & -> & ->). split; [|done]. split; [done|]. split; [done|].
      split; [|by rewrite (nonfin_insert wk i w)].
      apply work_update; [by auto|]. split; [done|]. intros Hk. by apply (Hall i w Hi) in Hk.
    - intros (? & Hall & -> & ->). split; [|done]. split; [done|].
      split; [|by rewrite (nonfin_insert wk i w)].
      apply work_update; [by eauto|done].
    - intros (_ & Hall & _). by rewrite (Hall i w Hi) in H2.
  Qed.

  Lemma nodup_lt_length (l : list nat) k i : NoDup l -> (forall x, x ∈ l -> (x < k)%nat) -> (i < k)%nat -> i ∉ l ->
    (length l < k)%nat.
  Proof.
    intros Hnd Hlt Hi Hni.
    assert (length (i :: l) <= length (seq 0 k))%nat as Hle.
    { apply NoDup_incl_length; [apply NoDup_ListNoDup; by constructor|].
      intros x Hx. apply in_seq. destruct Hx as [->|Hx]; [lia|].
      apply elem_of_list_In in Hx. specialize (Hlt _ Hx). lia. }
    rewrite seq_length in Hle. simpl in Hle. lia.
  Qed.

  Lemma step_inv l ec s s' recvd pend : inv ec s recvd pend -> step l s = Some s' ->
    exists recvd' pend', inv (ec || is_cancel l) s' recvd' pend'.
  Proof.
    destruct s as [h cu ca rp d wg wk ch cl m p rd].
    intros (Hlw & Hlr & Hnd & Hch & Hrec & Hpend & Hw & Hca & Hd & Hm & Hp) Hst.
    unfold step in Hst. cbn [s_panic] in Hst. rewrite Hp in Hst. cbn [s_heap s_disp s_wg s_closed s_cur] in Hst.
    destruct l as [|q c|q c| | | |i|]; cbn [is_cancel]; rewrite ?orb_false_r.
    - (* EnvCancel *)
      injection Hst as <-. exists recvd, pend. rewrite orb_true_r. repeat (split; [done|]).
      split; [intros x Hx; destruct (Hrec x Hx) as [? [?|[? ?]]]; auto|].
      split; [intros x Hx; destruct (Hpend x Hx) as [? [?|[? ?]]]; auto|].
      split; [intros i w Hi; by eapply winv_cancel, Hw|].
      split; [by left|]. done.
    - (* EnvSwap *)
      destruct (h !! q); [done|]. injection Hst as <-. by exists recvd, pend.
    - destruct (h !! q); [|done]. injection Hst as <-. by exists recvd, pend.
    - (* LLoad *)
      destruct d; try done. injection Hst as <-. destruct Hd as (-> & Hall & ->).
      exists recvd, pend. repeat (split; [done|]). split; [|done].
      cbn. split; [done|]. split; [lia|]. split; [|split; [|done]].
      + intros i w Hi. split; [lia|]. intros _. by eapply Hall.
      + rewrite (all_idle_replicate _ Hall), nonfin_replicate. lia.
    - (* LSpawn *)
      destruct d as [|k| |]; try done. destruct Hd as (Hrp & Hk & Hall & -> & ->).
      destruct (Nat.ltb_spec k n) as [Hkn|Hkn]; injection Hst as <-.
      + destruct (lookup_lt_is_Some_2 wk k) as [w Hwk]; [lia|].
        assert (w = WIdle) as -> by (apply (Hall k w Hwk); lia).
        exists recvd, pend. split; [by rewrite insert_length|]. repeat (split; [done|]).
        split; [apply work_update; [by auto|by apply (Hw k WIdle)]|].
        split; [done|]. split; [|done].
        cbn. split; [done|]. split; [lia|]. split; [|split; [|done]].
        * apply work_update; [|split; [done|lia]].
          intros j x Hj Hx. rewrite (Hall j x Hx). lia.
        * by rewrite (nonfin_insert wk k WIdle).
      + exists recvd, pend. repeat (split; [done|]). split; [|done].
        cbn. split; [done|]. split; [|done]. intros i w Hi ->.
        apply (Hall i WIdle) in Hi as Hle. destruct Hle as [Hle _]. specialize (Hle eq_refl).
        apply lookup_lt_Some in Hi. lia.
    - (* LClose *)
      destruct d; try done. destruct Hd as (Hrp & Hall & -> & ->).
      destruct (Nat.eqb_spec (nonfin wk) 0) as [Hz|]; [|done]. injection Hst as <-.
      exists recvd, pend. repeat (split; [done|]). split; [|split; [|done]].
      + cbn. split; [done|]. split; [|done]. intros i w Hi. by eapply nonfin_zero.
      + destruct m as [acc|r|r]; cbn in *; [done|..].
        * destruct r as [acc|e|]; cbn in *; [|destruct Hm as [(_ & _ & _ & ?)|?]; [done|by right]|done].
          destruct Hm as (? & ?); done.
        * destruct r as [acc|e|]; cbn in *; [|destruct Hm as [(_ & _ & _ & ?)|?]; [done|by right]|done].
          destruct Hm as (? & ?); done.
    - (* LWork *)
      unfold work_step in Hst. cbn [s_work s_cancel s_rp s_heap s_closed s_chan s_wg] in Hst.
      destruct (wk !! i) as [w|] eqn:Hi; [|done]. destruct (roles !! i) as [role|] eqn:Hr; [|done].
      pose proof (Hw i w Hi) as Hwi.
      assert (Hilt : (i < n)%nat) by (by eapply lookup_lt_Some).
      destruct w as [| | |l|a l|e| |].
      + done.
      + (* WInit *) injection Hst as <-. exists recvd, pend.
        destruct (dinv_work d rp wg wk cl i WInit (if ca then WSend (Some ErrCanceled) else WGet))
          as (Hd' & _ & _); [done..|by destruct ca|by destruct ca|done|].
        split; [by rewrite insert_length|]. repeat (split; [done|]).
        split; [|done]. apply work_update; [by auto|]. destruct Hwi as [Hrd Hni].
        destruct ca; simpl; [|done]. split; [by right|done].
      + (* WGet *)
        destruct rp as [q|]; [|done]. injection Hst as <-. destruct Hwi as [Hrd Hni].
        set (v := deref h q !! role_key domain role) in *.
        exists recvd, pend. cbn [set_read set_work].
        destruct (dinv_work d (Some q) wg wk cl i WGet (match v with Some l => WScan l | None => WRet end))
          as (Hd' & _ & _); [done..|by destruct v|by destruct v|done|].
        split; [by rewrite insert_length|]. split; [by rewrite insert_length|].
        split; [done|]. split; [done|].
        split; [intros x Hx; destruct (Hrec x Hx) as [? [?|?]]; split; auto; left; by apply explained_set|].
        split; [intros x Hx; destruct (Hpend x Hx) as [? [?|?]]; split; auto; left; by apply explained_set|].
        split; [|done].
        apply work_update.
        * intros j x Hj Hx. apply winv_set; [done|done|]. by apply Hw.
        * assert (<[i := Some v]> rd !! i = Some (Some v)) as Hrd'.
          { apply list_lookup_insert. lia. }
          destruct v as [l|]; simpl.
          -- split; [|done]. by exists l.
          -- left. split; [done|]. by left.
      + (* WScan *)
        destruct Hwi as [(l0 & Hl0 & Hf) Hni]. destruct l as [|a l]; injection Hst as <-.
        * exists recvd, pend.
          destruct (dinv_work d rp wg wk cl i (WScan []) WRet) as (Hd' & _ & _); [done..|].
          split; [by rewrite insert_length|]. repeat (split; [done|]).
          split; [|done]. apply work_update; [by auto|]. simpl. left. split; [done|]. right. by exists l0.
        * exists recvd, pend.
          destruct (dinv_work d rp wg wk cl i (WScan (a :: l)) (if ca then WSend (Some ErrCanceled) else WEval a l))
            as (Hd' & _ & _); [done..|by destruct ca|by destruct ca|done|].
          split; [by rewrite insert_length|]. repeat (split; [done|]).
          split; [|done]. apply work_update; [by auto|]. destruct ca; simpl.
          -- split; [by right|done].
          -- split; [by exists l0|done].
      + (* WEval *)
        destruct Hwi as [(l0 & Hl0 & Hf) Hni]. injection Hst as <-. exists recvd, pend.
        destruct (dinv_work d rp wg wk cl i (WEval a l) (if mt a then WSend (a_effect a) else WScan l))
          as (Hd' & _ & _); [done..|by destruct (mt a)|by destruct (mt a)|done|].
        split; [by rewrite insert_length|]. repeat (split; [done|]).
        split; [|done]. apply work_update; [by auto|]. cbn [find] in Hf.
        destruct (mt a); simpl.
        * split; [|done]. left. by exists l0, a.
        * split; [|done]. by exists l0.
      + (* WSend *)
        destruct Hwi as [He Hni].
        destruct (dinv_work d rp wg wk cl i (WSend e) WRet) as (Hd' & _ & ->); [done..|].
        destruct (Nat.ltb_spec (length ch) n) as [Hlt|Hge]; [|done]. injection Hst as <-.
        exists recvd, (pend ++ [(i, e)]).
        assert (map fst (recvd ++ pend ++ [(i, e)]) = map fst (recvd ++ pend) ++ [i]) as Hidx
          by (by rewrite app_assoc, map_app).
        split; [by rewrite insert_length|]. split; [done|].
        split. { rewrite Hidx. apply NoDup_app. split; [done|]. split; [|apply NoDup_singleton].
                 intros x Hx Hx'. apply elem_of_list_singleton in Hx' as ->. done. }
        split. { rewrite map_app, Hch. cbn [map]. unfold msg, role_of. cbn [fst snd]. by rewrite Hr. }
        split; [done|].
        split. { intros x Hx. apply elem_of_app in Hx as [Hx|Hx]; [by apply Hpend|].
                 apply elem_of_list_singleton in Hx as ->. cbn. done. }
        split. { rewrite Hidx. apply work_update.
                 - intros j x Hj Hx. eapply winv_idx; [|by apply Hw].
                   rewrite elem_of_app, elem_of_list_singleton. split; [by left|by intros [?|?]].
                 - simpl. right. rewrite elem_of_app, elem_of_list_singleton. by right. }
        split; [done|]. split; [done|]. split; [|done].
        destruct m as [acc|r|r]; cbn in *; [done|..].
        * destruct r as [acc|e'|]; cbn in *; [|destruct Hm as [(_ & _ & _ & ?)|?]; [done|by right]|done].
          destruct Hm as (? & ?); done.
        * destruct r as [acc|e'|]; cbn in *; [|destruct Hm as [(_ & _ & _ & ?)|?]; [done|by right]|done].
          destruct Hm as (? & ?); done.
      + (* WRet *)
        injection Hst as <-. exists recvd, pend.
        split; [by rewrite insert_length|]. repeat (split; [done|]).
        split; [apply work_update; [by auto|done]|]. split; [done|]. split; [|done].
        destruct d as [|k| |]; cbn in *.
        * destruct Hd as (_ & Hall & _). by apply Hall in Hi.
        * destruct Hd as (? & ? & Hall & -> & ->). split; [done|]. split; [done|]. split; [|split; [|done]].
          -- apply work_update; [by auto|]. split; [done|]. intros Hki. exfalso.
             by apply (Hall i WRet Hi) in Hki.
          -- by rewrite (nonfin_fin wk i WRet).
        * destruct Hd as (? & Hall & -> & ->). split; [done|]. split; [|split; [|done]].
          -- apply work_update; [by eauto|done].
          -- by rewrite (nonfin_fin wk i WRet).
        * destruct Hd as (_ & Hall & _). by apply Hall in Hi.
      + done.
    - (* LMain *)
      unfold main_step in Hst. cbn [s_main s_chan s_closed] in Hst.
      destruct m as [acc|r|r]; [| |done].
      + destruct Hm as [Hnone Hacc]. destruct pend as [|[i e] pend].
        * rewrite Hch in Hst. cbn in Hst. destruct cl; [|done]. injection Hst as <-.
          exists recvd, []. repeat (split; [done|]).
          split. { intros Hc. destruct (Hca Hc) as [?|[r Hr]]; [by left|done]. }
          split; [done|]. split; [|done]. rewrite app_nil_r in *.
          destruct recvd as [|x recvd].
          -- cbn in Hacc. subst acc. cbn. by left.
          -- cbn in Hacc. subst acc. cbn. done.
        * rewrite Hch in Hst. cbn in Hst.
          destruct (Hpend (i, e)) as [Hin Hex]; [by left|]. cbn in Hin, Hex.
          assert (Hex' : explained rd i e \/ (e = Some ErrCanceled /\ ec = true)).
          { destruct Hex as [?|[? Hc]]; [by left|]. destruct (Hca Hc) as [?|[r Hr]]; [by right|done]. }
          assert (forall A (f : nat * option error -> A), map f ((recvd ++ [(i, e)]) ++ pend) = map f (recvd ++ (i, e) :: pend)) as Hmap.
          { intros A f. by rewrite <- app_assoc. }
          destruct e as [e|]; injection Hst as <-.
          -- exists (recvd ++ [(i, Some e)]), pend. split; [done|]. split; [done|].
             split; [by rewrite Hmap|]. split; [done|].
             split. { intros x Hx. apply elem_of_app in Hx as [Hx|Hx]; [by apply Hrec|].
                      apply elem_of_list_singleton in Hx as ->. done. }
             split; [intros x Hx; apply Hpend; by right|].
             split; [intros j w Hj; rewrite Hmap; by apply Hw|].
             split. { intros Hc. destruct (Hca Hc) as [?|[r Hr]]; [by left|done]. }
             split; [done|]. split; [|done]. cbn. right. by exists i, recvd.
          -- exists (recvd ++ [(i, None)]), pend. split; [done|]. split; [done|].
             split; [by rewrite Hmap|]. split; [done|].
             split. { intros x Hx. apply elem_of_app in Hx as [Hx|Hx]; [by apply Hrec|].
                      apply elem_of_list_singleton in Hx as ->. done. }
             split; [intros x Hx; apply Hpend; by right|].
             split; [intros j w Hj; rewrite Hmap; by apply Hw|].
             split. { intros Hc. destruct (Hca Hc) as [?|[r Hr]]; [by left|done]. }
             split; [done|]. split; [|done]. cbn. split.
             ++ apply Forall_app. split; [done|]. by constructor.
             ++ rewrite map_app, Hacc. cbn. done.
      + injection Hst as <-. exists recvd, pend. repeat (split; [done|]).
        split; [intros x Hx; destruct (Hpend x Hx) as [? [?|[? ?]]]; auto|].
        split; [intros i w Hi; by eapply winv_cancel, Hw|].
        split; [intros _; right; by eexists|]. done.
  Qed.

  Lemma run_inv ls ec s s' recvd pend : inv ec s recvd pend -> run ls s = Some s' ->
    exists recvd' pend', inv (ec || existsb is_cancel ls) s' recvd' pend'.
  Proof.
    revert ec s recvd pend. induction ls as [|l ls IH]; intros ec s recvd pend Hi Hr.
    - injection Hr as <-. exists recvd, pend. cbn. by rewrite orb_false_r.
    - cbn in Hr. destruct (step l s) as [s1|] eqn:E; [|done].
      destruct (step_inv _ _ _ _ _ _ Hi E) as (r1 & p1 & H1).
      destruct (IH _ _ _ _ H1 Hr) as (r2 & p2 & H2). exists r2, p2. cbn.
      by rewrite orb_assoc.
  Qed.

  (** ** Where the answers of the workers come from *)
  Definition env_ok (Q : ptr -> cache -> Prop) (l : label) : Prop :=
    match l with EnvSwap p c | EnvMutate p c => Q p c | _ => True end.
  Definition hinv (Q : ptr -> cache -> Prop) (s : st) : Prop :=
    (forall p c, s_heap s !! p = Some c -> Q p c) /\ is_Some (s_heap s !! s_cur s) /\
    (forall p, s_rp s = Some p -> is_Some (s_heap s !! p)) /\
    (forall i v role, s_reads s !! i = Some (Some v) -> roles !! i = Some role ->
       exists p c, s_rp s = Some p /\ Q p c /\ c !! role_key domain role = v).

  Lemma step_hinv Q l s s' : hinv Q s -> env_ok Q l -> step l s = Some s' ->
    (s_disp s = DInit -> s_rp s = None /\ forall i v, s_reads s !! i <> Some (Some v)) -> hinv Q s'.
  Proof.
    destruct s as [h cu ca rp d wg wk ch cl m p rd]. intros (Hh & Hc & Hrp & Hrd) Hl Hst Hdi.
    unfold step in Hst. cbn [s_panic s_heap s_cur s_rp s_reads s_disp s_wg s_closed] in *. destruct p; [done|].
    destruct l as [|q c|q c| | | |i|].
    - by injection Hst as <-.
    - destruct (h !! q) eqn:Eq; [done|]. injection Hst as <-. cbn in Hl.
      split; [|split; [|split]].
      + intros p' c' Hp'. cbn in Hp'. apply lookup_insert_Some in Hp' as [[<- <-]|[_ ?]]; [done|by apply Hh].
      + cbn. rewrite lookup_insert. by eexists.
      + intros p' Hp'. cbn in *. rewrite lookup_insert_is_Some. destruct (decide (q = p')); [by left|right; auto].
      + exact Hrd.
    - destruct (h !! q) eqn:Eq; [|done]. injection Hst as <-. cbn in Hl.
      split; [|split; [|split]].
      + intros p' c' Hp'. cbn in Hp'. apply lookup_insert_Some in Hp' as [[<- <-]|[_ ?]]; [done|by apply Hh].
      + cbn. rewrite lookup_insert_is_Some. destruct (decide (q = cu)); [by left|right; auto].
      + intros p' Hp'. cbn in *. rewrite lookup_insert_is_Some. destruct (decide (q = p')); [by left|right; auto].
      + exact Hrd.
    - destruct d; try done. injection Hst as <-. destruct Hdi as [-> Hno]; [done|].
      split; [done|]. split; [done|]. split; [by intros p' [= <-]|].
      intros i v role Hi. by apply Hno in Hi.
    - destruct d as [|k| |]; try done. destruct (k <? n)%nat; by injection Hst as <-.
    - destruct d; try done. destruct (wg =? 0)%nat; [|done]. destruct cl; by injection Hst as <-.
    - unfold work_step in Hst. cbn [s_work s_cancel s_rp s_heap s_closed s_chan s_wg] in Hst.
      destruct (wk !! i) as [w|] eqn:Hi; [|done]. destruct (roles !! i) as [role|] eqn:Hr; [|done].
      destruct w as [| | |l|a l|e| |]; try done.
      + by injection Hst as <-.
      + destruct rp as [q|]; [|done]. injection Hst as <-.
        split; [done|]. split; [done|]. split; [done|]. cbn.
        intros j v role' Hj Hrole'. destruct (decide (j = i)) as [->|Hne].
        * rewrite Hr in Hrole'. injection Hrole' as <-.
          assert (Hlt : (i < length rd)%nat).
          { apply lookup_lt_Some in Hj. by rewrite insert_length in Hj. }
          rewrite list_lookup_insert in Hj by done. injection Hj as <-.
          destruct (Hrp q eq_refl) as [c Hcq]. exists q, c. split; [done|]. split; [by apply Hh|].
          unfold deref. by rewrite Hcq.
        * rewrite list_lookup_insert_ne in Hj by done. by eapply Hrd.
      + destruct l; by injection Hst as <-.
      + by injection Hst as <-.
      + destruct cl; [by injection Hst as <-|]. destruct (length ch <? n)%nat; [|done]. by injection Hst as <-.
      + by injection Hst as <-.
    - unfold main_step in Hst. cbn [s_main s_chan s_closed] in Hst.
      destruct m as [acc|r|r]; [| |done].
      + destruct ch as [|[r [e|]] ch]; [destruct cl; [|done]|..]; by injection Hst as <-.
      + by injection Hst as <-.
  Qed.

  Lemma inv_dinit ec s recvd pend : inv ec s recvd pend -> s_disp s = DInit ->
    s_rp s = None /\ forall i v, s_reads s !! i <> Some (Some v).
  Proof.
    destruct s as [h cu ca rp d wg wk ch cl m p rd].
    intros (Hlw & Hlr & Hnd & Hch & Hrec & Hpend & Hw & Hca & Hd & Hm & Hp). cbn. intros ->.
    destruct Hd as (-> & Hall & ->). split; [done|]. intros i v Hi.
    destruct (lookup_lt_is_Some_2 wk i) as [w Hwi]; [apply lookup_lt_Some in Hi; lia|].
    pose proof (Hw i w Hwi) as Hwinv. rewrite (Hall i w Hwi) in Hwinv. destruct Hwinv as [Hx _].
    rewrite Hi in Hx. done.
  Qed.

  Lemma run_hinv Q ls ec s s' recvd pend : inv ec s recvd pend -> hinv Q s -> Forall (env_ok Q) ls ->
    run ls s = Some s' -> hinv Q s'.
  Proof.
    revert ec s recvd pend. induction ls as [|l ls IH]; intros ec s recvd pend Hi Hh Hok Hr.
    - by injection Hr as <-.
    - cbn in Hr. destruct (step l s) as [s1|] eqn:E; [|done]. inversion_clear Hok.
      destruct (step_inv _ _ _ _ _ _ Hi E) as (r1 & p1 & H1).
      eapply IH; [exact H1| |done|done].
      eapply step_hinv; [done|done|done|]. by eapply inv_dinit.
  Qed.

  (** ** Progress *)
  Lemma nonfin_pos wk : nonfin wk <> 0%nat -> exists i w, wk !! i = Some w /\ w <> WFin.
  Proof.
    induction wk as [|x wk IH]; cbn; [done|].
    destruct (decide (nonfin wk = 0%nat)) as [Hz|Hz].
    - intros Hx. exists 0%nat, x. split; [done|]. by intros ->.
    - intros _. destruct (IH Hz) as (i & w & Hi & Hw). by exists (S i), w.
  Qed.

  Lemma worker_enabled ec s recvd pend i w : inv ec s recvd pend ->
    s_work s !! i = Some w -> w <> WIdle -> w <> WFin -> exists s', step (LWork i) s = Some s'.
  Proof.
    destruct s as [h cu ca rp d wg wk ch cl m p rd].
    intros (Hlw & Hlr & Hnd & Hch & Hrec & Hpend & Hw & Hca & Hd & Hm & Hp) Hi H1 H2. cbn in Hi.
    unfold step. cbn [s_panic]. rewrite Hp. unfold work_step.
    cbn [s_work s_cancel s_rp s_heap s_closed s_chan s_wg]. rewrite Hi.
    destruct (lookup_lt_is_Some_2 roles i) as [role Hr]; [apply lookup_lt_Some in Hi; lia|]. rewrite Hr.
    destruct (dinv_work d rp wg wk cl i w WInit) as (_ & Hdn & Hcl); [done..|].
    assert (Hrp : rp <> None).
    { destruct d; cbn in Hd; [done|by destruct Hd as (? & _)..]. }
    destruct w as [| | |l|a l|e| |]; try done.
    - by eexists.
    - destruct rp; [by eexists|done].
    - destruct l; by eexists.
    - by eexists.
    - rewrite Hcl. assert (length ch < n)%nat as Hlt.
      { pose proof (Hw i _ Hi) as [_ Hni]. rewrite Hch, map_length.
        assert (length (map fst (recvd ++ pend)) < n)%nat as Hx.
        { apply (nodup_lt_length _ _ i); [done| |by eapply lookup_lt_Some|done].
          intros x Hx. apply elem_of_list_In, in_map_iff in Hx as (y & <- & Hy). apply elem_of_list_In in Hy.
          apply elem_of_app in Hy as [Hy|Hy]; [by apply Hrec|by apply Hpend]. }
        rewrite map_length, app_length in Hx. lia. }
      destruct (Nat.ltb_spec (length ch) n); [by eexists|lia].
    - by eexists.
  Qed.

  Lemma progress ec s recvd pend : inv ec s recvd pend -> ~ quiescent s ->
    exists l s', is_env l = false /\ step l s = Some s'.
  Proof.
    intros Hinv Hnq. pose proof (worker_enabled ec s recvd pend) as Hwe.
    destruct s as [h cu ca rp d wg wk ch cl m p rd].
    pose proof Hinv as (Hlw & Hlr & Hnd & Hch & Hrec & Hpend & Hw & Hca & Hd & Hm & Hp).
    destruct d as [|k| |].
    - exists LLoad. unfold step. cbn [s_panic s_disp s_wg s_closed]. rewrite Hp. by eexists.
    - exists LSpawn. unfold step. cbn [s_panic s_disp s_wg s_closed]. rewrite Hp. destruct (k <? n)%nat; by eexists.
    - destruct Hd as (Hrp & Hall & -> & ->). destruct (decide (nonfin wk = 0%nat)) as [Hz|Hz].
      + exists LClose. unfold step. cbn [s_panic s_disp s_wg s_closed]. rewrite Hp, Hz. cbn. by eexists.
      + destruct (nonfin_pos wk Hz) as (i & w & Hi & Hwn). exists (LWork i).
        destruct (Hwe i w Hinv Hi) as [s' Hs']; [by eapply Hall|done|]. by exists s'.
    - destruct Hd as (Hrp & Hall & ->). exists LMain. unfold step. cbn [s_panic]. rewrite Hp.
      unfold main_step. cbn [s_main s_chan s_closed].
      destruct m as [acc|r|r].
      + destruct ch as [|[r [e|]] ch]; by eexists.
      + by eexists.
      + exfalso. apply Hnq. split; [by exists r|]. split; [done|]. apply Forall_lookup. by apply Hall.
  Qed.

  (** ** Termination measure *)
  Definition wpot (w : wst) : nat :=
    match w with
    | WIdle => 7 | WInit => 6 | WGet => 5
    | WScan l => 2 * length l + 4
    | WEval _ l => 2 * length l + 5
    | WSend _ => 3 | WRet => 1 | WFin => 0
    end.
  Definition dpot (d : dst) : nat := match d with DInit => 3 | DSpawn _ => 2 | DWait => 1 | DClosed => 0 end.
  Definition mpot (m : mst) : nat := match m with MLoop _ => 2 | MRtn _ => 1 | MDone _ => 0 end.
  Definition wsum (l : list wst) : nat := foldr (fun w k => wpot w + k)%nat 0%nat l.
  Definition pot (s : st) : nat := wsum (s_work s) + dpot (s_disp s) + mpot (s_main s) + length (s_chan s).

  Definition rlen (o : option (option (list assertion))) : nat :=
    match o with Some (Some l) => length l | _ => 0 end.
  (** Total length of the assertion slices read by the workers. *)
  Definition read_total (s : st) : nat := foldr (fun o k => rlen o + k)%nat 0%nat (s_reads s).

  Lemma wsum_insert wk i w w' : wk !! i = Some w -> (wsum (<[i := w']> wk) + wpot w = wsum wk + wpot w')%nat.
  Proof.
    revert i. induction wk as [|x wk IH]; intros [|i] Hi; [done|done| |]; cbn in Hi.
    - injection Hi as ->. cbn. lia.
    - change (<[S i := w']> (x :: wk)) with (x :: <[i := w']> wk). cbn [wsum foldr]. fold (wsum (<[i := w']> wk)).
      fold (wsum wk). specialize (IH i Hi). lia.
  Qed.
  Lemma rsum_insert rd i v : rd !! i = Some None ->
    foldr (fun o k => rlen o + k)%nat 0%nat (<[i := Some v]> rd)
    = (foldr (fun o k => rlen o + k) 0 rd + rlen (Some v))%nat.
  Proof.
    revert i. induction rd as [|x rd IH]; intros [|i] Hi; [done|done| |]; cbn in Hi.
    - injection Hi as ->. cbn. lia.
    - change (<[S i := Some v]> (x :: rd)) with (x :: <[i := Some v]> rd). cbn [foldr]. rewrite (IH i Hi). lia.
  Qed.

  Ltac red_st := cbn [set_work set_disp set_chan set_read set_wg set_main set_cancel set_closed set_rp set_heap
    s_work s_disp s_main s_chan s_reads dpot mpot wpot List.length].
  Lemma step_pot l ec s s' recvd pend : inv ec s recvd pend -> step l s = Some s' ->
    (pot s' + (if is_env l then 0 else 1) + 2 * read_total s <= pot s + 2 * read_total s')%nat.
  Proof.
    destruct s as [h cu ca rp d wg wk ch cl m p rd].
    intros (Hlw & Hlr & Hnd & Hch & Hrec & Hpend & Hw & Hca & Hd & Hm & Hp) Hst.
    unfold step in Hst. cbn [s_panic] in Hst. rewrite Hp in Hst. cbn [s_heap s_disp s_wg s_closed s_cur] in Hst.
    destruct l as [|q c|q c| | | |i|]; cbn [is_env].
    - injection Hst as <-. unfold pot, read_total. cbn. lia.
    - destruct (h !! q); [done|]. injection Hst as <-. unfold pot, read_total. cbn. lia.
    - destruct (h !! q); [|done]. injection Hst as <-. unfold pot, read_total. cbn. lia.
    - destruct d; try done. injection Hst as <-. unfold pot, read_total. cbn. lia.
    - destruct d as [|k| |]; try done. destruct Hd as (Hrp & Hk & Hall & -> & ->).
      destruct (Nat.ltb_spec k n); injection Hst as <-; unfold pot, read_total; red_st; [|lia].
      destruct (lookup_lt_is_Some_2 wk k) as [w Hwk]; [lia|].
      assert (w = WIdle) as -> by (apply (Hall k w Hwk); lia).
      pose proof (wsum_insert wk k WIdle WInit Hwk) as Hx. cbn [wpot] in Hx. lia.
    - destruct d; try done. destruct Hd as (Hrp & Hall & -> & ->).
      destruct (nonfin wk =? 0)%nat; [|done]. injection Hst as <-. unfold pot, read_total. cbn. lia.
    - unfold work_step in Hst. cbn [s_work s_cancel s_rp s_heap s_closed s_chan s_wg] in Hst.
      destruct (wk !! i) as [w|] eqn:Hi; [|done]. destruct (roles !! i) as [role|] eqn:Hr; [|done].
      pose proof (Hw i w Hi) as Hwi.
      destruct w as [| | |l|a l|e| |]; try done.
      + injection Hst as <-. unfold pot, read_total. red_st.
        pose proof (wsum_insert wk i WInit (if ca then WSend (Some ErrCanceled) else WGet) Hi) as Hx.
        destruct ca; cbn [wpot] in Hx; lia.
      + destruct rp as [q|]; [|done]. injection Hst as <-. destruct Hwi as [Hrd Hni].
        set (v := deref h q !! role_key domain role) in *. unfold pot, read_total. red_st.
        rewrite (rsum_insert rd i v Hrd).
        pose proof (wsum_insert wk i WGet (match v with Some l => WScan l | None => WRet end) Hi) as Hx.
        destruct v; cbn [wpot rlen] in *; lia.
      + destruct l as [|a l]; injection Hst as <-; unfold pot, read_total; red_st.
        * pose proof (wsum_insert wk i (WScan []) WRet Hi) as Hx. cbn [wpot length] in Hx. lia.
        * pose proof (wsum_insert wk i (WScan (a :: l)) (if ca then WSend (Some ErrCanceled) else WEval a l) Hi) as Hx.
          destruct ca; cbn [wpot List.length] in Hx; lia.
      + injection Hst as <-. unfold pot, read_total. red_st.
        pose proof (wsum_insert wk i (WEval a l) (if mt a then WSend (a_effect a) else WScan l) Hi) as Hx.
        destruct (mt a); cbn [wpot] in Hx; lia.
      + destruct (dinv_work d rp wg wk cl i (WSend e) WRet) as (Hd' & _ & ->); [done..|].
        destruct (length ch <? n)%nat; [|done]. injection Hst as <-. unfold pot, read_total. red_st.
        rewrite app_length. pose proof (wsum_insert wk i (WSend e) WRet Hi) as Hx. cbn in *. lia.
      + injection Hst as <-. unfold pot, read_total. red_st.
        pose proof (wsum_insert wk i WRet WFin Hi) as Hx. cbn in *. lia.
    - unfold main_step in Hst. cbn [s_main s_chan s_closed] in Hst.
      destruct m as [acc|r|r]; [| |done].
      + destruct ch as [|[r [e|]] ch']; [destruct cl; [|done]|..]; injection Hst as <-; unfold pot, read_total; cbn; lia.
      + injection Hst as <-. unfold pot, read_total; cbn; lia.
  Qed.

  Fixpoint sys_steps (ls : list label) : nat :=
    match ls with [] => 0 | l :: ls' => (if is_env l then 0 else 1) + sys_steps ls' end.

  Lemma run_pot ls ec s s' recvd pend : inv ec s recvd pend -> run ls s = Some s' ->
    (pot s' + sys_steps ls + 2 * read_total s <= pot s + 2 * read_total s')%nat.
  Proof.
    revert ec s recvd pend. induction ls as [|l ls IH]; intros ec s recvd pend Hi Hr.
    - injection Hr as <-. cbn. lia.
    - cbn [PolicyCheck.run] in Hr. destruct (step l s) as [s1|] eqn:E; [|done].
      destruct (step_inv _ _ _ _ _ _ Hi E) as (r1 & p1 & H1).
      specialize (IH _ _ _ _ H1 Hr). pose proof (step_pot _ _ _ _ _ _ Hi E) as Hs. cbn [sys_steps]. lia.
  Qed.

  Lemma wsum_replicate k : wsum (replicate k WIdle) = (7 * k)%nat.
  Proof. induction k as [|k IH]; [done|]. cbn [replicate wsum foldr]. fold (wsum (replicate k WIdle)). cbn [wpot]. lia. Qed.
  Lemma rsum_replicate k : foldr (fun o j => rlen o + j)%nat 0%nat (replicate k None) = 0%nat.
  Proof. induction k as [|k IH]; [done|]. cbn [replicate foldr rlen]. lia. Qed.

  Lemma steps_bound h cu c ls s : run ls (init h cu c) = Some s ->
    (sys_steps ls <= 7 * n + 5 + 2 * read_total s)%nat.
  Proof.
    intros H. pose proof (run_pot _ _ _ _ _ _ (inv_init h cu c) H) as Hp.
    unfold pot at 2, read_total at 1 in Hp. cbn in Hp. rewrite wsum_replicate, rsum_replicate in Hp. lia.
  Qed.
End proofs.
