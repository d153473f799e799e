(** * Update and the meaning of the resulting cache *)
From Verif Require Export PolicyCacheProofs.

(** ** From Update to the goroutines filling the cache *)
Definition proj (l : ulabel) : list clabel := match l with UWork i inp => [CWork i inp] | _ => [] end.
Definition projs (ls : list ulabel) : list clabel := concat (map proj ls).

Lemma ustep_c U l s s' : ustep U l s = Some s' -> crun U (proj l) (u_c s) = Some (u_c s').
Proof.
  destruct l as [| |i inp|]; cbn [ustep proj crun].
  - by intros [= <-].
  - destruct (u_ret s); [done|]. case_decide; [|done]. destruct (u_cancel s); by intros [= <-].
  - case_decide; [|done]. destruct (cstep U (CWork i inp) (u_c s)) as [c|]; [|done]. by intros [= <-].
  - destruct (u_ret s); [done|]. case_decide; [|done]. destruct (forallb _ _); [|done].
    destruct (u_err s); by intros [= <-].
Qed.
Lemma crun_app U l1 l2 s : crun U (l1 ++ l2) s = match crun U l1 s with Some s' => crun U l2 s' | None => None end.
Proof. revert s. induction l1 as [|l l1 IH]; intros s; [done|]. cbn. destruct (cstep U l s); [apply IH|done]. Qed.
Lemma urun_c U ls s s' : urun U ls s = Some s' -> crun U (projs ls) (u_c s) = Some (u_c s').
Proof.
  revert s. induction ls as [|l ls IH]; intros s H; cbn [urun] in H; [by injection H as <-|].
  destruct (ustep U l s) as [s1|] eqn:E; [|done]. unfold projs. cbn [map concat]. rewrite crun_app.
  rewrite (ustep_c _ _ _ _ E). by apply IH.
Qed.
Lemma projs_nodrop ls k : CDrop k ∉ projs ls.
Proof.
  unfold projs. induction ls as [|l ls IH]; cbn [map concat]; [apply not_elem_of_nil|].
  rewrite not_elem_of_app. split; [|done]. destruct l; cbn; rewrite ?elem_of_list_singleton; by try apply not_elem_of_nil.
Qed.
Lemma elem_of_projs ls i inp : CWork i inp ∈ projs ls <-> UWork i inp ∈ ls.
Proof.
  unfold projs. induction ls as [|l ls IH]; cbn [map concat].
  - by rewrite !elem_of_nil.
  - rewrite elem_of_app, elem_of_cons, IH. destruct l; cbn [proj]; rewrite ?elem_of_list_singleton, ?elem_of_nil; naive_solver.
Qed.

(** Goroutine state invariant: no error recorded means no goroutine failed. *)
Definition uinv (n : nat) (cur : gache (list assertion)) (s : ust) : Prop :=
  length (c_work (u_c s)) = n /\
  (u_err s = None -> forall i j e, c_work (u_c s) !! i = Some (CEnd j e) -> e = None) /\
  (forall i j, c_work (u_c s) !! i = Some (CEnd j None) -> exists j', j = Some j') /\
  (forall r, u_ret s = Some r -> r <> Ok tt -> u_cur s = cur) /\
  (u_ret s = None -> u_cur s = cur) /\
  (u_ret s = Some (Ok tt) -> u_cur s = c_g (u_c s) /\
     forall i w, c_work (u_c s) !! i = Some w -> exists j, w = CEnd (Some j) None).

Lemma cstep_len U l s s' : cstep U l s = Some s' -> length (c_work s') = length (c_work s).
Proof.
  destruct l as [i inp|k]; cbn [cstep]; [|by intros [= <-]].
  destruct (c_work s !! i) as [[|? [|? ?]| |]|]; destruct inp as [[?|?|]|?]; try done; intros H;
    repeat match type of H with match ?x with _ => _ end = _ => destruct x; try done end;
    injection H as <-; apply insert_length.
Qed.
Lemma cstep_ended U i inp s s' : cstep U (CWork i inp) s = Some s' ->
  (forall k, k <> i -> c_work s' !! k = c_work s !! k) /\
  (forall j, c_work s' !! i = Some (CEnd j None) -> exists j', j = Some j') /\
  (forall j e, c_work s !! i <> Some (CEnd j e)) /\ is_Some (c_work s' !! i).
Proof.
  cbn [cstep]. destruct (c_work s !! i) as [w|] eqn:Hi; [|done].
  pose proof (lookup_lt_Some _ _ _ Hi) as Hlt.
  assert (forall s' g w', s' = CSt g (<[i := w']> (c_work s)) ->
    (forall j, w' = CEnd j None -> exists j', j = Some j') -> (forall j e, w <> CEnd j e) ->
    (forall k, k <> i -> c_work s' !! k = c_work s !! k) /\
    (forall j, c_work s' !! i = Some (CEnd j None) -> exists j', j = Some j') /\
    (forall j e, Some w <> Some (CEnd j e)) /\ is_Some (c_work s' !! i)) as Hgo.
  { intros s0 g w' -> Hw Hne. cbn [c_work]. split_and!.
    - intros k Hk. by rewrite list_lookup_insert_ne.
    - intros j. rewrite list_lookup_insert by done. intros [= ->]. by apply Hw.
    - intros j e [= ->]. by apply (Hne j e).
    - rewrite list_lookup_insert by done. by eexists. }
  destruct w as [|j [|r rest]|j role asss rest|j e].
  - destruct inp as [[j|e|]|t]; [| |done..]; intros [= <-]; (eapply Hgo; [done|done|done]).
  - destruct inp as [|t]; [done|]. intros [= <-]. eapply Hgo; [done| |done]. intros ? [= <-]. by eexists.
  - destruct inp as [|t]; [done|]. destruct (new_assertion U _ _ _); [| |done]; intros [= <-]; (eapply Hgo; [done|done|done]).
  - destruct inp as [|t]; [done|]. intros [= <-]. (eapply Hgo; [done|done|done]).
  - by destruct inp.
Qed.

Lemma ustep_inv U n cur l s s' : ustep U l s = Some s' -> uinv n cur s -> uinv n cur s'.
Proof.
  intros Hs (H1 & H2 & H3 & H4 & H5 & H6). destruct l as [| |i inp|]; cbn [ustep] in Hs.
  - injection Hs as <-. by split_and!.
  - destruct (u_ret s) eqn:Er; [done|]. case_decide; [|done].
    destruct (u_cancel s); injection Hs as <-; split_and!; cbn; try done; intros; by apply H5.
  - case_decide; [|done]. destruct (cstep U (CWork i inp) (u_c s)) as [c|] eqn:E; [|done]. injection Hs as <-.
    pose proof (cstep_len _ _ _ _ E) as Hl. pose proof (cstep_ended _ _ _ _ _ E) as (K1 & K2 & K3 & [wi K4]).
    split_and!; cbn [u_c u_err u_ret u_cur].
    + congruence.
    + intros He k j e Hk. destruct (u_err s) eqn:Eu; [done|]. destruct (decide (k = i)) as [->|Hne].
      * unfold end_error in He. by rewrite Hk in He.
      * rewrite K1 in Hk by done. by eapply H2.
    + intros k j Hk. destruct (decide (k = i)) as [->|Hne]; [by apply K2|]. rewrite K1 in Hk by done. by eapply H3.
    + done.
    + done.
    + intros Hr. exfalso. destruct (H6 Hr) as [_ Hall].
      cbn [cstep] in E. destruct (c_work (u_c s) !! i) as [w|] eqn:Hi; [|done].
      destruct (Hall _ _ Hi) as [j ->]. by apply (K3 (Some j) None).
  - destruct (u_ret s) eqn:Er; [done|]. case_decide; [|done].
    destruct (forallb ended (c_work (u_c s))) eqn:Ef; [|done].
    destruct (u_err s) as [e|] eqn:Eu; injection Hs as <-; split_and!; cbn [u_c u_err u_ret u_cur]; try done.
    + intros r _ _. by apply H5.
    + by intros r [= <-].
    + intros _. split; [done|]. intros i w Hi. rewrite forallb_forall in Ef.
      pose proof (Ef w ltac:(apply elem_of_list_In; by eapply elem_of_list_lookup_2)) as Hw.
      destruct w as [| | |j e]; try done. pose proof (H2 eq_refl _ _ _ Hi) as ->.
      destruct (H3 _ _ Hi) as [j' ->]. by exists j'.
Qed.
Lemma urun_inv U n cur ls s s' : urun U ls s = Some s' -> uinv n cur s -> uinv n cur s'.
Proof.
  revert s. induction ls as [|l ls IH]; intros s H Hd; cbn [urun] in H; [by injection H as <-|].
  destruct (ustep U l s) as [s1|] eqn:E; [|done]. eauto using ustep_inv.
Qed.
Lemma uinit_inv n cur c : uinv n cur (uinit cur n c).
Proof.
  split_and!; cbn; try done.
  - apply replicate_length.
  - intros _ i j e H. by apply lookup_replicate in H as [? _].
  - intros i j H. by apply lookup_replicate in H as [? _].
Qed.

Definition ufetched (ls : list ulabel) (i : nat) (j : job) : Prop := UWork i (IFetch (Ok j)) ∈ ls.
Definition uticked (ls : list ulabel) (i : nat) (t : time) : Prop := UWork i (ITime t) ∈ ls.

Lemma update_binv U ls cur n c s : urun U ls (uinit cur n c) = Some s ->
  binv U ∅ (ufetched ls) (uticked ls) (u_c s).
Proof.
  intros H. apply urun_c in H. eapply crun_binv; [exact H| |apply cinit_binv].
  apply Forall_forall. intros [i [[j|e|]|t]|k] Hl; try done; by apply elem_of_projs.
Qed.

(** ** C17 *)
Lemma update_all_or_nothing U ls cur n c s : urun U ls (uinit cur n c) = Some s ->
  (u_ret s <> Some (Ok tt) -> u_cur s = cur) /\
  (u_ret s = Some (Ok tt) ->
    (forall i, (i < n)%nat -> exists j, ufetched ls i j) /\
    forall k e a, u_cur s !! k = Some e -> a ∈ ge_val e ->
      exists i j r, (i < n)%nat /\ ufetched ls i j /\ r ∈ j_script j /\ r_role r = k /\
        new_assertion U (r_action r) (r_resource r) (r_effect r) = Ok a).
Proof.
  intros H. pose proof (urun_inv _ n cur _ _ _ H (uinit_inv n cur c)) as (H1 & H2 & H3 & H4 & H5 & H6).
  pose proof (update_binv _ _ _ _ _ _ H) as [Hw Hg]. split.
  - intros Hr. destruct (u_ret s) as [r|] eqn:E; [|by apply H5]. eapply H4; [done|]. by intros ->.
  - intros Hr. destruct (H6 Hr) as [Hcur Hall].
    assert (forall i, (i < n)%nat -> exists j, ufetched ls i j) as Hf.
    { intros i Hi. destruct (lookup_lt_is_Some_2 (c_work (u_c s)) i ltac:(lia)) as [w Hwi].
      destruct (Hall _ _ Hwi) as [j ->]. exists j. by apply (Hw _ _ Hwi). }
    split; [done|]. intros k e a Hk Ha. rewrite Hcur in Hk. destruct (Hg _ _ Hk) as [Hsrc _].
    destruct (Hsrc a Ha) as [(e' & He' & _)|(i & j & r & HF & Hr' & Hk' & Hc)].
    { by rewrite lookup_empty in He'. }
    exists i, j, r. split_and!; try done.
    (* the goroutine exists *)
    apply urun_c in H.
    assert (length (c_work (u_c (uinit cur n c))) = n) as Hn by apply replicate_length. cbn [uinit u_c] in *.
    clear -H HF Hn. apply elem_of_projs in HF. revert H Hn HF. generalize (cinit ∅ n). generalize (projs ls).
    intros l. induction l as [|x l IH]; intros s0 H Hn HF; [by apply elem_of_nil in HF|]. cbn [crun] in H.
    destruct (cstep U x s0) as [s1|] eqn:E; [|done]. apply elem_of_cons in HF as [<-|HF].
    + cbn [cstep] in E. destruct (c_work s0 !! i) eqn:Hi; [|done]. apply lookup_lt_Some in Hi. lia.
    + eapply IH; [done| |done]. rewrite <- Hn. by eapply cstep_len.
Qed.

(** Any failed domain makes Update fail. *)
Lemma update_any_error U ls cur n c s i e : urun U ls (uinit cur n c) = Some s ->
  UWork i (IFetch (Err e)) ∈ ls -> u_ret s <> Some (Ok tt).
Proof.
  intros H Hin Hr.
  pose proof (urun_inv _ n cur _ _ _ H (uinit_inv n cur c)) as (H1 & H2 & H3 & H4 & H5 & H6).
  destruct (H6 Hr) as [_ Hall]. clear H1 H2 H3 H4 H5 H6 Hr.
  apply urun_c in H. cbn [uinit u_c] in H. apply elem_of_projs in Hin.
  assert (exists j e', c_work (u_c s) !! i = Some (CEnd j (Some e'))) as (j & e' & Hi).
  { revert H Hin. generalize (cinit ∅ n). generalize (projs ls). clear. intros l.
    assert (forall l s0 s1 j e', crun U l s0 = Some s1 -> c_work s0 !! i = Some (CEnd j (Some e')) ->
      c_work s1 !! i = Some (CEnd j (Some e'))) as Hstay.
    { clear. intros l. induction l as [|x l IH]; intros s0 s1 j e' H Hi; cbn [crun] in H; [by injection H as <-|].
      destruct (cstep U x s0) as [s2|] eqn:E; [|done]. eapply IH; [done|].
      destruct x as [i' inp|k]; [|by injection E as <-].
      destruct (decide (i = i')) as [<-|Hne].
      - exfalso. apply cstep_ended in E as (_ & _ & E & _). by apply (E j (Some e')).
      - apply cstep_ended in E as (E & _). by rewrite E. }
    induction l as [|x l IH]; intros s0 H HF; [by apply elem_of_nil in HF|]. cbn [crun] in H.
    destruct (cstep U x s0) as [s1|] eqn:E; [|done]. apply elem_of_cons in HF as [<-|HF]; [|by eapply IH].
    cbn [cstep] in E. destruct (c_work s0 !! i) as [w|] eqn:Hi; [|done].
    destruct w as [|? [|? ?]| |]; try done. injection E as <-.
    exists None, e. eapply Hstay; [exact H|]. cbn [c_work]. rewrite list_lookup_insert; [done|]. by eapply lookup_lt_Some. }
  destruct (Hall _ _ Hi) as [j' Hj]. done.
Qed.

(** ** C12: the cache means what the documents say *)
(** [script] is the outcome of phase 1 on [doc] under a schedule without lost denials. *)
Definition faithful_script (U : unicode) (doc : document) (script : list raw) : Prop :=
  exists ls s, srun U ls (sinit doc false) = Some s /\ simplified s /\
    script ≡ₚ (map_to_list (ss_map s)).*2 /\
    (no_cross_conflict U doc \/ race_free U ls (sinit doc false)).

Lemma faithful_script_of U doc script : faithful_script U doc script -> script_of U doc script.
Proof. intros (ls & s & ? & ? & ? & _). by exists ls, s. Qed.

Lemma faithful_deny U doc script : no_commas doc -> faithful_script U doc script ->
  forall pol r, pol ∈ doc -> r ∈ pol -> raw_denyb U r = true ->
  exists r', r' ∈ script /\ km r' = km r /\ raw_denyb U r' = true.
Proof.
  intros Hc (ls & s & Hr & Hs & Hp & Hcond). eapply script_deny; [done..|].
  destruct Hcond as [Hn|Hrf].
  - eapply no_conflict_safe; [done..|apply sinit_inv].
  - apply race_free_safe; [done|apply sinit_found].
Qed.

Section meaning.
  Context (U : unicode) (domain action resource : str).

  Lemma conv_effect r a : conv U r = Ok a -> (is_deny a <-> raw_deny U r).
  Proof.
    unfold conv, is_deny, raw_deny. intros H. apply new_assertion_inv in H as (d & rs & _ & _ & _ & _ & _ & _ & _ & He).
    rewrite He. destruct (equal_fold U (B "deny") (r_effect r)); split; done.
  Qed.
  Lemma conv_hits r a role : conv U r = Ok a -> r_role r = key_of domain role ->
    (hits U domain action resource a <-> raw_applies U domain action resource role r).
  Proof.
    intros H Hr. unfold hits. rewrite (a_matches_iff U _ _ _ _ _ _ _ H). unfold raw_applies.
    unfold key_of in Hr. tauto.
  Qed.

  (** A cache whose entry for the role holds exactly the converted assertions of a script. *)
  Lemma entry_meaning (docs : document) script (c : cache) role :
    no_commas docs -> faithful_script U docs script -> okl U script ->
    (forall a, holds_assertion domain c role a <->
       exists r, r ∈ script /\ r_role r = key_of domain role /\ conv U r = Ok a) ->
    (role_denies U domain action resource c role <-> doc_denies U domain action resource docs role) /\
    (~ doc_denies U domain action resource docs role ->
       (role_allows U domain action resource c role <-> doc_allows U domain action resource docs role)).
  Proof.
    intros Hc Hf Hok Hh. pose proof (faithful_script_of _ _ _ Hf) as Hs.
    assert (forall r r' pol, pol ∈ docs -> r ∈ pol -> r' ∈ script -> km r' = km r -> same_target r' r) as Hst.
    { intros r r' pol Hpol Hr Hr' Hk. destruct (script_sound _ _ _ Hs r' Hr') as (pol' & Hp' & Hrp').
      pose proof (Hc _ _ Hpol Hr) as [? ?]. pose proof (Hc _ _ Hp' Hrp') as [? ?]. by apply km_inj. }
    assert (forall r, r ∈ script -> exists a, conv U r = Ok a) as Hcv.
    { intros r Hr. unfold okl in Hok. rewrite Forall_forall in Hok. by apply Hok. }
    assert (forall r r', same_target r' r -> raw_applies U domain action resource role r ->
      raw_applies U domain action resource role r') as Htr.
    { intros r r' (E1 & E2 & E3). unfold raw_applies. by rewrite E1, E2, E3. }
    split.
    - split.
      + intros (a & Ha & Hhit & Hd). apply Hh in Ha as (r & Hr & Hk & Hcr).
        destruct (script_sound _ _ _ Hs r Hr) as (pol & Hp & Hrp). exists pol, r. split_and!; [done..| |].
        * by apply (conv_hits r a).
        * by apply (conv_effect r a).
      + intros (pol & r & Hp & Hr & Happ & Hd).
        destruct (faithful_deny _ _ _ Hc Hf pol r Hp Hr Hd) as (r' & Hr' & Hk & Hd').
        pose proof (Htr _ _ (Hst _ _ _ Hp Hr Hr' Hk) Happ) as Happ'.
        destruct (Hcv r' Hr') as [a Ha]. pose proof Happ' as [Hrole _]. exists a. split_and!.
        * apply Hh. by exists r'.
        * by apply (conv_hits r' a role).
        * by apply (conv_effect r' a).
    - intros Hnd. split.
      + intros (a & Ha & Hhit & Hd). apply Hh in Ha as (r & Hr & Hk & Hcr).
        destruct (script_sound _ _ _ Hs r Hr) as (pol & Hp & Hrp). exists pol, r. split_and!; [done..| |].
        * by apply (conv_hits r a).
        * intros Hx. apply (conv_effect r a Hcr) in Hx. by apply Hx.
      + intros (pol & r & Hp & Hr & Happ & Hd).
        destruct (script_complete _ _ _ Hs pol r Hp Hr) as (r' & Hr' & Hk).
        pose proof (Htr _ _ (Hst _ _ _ Hp Hr Hr' Hk) Happ) as Happ'.
        destruct (script_sound _ _ _ Hs r' Hr') as (pol' & Hp' & Hrp').
        destruct (Hcv r' Hr') as [a Ha]. pose proof Happ' as [Hrole _]. exists a. split_and!.
        * apply Hh. by exists r'.
        * by apply (conv_hits r' a role).
        * unfold is_allow. destruct (a_effect a) eqn:Ea; [|done]. exfalso. apply Hnd.
          exists pol', r'. split_and!; [done..|]. apply (conv_effect r' a Ha). unfold is_deny. congruence.
  Qed.
End meaning.

(** What is cached for a role after a successful Update. *)
Lemma update_entry U ls cur n c s t role i j : urun U ls (uinit cur n c) = Some s -> u_ret s = Some (Ok tt) ->
  disjoint_jobs (ufetched ls) -> timely (ufetched ls) (uticked ls) ->
  ufetched ls i j -> has_role j role -> alive j t ->
  okl U (j_script j) /\ g_get t role (u_cur s) = Some (rlist U role (j_script j)).
Proof.
  intros H Hr Hdis Htime HF Hrole Hal.
  pose proof (urun_inv _ n cur _ _ _ H (uinit_inv n cur c)) as (H1 & H2 & H3 & H4 & H5 & H6).
  destruct (H6 Hr) as [Hcur Hall]. pose proof (urun_c _ _ _ _ H) as Hc. cbn [uinit u_c] in Hc.
  assert (one_fetch (ufetched ls)) as Hone.
  { intros i0 j0 j1 Ha Hb. eapply (crun_fetch_unique _ _ _ _ Hc i0); by apply elem_of_projs. }
  assert (kinv U (ufetched ls) (u_c s)) as Hk.
  { eapply crun_kinv; [exact Hdis|exact Htime|exact Hc| |apply projs_nodrop|].
    - apply Forall_forall. intros [i0 [[j0|e|]|t0]|k] Hl; try done; by apply elem_of_projs.
    - intros i0 w Hw. apply lookup_replicate in Hw as [-> _]. cbn [kw cinit c_g]. intros. apply lookup_empty. }
  destruct (update_all_or_nothing _ _ _ _ _ _ H) as [_ Hok]. clear Hok.
  (* goroutine i exists and ended with its job *)
  assert (exists w, c_work (u_c s) !! i = Some w) as [w Hi].
  { pose proof Hc as Hc'. apply elem_of_projs in HF. clear -Hc' HF.
    assert (forall l s0 s1 inp, crun U l s0 = Some s1 -> CWork i inp ∈ l -> is_Some (c_work s1 !! i)) as Hx.
    { clear. intros l. induction l as [|x l IH]; intros s0 s1 inp H HF; [by apply elem_of_nil in HF|]. cbn [crun] in H.
      destruct (cstep U x s0) as [s2|] eqn:E; [|done]. apply elem_of_cons in HF as [<-|HF]; [|by eapply IH].
      apply cstep_ended in E as (_ & _ & _ & E). apply lookup_lt_is_Some in E. apply lookup_lt_is_Some.
      assert (forall l s0 s1, crun U l s0 = Some s1 -> length (c_work s1) = length (c_work s0)) as Hl.
      { clear. intros l. induction l as [|y l IH]; intros s0 s1 H; cbn [crun] in H; [by injection H as <-|].
        destruct (cstep U y s0) as [s2|] eqn:E; [|done]. rewrite (IH _ _ H). by eapply cstep_len. }
      by rewrite (Hl _ _ _ H). }
    destruct (Hx _ _ _ _ Hc' HF) as [w Hw]. by exists w. }
  destruct (Hall _ _ Hi) as [j' ->]. pose proof (Hk _ _ Hi) as (HF' & Hok & Hent).
  pose proof (Hone _ _ _ HF HF') as <-. split; [done|].
  pose proof (Hent _ Hrole) as He. unfold ent in He. rewrite Hcur. unfold g_get.
  destruct (rlist U role (j_script j)) as [|a l] eqn:E.
  - exfalso. destruct Hrole as (r & Hr' & Hrr). unfold okl in Hok. rewrite Forall_forall in Hok.
    destruct (Hok r Hr') as [a Ha]. assert (a ∈ rlist U role (j_script j)) as Hin.
    { apply elem_of_rlist. by exists r. }
    rewrite E in Hin. by apply elem_of_nil in Hin.
  - destruct He as (e & -> & Hv). by rewrite (Hv t Hal).
Qed.

(** Roles that no document mentions are absent. *)
Lemma update_absent U ls cur n c s t role : urun U ls (uinit cur n c) = Some s -> u_ret s = Some (Ok tt) ->
  (forall i j, ufetched ls i j -> ~ has_role j role) -> g_get t role (u_cur s) = None.
Proof.
  intros H Hr Hn. pose proof (urun_inv _ n cur _ _ _ H (uinit_inv n cur c)) as (H1 & H2 & H3 & H4 & H5 & H6).
  destruct (H6 Hr) as [-> _]. unfold g_get. destruct (c_g (u_c s) !! role) as [e|] eqn:E; [|done].
  pose proof (update_binv _ _ _ _ _ _ H) as [_ Hg]. destruct (Hg _ _ E) as [_ [H0|(i & j & r & t' & HF & Hr' & Hk & _)]].
  - by rewrite lookup_empty in H0.
  - exfalso. eapply Hn; [exact HF|]. by exists r.
Qed.

(** The documents fetched by goroutine [i] in this Update. *)
Theorem update_meaning U ls cur n c s t (docs : nat -> document) domain action resource role :
  urun U ls (uinit cur n c) = Some s -> u_ret s = Some (Ok tt) ->
  (forall i j, ufetched ls i j -> no_commas (docs i) /\ faithful_script U (docs i) (j_script j)) ->
  (forall i i' pol pol' r r', pol ∈ docs i -> r ∈ pol -> pol' ∈ docs i' -> r' ∈ pol' -> r_role r = r_role r' -> i = i') ->
  timely (ufetched ls) (uticked ls) -> (forall i j, ufetched ls i j -> alive j t) ->
  (role_denies U domain action resource (g_view t (u_cur s)) role <->
     exists i, (i < n)%nat /\ doc_denies U domain action resource (docs i) role) /\
  ((forall i, (i < n)%nat -> ~ doc_denies U domain action resource (docs i) role) ->
     (role_allows U domain action resource (g_view t (u_cur s)) role <->
      exists i, (i < n)%nat /\ doc_allows U domain action resource (docs i) role)).
Proof.
  intros H Hr Hdocs Hdisj Htime Hal.
  destruct (update_all_or_nothing _ _ _ _ _ _ H) as [_ Hok]. destruct (Hok Hr) as [Hall _]. clear Hok.
  assert (disjoint_jobs (ufetched ls)) as Hdis.
  { intros i i' j j' k HF HF' (r & Hin & Hk) (r' & Hin' & Hk').
    destruct (Hdocs _ _ HF) as [_ Hfs]. destruct (Hdocs _ _ HF') as [_ Hfs'].
    destruct (script_sound _ _ _ (faithful_script_of _ _ _ Hfs) r Hin) as (pol & Hp & Hrp).
    destruct (script_sound _ _ _ (faithful_script_of _ _ _ Hfs') r' Hin') as (pol' & Hp' & Hrp').
    eapply Hdisj; [exact Hp|exact Hrp|exact Hp'|exact Hrp'|congruence]. }
  set (k := key_of domain role).
  assert (forall i j, ufetched ls i j -> (i < n)%nat) as Hlt.
  { intros i j HF. pose proof (urun_inv _ n cur _ _ _ H (uinit_inv n cur c)) as (H1 & _).
    pose proof (urun_c _ _ _ _ H) as Hc. apply elem_of_projs in HF. cbn [uinit u_c] in Hc.
    assert (forall l s0 s1 inp, crun U l s0 = Some s1 -> CWork i inp ∈ l -> (i < length (c_work s0))%nat) as Hx.
    { clear. intros l. induction l as [|x l IH]; intros s0 s1 inp H HF; [by apply elem_of_nil in HF|]. cbn [crun] in H.
      destruct (cstep U x s0) as [s2|] eqn:E; [|done]. apply elem_of_cons in HF as [<-|HF].
      - cbn [cstep] in E. destruct (c_work s0 !! i) eqn:Hi; [|done]. by apply lookup_lt_Some in Hi.
      - rewrite <- (cstep_len _ _ _ _ E). by eapply IH. }
    pose proof (Hx _ _ _ _ Hc HF) as Hl. cbn [cinit c_work] in Hl. by rewrite replicate_length in Hl. }
  (* per goroutine *)
  assert (forall i j, ufetched ls i j -> has_role j k -> 
    (role_denies U domain action resource (g_view t (u_cur s)) role <-> doc_denies U domain action resource (docs i) role) /\
    (~ doc_denies U domain action resource (docs i) role ->
     (role_allows U domain action resource (g_view t (u_cur s)) role <-> doc_allows U domain action resource (docs i) role)))
    as Hper.
  { intros i j HF Hrole. destruct (Hdocs _ _ HF) as [Hnc Hfs].
    destruct (update_entry _ _ _ _ _ _ t k i j H Hr Hdis Htime HF Hrole (Hal _ _ HF)) as [Hokl Hget].
    apply (entry_meaning _ _ _ _ _ (j_script j)); [done..|].
    intros a. unfold holds_assertion. fold k. rewrite g_view_lookup, Hget. split.
    - intros (l & [= <-] & Ha). by apply elem_of_rlist.
    - intros Ha. eexists. split; [done|]. by apply elem_of_rlist. }
  (* a document that denies or allows mentions the role *)
  assert (forall i j, ufetched ls i j -> (doc_denies U domain action resource (docs i) role \/
     doc_allows U domain action resource (docs i) role) -> has_role j k) as Hment.
  { intros i j HF Hd. destruct (Hdocs _ _ HF) as [Hnc Hfs].
    assert (exists pol r, pol ∈ docs i /\ r ∈ pol /\ r_role r = k) as (pol & r & Hp & Hrp & Hrk).
    { destruct Hd as [(pol & r & Hp & Hrp & [Hrk _] & _)|(pol & r & Hp & Hrp & [Hrk _] & _)]; by exists pol, r. }
    destruct (script_complete _ _ _ (faithful_script_of _ _ _ Hfs) pol r Hp Hrp) as (r' & Hr' & Hkm).
    destruct (script_sound _ _ _ (faithful_script_of _ _ _ Hfs) r' Hr') as (pol' & Hp' & Hrp').
    pose proof (Hnc _ _ Hp Hrp) as [? ?]. pose proof (Hnc _ _ Hp' Hrp') as [? ?].
    exists r'. split; [done|]. rewrite <- Hrk. by apply km_inj. }
  (* a cached entry comes from some goroutine *)
  assert (forall a, holds_assertion domain (g_view t (u_cur s)) role a -> exists i j, ufetched ls i j /\ has_role j k) as Hsrc.
  { intros a (l & Hl & Ha). rewrite g_view_lookup in Hl. apply g_get_Some in Hl as [e He].
    destruct (update_all_or_nothing _ _ _ _ _ _ H) as [_ Hok]. destruct (Hok Hr) as [_ Hc].
    destruct (Hc _ _ a He Ha) as (i & j & r & _ & HF & Hin & Hk & _). exists i, j. split; [done|]. by exists r. }
  split.
  - split.
    + intros Hden. pose proof Hden as (a & Ha & _). destruct (Hsrc a Ha) as (i & j & HF & Hrole).
      exists i. split; [by eapply Hlt|]. by apply (Hper i j HF Hrole).
    + intros (i & Hi & Hd). destruct (Hall i Hi) as [j HF]. apply (Hper i j HF); [|done]. eapply Hment; [done|by left].
  - intros Hnd. split.
    + intros Hden. pose proof Hden as (a & Ha & _). destruct (Hsrc a Ha) as (i & j & HF & Hrole).
      exists i. split; [by eapply Hlt|]. apply (Hper i j HF Hrole); [|done]. apply Hnd. by eapply Hlt.
    + intros (i & Hi & Hd). destruct (Hall i Hi) as [j HF].
      apply (Hper i j HF); [eapply Hment; [done|by right]|by apply Hnd|done].
Qed.
