(** * Property C22, continued: what Verify says of a policy it refuses *)
From Verif Require Import FetcherFacts Prop_Fetcher.
From Verif Require Import GoStrings.

(** Why a policy is refused, and in which words; each reason only if those before it do not apply. *)
Inductive refusal (K : crypto) (pkp : provider K) (now : time) (sp : signed_policy) : string -> Prop :=
| RNoData : sp_data sp = None -> refusal K pkp now sp "no policy data"
| RNoExpiry d : sp_data sp = Some d -> sd_expires d = None -> refusal K pkp now sp "policy without expiry"
| RExpired d e : sp_data sp = Some d -> sd_expires d = Some e -> e <= now -> refusal K pkp now sp "policy already expired"
| RNoZts d e : sp_data sp = Some d -> sd_expires d = Some e -> now < e -> pkp EnvZTS (sp_key sp) = None -> refusal K pkp now sp "zts key not found"
| RMarshal d e v : sp_data sp = Some d -> sd_expires d = Some e -> now < e -> pkp EnvZTS (sp_key sp) = Some v -> marshal_spd K d = None ->
    refusal K pkp now sp "error marshal signed policy data"
| RSig d e v m : sp_data sp = Some d -> sd_expires d = Some e -> now < e -> pkp EnvZTS (sp_key sp) = Some v -> marshal_spd K d = Some m ->
    vfy K v m (sp_sig sp) = false -> refusal K pkp now sp "error verify signature"
| RNoZms d e v m : sp_data sp = Some d -> sd_expires d = Some e -> now < e -> pkp EnvZTS (sp_key sp) = Some v -> marshal_spd K d = Some m ->
    vfy K v m (sp_sig sp) = true -> pkp EnvZMS (sd_zms_key d) = None -> refusal K pkp now sp "zms key not found"
| RMarshalPd d e v m v' : sp_data sp = Some d -> sd_expires d = Some e -> now < e -> pkp EnvZTS (sp_key sp) = Some v -> marshal_spd K d = Some m ->
    vfy K v m (sp_sig sp) = true -> pkp EnvZMS (sd_zms_key d) = Some v' -> marshal_pd K (sd_policy d) = None -> refusal K pkp now sp "error marshal policy data"
| RZmsSig d e v m v' m' : sp_data sp = Some d -> sd_expires d = Some e -> now < e -> pkp EnvZTS (sp_key sp) = Some v -> marshal_spd K d = Some m ->
    vfy K v m (sp_sig sp) = true -> pkp EnvZMS (sd_zms_key d) = Some v' -> marshal_pd K (sd_policy d) = Some m' -> vfy K v' m' (sd_zms_sig d) = false ->
    refusal K pkp now sp "error verify zms signature".

Lemma sub_pos e now : (time_sub e now <=? 0) = (e <=? now).
Proof. unfold time_sub, sat64. destruct (Z.leb_spec e now), (Z.leb_spec (min_int64 `max` (max_int64 `min` (e - now))) 0); try done; unfold max_int64, min_int64, two63 in *; lia. Qed.

(** An error of Verify names the reason. *)
Theorem C22_refusal_says_why K pkp now sp e : sp_verify K pkp now (Some sp) = Err e <-> exists m, e = ErrMsg m /\ refusal K pkp now sp m.
Proof.
  split.
  - cbn [sp_verify]. intros H. destruct (sp_data sp) as [d|] eqn:Hd; [|injection H as <-; eexists; split; [done|by apply RNoData]].
    destruct (sd_expires d) as [x|] eqn:Hx; [|injection H as <-; eexists; split; [done|by eapply RNoExpiry]].
    rewrite sub_pos in H. destruct (Z.leb_spec x now); [injection H as <-; eexists; split; [done|by eapply RExpired]|].
    destruct (pkp EnvZTS (sp_key sp)) as [v|] eqn:Hv; [|injection H as <-; eexists; split; [done|by eapply RNoZts]].
    destruct (marshal_spd K d) as [m|] eqn:Hm; [|injection H as <-; eexists; split; [done|by eapply RMarshal]].
    destruct (vfy K v m (sp_sig sp)) eqn:Hs; [|injection H as <-; eexists; split; [done|by eapply RSig]]. cbn [negb] in H.
    destruct (pkp EnvZMS (sd_zms_key d)) as [v'|] eqn:Hv'; [|injection H as <-; eexists; split; [done|by eapply RNoZms]].
    destruct (marshal_pd K (sd_policy d)) as [m'|] eqn:Hm'; [|injection H as <-; eexists; split; [done|by eapply RMarshalPd]].
    destruct (vfy K v' m' (sd_zms_sig d)) eqn:Hs'; [done|injection H as <-; eexists; split; [done|by eapply RZmsSig]].
  - intros (m & -> & H). cbn [sp_verify]. destruct H;
      repeat match goal with Ha : ?x = _ |- context [?x] => rewrite Ha end; cbn [negb]; try done;
      rewrite sub_pos; (destruct (Z.leb_spec e now); [first [done|lia]|]);
      try lia; repeat match goal with Ha : ?x = _ |- context [?x] => rewrite Ha end; done.
Qed.
(** There is one reason. *)
Theorem C22_one_reason K pkp now sp m m' : refusal K pkp now sp m -> refusal K pkp now sp m' -> m = m'.
Proof.
  intros H1 H2. assert (sp_verify K pkp now (Some sp) = Err (ErrMsg m)) as E1 by (apply C22_refusal_says_why; eauto).
  assert (sp_verify K pkp now (Some sp) = Err (ErrMsg m')) as E2 by (apply C22_refusal_says_why; eauto). congruence.
Qed.
(** Either it is accepted or there is a reason. *)
Theorem C22_accepted_or_reason K pkp now sp : valid_policy K pkp now sp \/ exists m, refusal K pkp now sp m.
Proof.
  destruct (sp_verify K pkp now (Some sp)) as [[]|e|] eqn:E; [left; by apply C22_verify_exact|right|by apply C22_verify_never_panics in E].
  apply C22_refusal_says_why in E as (m & -> & H). by exists m.
Qed.
Example C22_reasons_nonvacuous :
  let d := doc1 (B "dom") 100 in
  sp_verify K1 keys1 99 (Some (SignedPolicy None (B "0") (B ""))) = Err (ErrMsg "no policy data") /\
  (exists x, sp_data d = Some x /\
     let with_data y := sp_verify K1 keys1 99 (Some (SignedPolicy (Some y) (sp_key d) (B "ZTSKEYspd" ++ sd_zms_key y ++ sd_zms_sig y))) in
     with_data (SignedData None (sd_zms_key x) (sd_zms_sig x) (sd_policy x)) = Err (ErrMsg "policy without expiry") /\
     with_data (SignedData (Some 100) (B "9") (sd_zms_sig x) (sd_policy x)) = Err (ErrMsg "zms key not found") /\
     with_data (SignedData (Some 100) (B "0") (B "forged") (sd_policy x)) = Err (ErrMsg "error verify zms signature")).
Proof. cbn zeta. split; [vm_compute; reflexivity|]. eexists. split; [vm_compute; reflexivity|]. vm_compute. done. Qed.

(** ** C24, continued: an Athenz URL no request can be made for *)
(** Rounds of the loop of FetchWithRetry that call [i] has begun. *)
Definition rounds (K : crypto) (i : nat) (ls : list (flabel K)) : Z :=
  Z.of_nat (length (List.filter (fun l => match l with FBegin j _ => Nat.eqb j i | _ => false end) ls)).
Definition unsent (cf : fconf) (rs : Z) (c : fcall) : Prop :=
  match c with
  | FIdle b => b = true /\ rs = 0
  | FLoop k last => rs = k + 2 /\ -1 <= k <= Z.max (-1) (f_attempts cf) /\ last = (if 0 <=? k then Some (ErrMsg "create fetch policy request fail") else None)
  | FRet sp e => sp = None /\ rs = Z.max 0 (f_attempts cf + 1) + 2 /\ e = Some (ErrMsg (if 0 <=? f_attempts cf then "create fetch policy request fail" else "retryAttempts"))
  | FSent _ _ _ _ | FPanic => False
  end.
Lemma unsent_inv K cf ls kinds s i : f_url_ok cf = false -> frun K cf ls (finit kinds) = Some s ->
  fs_cache s = None /\ (forall j c, fs_calls s !! j = Some c -> forall r tp b t, c <> FSent r tp b t) /\
  (kinds !! i = Some true -> exists c, fs_calls s !! i = Some c /\ unsent cf (rounds K i ls) c).
Proof.
  intros Hu. revert s. induction ls as [|l ls IH] using rev_ind; intros s.
  - intros [= <-]. split; [done|]. cbn [finit fs_calls]. change (map FIdle kinds) with (FIdle <$> kinds). split.
    + intros j c Hj. rewrite list_lookup_fmap in Hj. destruct (kinds !! j); [|done]. by injection Hj as <-.
    + intros Hk. exists (FIdle true). rewrite list_lookup_fmap, Hk. done.
  - rewrite frun_app. destruct (frun K cf ls (finit kinds)) as [s1|] eqn:E; [|done]. cbn [frun]. destruct (fstep K cf l s1) as [s2|] eqn:E2; [|done].
    intros [= <-]. destruct (IH s1 eq_refl) as (Hc & Hs & Hi). clear IH.
    assert (forall k now, l = FBegin k now -> k = i -> rounds K i (ls ++ [l]) = rounds K i ls + 1) as Hr1.
    { intros k now -> ->. unfold rounds. rewrite List.filter_app, app_length. cbn [List.filter]. rewrite Nat.eqb_refl. cbn [length]. lia. }
    assert (forall k now, l = FBegin k now -> k <> i -> rounds K i (ls ++ [l]) = rounds K i ls) as Hr2.
    { intros k now -> Hne. unfold rounds. rewrite List.filter_app, app_length. cbn [List.filter]. destruct (Nat.eqb_spec k i); [done|]. cbn [length]. lia. }
    assert (forall j x c, fs_calls s1 !! j = Some c -> (forall r tp b t, x <> FSent r tp b t) ->
      forall j' c', <[j := x]> (fs_calls s1) !! j' = Some c' -> forall r tp b t, c' <> FSent r tp b t) as Hins.
    { intros j x c Hj Hx j' c' H'. destruct (decide (j = j')) as [<-|Hne].
      - rewrite list_lookup_insert in H' by (by apply lookup_lt_Some in Hj). by injection H' as <-.
      - rewrite list_lookup_insert_ne in H' by done. by eapply Hs. }
    assert (forall j x c, fs_calls s1 !! j = Some c -> (exists now, l = FBegin j now) -> (kinds !! i = Some true -> j = i -> unsent cf (rounds K i ls) c -> unsent cf (rounds K i ls + 1) x) ->
      kinds !! i = Some true -> exists c', <[j := x]> (fs_calls s1) !! i = Some c' /\ unsent cf (rounds K i (ls ++ [l])) c') as Hstep.
    { intros j x c Hj [now Hl] Hx Hk. destruct (Hi Hk) as (c0 & Hc0 & Hu0). destruct (decide (j = i)) as [->|Hne].
      - exists x. split; [apply list_lookup_insert; by apply lookup_lt_Some in Hj|]. rewrite (Hr1 _ _ Hl eq_refl). apply Hx; [done|done|].
        rewrite Hj in Hc0. by injection Hc0 as ->.
      - exists c0. split; [by rewrite list_lookup_insert_ne|]. by rewrite (Hr2 _ _ Hl Hne). }
    destruct l as [j now|j r now pkp]; cbn [fstep] in E2.
    + destruct (fs_calls s1 !! j) as [[[]|k last| | |]|] eqn:Ej; try discriminate E2.
      * injection E2 as <-. cbn [fs_cache fs_calls]. split; [done|]. split; [by eapply Hins|]. eapply Hstep; [exact Ej|by eexists|].
        intros _ _ [_ ->]. cbn. split; [lia|]. split; [lia|done].
      * injection E2 as <-. cbn [fs_cache fs_calls]. unfold fetch_begin. rewrite Hu. split; [done|]. split; [by eapply Hins|]. eapply Hstep; [exact Ej|by eexists|].
        by intros _ _ [? _].
      * destruct (Z.ltb_spec k (f_attempts cf)) as [Hlt|Hge]; injection E2 as <-; cbn [fs_cache fs_calls].
        -- unfold fetch_begin. rewrite Hu. split; [done|]. split; [by eapply Hins|]. eapply Hstep; [exact Ej|by eexists|].
           intros _ _ (-> & Hk & _). cbn [unsent]. split; [lia|]. split; [lia|]. by destruct (Z.leb_spec 0 (k + 1)); [|lia].
        -- split; [done|]. split; [by eapply Hins|]. eapply Hstep; [exact Ej|by eexists|].
           intros _ _ (-> & Hk & ->). cbn [unsent]. rewrite Hc. split; [done|]. split; [lia|]. f_equal.
           destruct (Z.leb_spec 0 k), (Z.leb_spec 0 (f_attempts cf)); (lia || done).
    + destruct (fs_calls s1 !! j) as [[| | | |]|] eqn:Ej; try discriminate E2. by destruct (Hs _ _ Ej retry tp inm at_).
Qed.
(** No request is sent to such a URL, and FetchWithRetry returns an error and no policy after exactly
    retryAttempts + 1 rounds (the other two steps enter and leave the loop). *)
Theorem C24_bad_url K cf ls kinds s i : f_url_ok cf = false -> frun K cf ls (finit kinds) = Some s ->
  requests K i ls = 0%nat /\
  (kinds !! i = Some true -> forall sp e, fs_calls s !! i = Some (FRet sp e) ->
     sp = None /\ rounds K i ls = Z.max 0 (f_attempts cf + 1) + 2 /\
     (0 <= f_attempts cf -> e = Some (ErrMsg "create fetch policy request fail"))).
Proof.
  intros Hu H. split.
  - revert s H. induction ls as [|l ls IH] using rev_ind; intros s; [done|]. rewrite frun_app.
    destruct (frun K cf ls (finit kinds)) as [s1|] eqn:E; [|done]. cbn [frun]. destruct (fstep K cf l s1) as [s2|] eqn:E2; [|done]. intros _.
    unfold requests. rewrite List.filter_app, app_length. fold (requests K i ls). rewrite (IH _ eq_refl).
    destruct l as [j now|j r now pkp]; [done|]. destruct (unsent_inv K cf ls kinds s1 i Hu E) as (_ & Hs & _). cbn [fstep] in E2.
    destruct (fs_calls s1 !! j) as [[| |retry tp inm at_| |]|] eqn:Ej; try discriminate E2. by destruct (Hs _ _ Ej retry tp inm at_).
  - intros Hk sp e Hi. destruct (unsent_inv K cf ls kinds s i Hu H) as (_ & _ & Hx). destruct (Hx Hk) as (c & Hc & Hun). rewrite Hi in Hc. injection Hc as <-.
    destruct Hun as (-> & -> & ->). split_and!; [done..|]. intros Ha. by destruct (Z.leb_spec 0 (f_attempts cf)); [|lia].
Qed.
Example C24_bad_url_nonvacuous :
  show (frun K1 (FConf 0 1 false) [FBegin 0 1; FBegin 0 2; FBegin 0 3; FBegin 0 4] (finit [true])) = [Some (None, Some (ErrMsg "create fetch policy request fail"))].
Proof. vm_compute. reflexivity. Qed.

Print Assumptions C22_refusal_says_why.
Print Assumptions C22_one_reason.
Print Assumptions C22_accepted_or_reason.
Print Assumptions C24_bad_url.
