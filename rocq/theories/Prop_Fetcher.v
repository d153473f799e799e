(** * Properties C21-C25: signed policies and the fetcher *)
From Verif Require Import FetcherFacts.

(** ** A concrete instance for the examples
    A key is a string; a signature is the key followed by the message; the encodings
    are enough to tell the example documents apart. *)
Definition K1 : crypto := {|
  verifier := str;
  vfy := fun v m s => bool_decide (s = v ++ m);
  marshal_spd := fun d => Some (B "spd" ++ sd_zms_key d ++ sd_zms_sig d);
  marshal_pd := fun p => match p with Some p => Some (B "pd" ++ pd_domain p) | None => Some (B "null") end |}.
Definition keys1 : provider K1 := fun e k =>
  match e with
  | EnvZTS => if bool_decide (k = B "0") then Some (B "ZTSKEY") else None
  | EnvZMS => if bool_decide (k = B "0") then Some (B "ZMSKEY") else None
  | EnvOther _ => None
  end.
(** A correctly signed document of domain [dom] expiring at [e]. *)
Definition doc1 (dom : str) (e : time) : signed_policy :=
  let zs := B "ZMSKEYpd" ++ dom in
  SignedPolicy (Some (SignedData (Some e) (B "0") zs (Some (PolicyData dom [])))) (B "0") (B "ZTSKEYspd0" ++ zs).
Definition cf1 : fconf := FConf (10 * second) 2 true.

(** ** C22 *)
Theorem C22_verify_exact K pkp now sp :
  sp_verify K pkp now (Some sp) = Ok tt <-> valid_policy K pkp now sp.
Proof. rewrite sp_verify_iff. split; [by intros (? & [= <-] & ?)|eauto]. Qed.
Theorem C22_verify_never_panics K pkp now sp : sp_verify K pkp now (Some sp) <> Panic.
Proof. intros H. by apply sp_verify_panic in H. Qed.
(** Consequences: an expired document, an unknown key or a wrong signature is refused. *)
Theorem C22_expired_refused K pkp now sp d e :
  sp_data sp = Some d -> sd_expires d = Some e -> e <= now -> sp_verify K pkp now (Some sp) <> Ok tt.
Proof.
  intros Hd He Hle H. apply C22_verify_exact in H as (d' & e' & v & m & v' & m' & Hd' & He' & Hlt & _).
  rewrite Hd in Hd'. injection Hd' as <-. rewrite He in He'. injection He' as <-. lia.
Qed.
Theorem C22_unknown_key_refused K pkp now sp d :
  sp_data sp = Some d -> pkp EnvZTS (sp_key sp) = None \/ pkp EnvZMS (sd_zms_key d) = None ->
  sp_verify K pkp now (Some sp) <> Ok tt.
Proof.
  intros Hd Hk H. apply C22_verify_exact in H as (d' & e' & v & m & v' & m' & Hd' & _ & _ & H1 & _ & _ & H2 & _).
  rewrite Hd in Hd'. injection Hd' as <-. destruct Hk as [Hk|Hk]; rewrite Hk in *; done.
Qed.
Theorem C22_bad_signature_refused K pkp now sp d v m :
  sp_data sp = Some d -> pkp EnvZTS (sp_key sp) = Some v -> marshal_spd K d = Some m -> vfy K v m (sp_sig sp) = false ->
  sp_verify K pkp now (Some sp) <> Ok tt.
Proof.
  intros Hd Hk Hm Hv H.
  apply C22_verify_exact in H as (d' & e' & v1 & m1 & v' & m' & Hd' & _ & _ & H1 & H2 & H3 & _).
  rewrite Hd in Hd'. injection Hd' as <-. rewrite Hk in H1. injection H1 as <-. rewrite Hm in H2. injection H2 as <-.
  by rewrite Hv in H3.
Qed.
Theorem C22_bad_zms_signature_refused K pkp now sp d v m :
  sp_data sp = Some d -> pkp EnvZMS (sd_zms_key d) = Some v -> marshal_pd K (sd_policy d) = Some m ->
  vfy K v m (sd_zms_sig d) = false -> sp_verify K pkp now (Some sp) <> Ok tt.
Proof.
  intros Hd Hk Hm Hv H.
  apply C22_verify_exact in H as (d' & e' & v1 & m1 & v' & m' & Hd' & _ & _ & _ & _ & _ & H1 & H2 & H3).
  rewrite Hd in Hd'. injection Hd' as <-. rewrite Hk in H1. injection H1 as <-. rewrite Hm in H2. injection H2 as <-.
  by rewrite Hv in H3.
Qed.
Example C22_nonvacuous :
  sp_verify K1 keys1 99 (Some (doc1 (B "dom") 100)) = Ok tt /\
  sp_verify K1 keys1 100 (Some (doc1 (B "dom") 100)) = Err (ErrMsg "policy already expired") /\
  (let d := doc1 (B "dom") 100 in
   sp_verify K1 keys1 99 (Some (SignedPolicy (sp_data d) (B "1") (sp_sig d))) = Err (ErrMsg "zts key not found") /\
   sp_verify K1 keys1 99 (Some (SignedPolicy (sp_data d) (B "0") (B "forged"))) = Err (ErrMsg "error verify signature")).
Proof. vm_compute. done. Qed.

(** ** C21 *)
Theorem C21_served_policies_verified K cf ls kinds s i sp e :
  frun K cf ls (finit kinds) = Some s -> fs_calls s !! i = Some (FRet (Some sp) e) -> verified_in K ls sp.
Proof. intros H Hi. apply fetch_inv in H as [_ H]. specialize (H _ _ Hi). done. Qed.
Theorem C21_kept_policy_verified K cf ls kinds s t :
  frun K cf ls (finit kinds) = Some s -> fs_cache s = Some t -> verified_in K ls (t_sp t).
Proof. intros H Ht. apply fetch_inv in H as [H _]. by destruct (H _ Ht). Qed.
(** The policy kept for fallback is the last valid download; without one none is kept. *)
Theorem C21_kept_policy_newest K cf ls kinds s :
  frun K cf ls (finit kinds) = Some s ->
  match fs_cache s with Some t => newest K ls (t_sp t) | None => none_accepted K ls end.
Proof. intros H. apply fetch_cache in H. destruct (fs_cache s); [by eexists|done]. Qed.
(** Two calls: the first (with retry) gets garbage, then the document; the second gets
    an expired document and, out of attempts, the kept one together with an error. *)
Definition hist1 : list (flabel K1) :=
  [FBegin 0 5; FBegin 0 5; FResp 0 (Response 200 (B "x") BadBody) 6 keys1;
   FBegin 0 7; FResp 0 (Response 200 (B "tag") (Doc (doc1 (B "dom") (60 * second)))) 8 keys1;
   FBegin 1 9; FBegin 1 9; FResp 1 (Response 200 (B "y") (Doc (doc1 (B "dom") 9))) 10 keys1;
   FBegin 1 11; FResp 1 (Failed ErrCanceled) 12 keys1;
   FBegin 1 13; FResp 1 (Response 503 [] BadBody) 14 keys1; FBegin 1 15]%Z.
Definition show (s : option fst_) : list (option (option time * option error)) :=
  match s with
  | Some s => map (fun c => match c with
       | FRet sp e => Some (match sp with Some sp => match sp_data sp with Some d => sd_expires d | None => None end | None => None end, e)
       | _ => None end) (fs_calls s)
  | None => []
  end.
Example C21_nonvacuous :
  show (frun K1 cf1 hist1 (finit [true; true])) =
    [Some (Some (60 * second), None); Some (Some (60 * second), Some ErrFetchPolicy)].
Proof. vm_compute. done. Qed.

(** ** C23 *)
(** While a conditional request is out, the copy it names has more than the margin left
    (measured when it was sent), and a 304 answer returns exactly that copy. *)
Theorem C23_conditional_copy_fresh_partial K cf ls kinds s i retry tp at_ :
  frun K cf ls (finit kinds) = Some s -> fs_calls s !! i = Some (FSent retry tp true at_) ->
  exists t d e, tp = Some t /\ t_etag t <> [] /\ sp_data (t_sp t) = Some d /\ sd_expires d = Some e /\
    at_ < e - f_margin cf /\ verified_in K ls (t_sp t) /\
    forall etag b now pkp, exists s', fstep K cf (FResp i (Response 304 etag b) now pkp) s = Some s' /\
      fs_calls s' !! i = Some (FRet (Some (t_sp t)) None) /\ fs_cache s' = fs_cache s.
Proof.
  intros H Hi. apply fetch_inv in H as [_ H]. destruct (H _ _ Hi) as [Htp Hc].
  destruct tp as [t|]; [|done]. destruct (Htp t eq_refl) as [Hv (d & e & Hd & He & Hx)].
  unfold conditional in Hc. symmetry in Hc. apply andb_true_iff in Hc as [Hne Haf].
  exists t, d, e. split; [done|]. split; [by case_bool_decide|]. split; [done|]. split; [done|].
  split; [unfold after in Haf; rewrite Hx in Haf; by apply Z.ltb_lt in Haf|]. split; [done|].
  intros etag b now pkp. cbn [fstep]. rewrite Hi. cbn [fetch_response]. eexists. split; [done|]. cbn [fs_calls fs_cache].
  split; [|done]. rewrite list_lookup_insert; [done|]. by apply lookup_lt_Some in Hi.
Qed.
(** The tag sent and the copy a 304 stands for came in one answer: the last valid download before
    the request was sent. *)
Theorem C23_tag_is_that_of_the_copy K cf ls kinds s i retry tp inm at_ :
  frun K cf ls (finit kinds) = Some s -> fs_calls s !! i = Some (FSent retry tp inm at_) ->
  exists ls1 ls2, ls = ls1 ++ FBegin i at_ :: ls2 /\
    match tp with Some t => newest_answer K ls1 (t_etag t) (t_sp t) | None => none_accepted K ls1 /\ inm = false end.
Proof.
  intros H Hi. destruct (sent_copy K cf _ _ _ _ _ _ _ _ H Hi) as (ls1 & ls2 & -> & Hc & ->). exists ls1, ls2. split; [done|]. by destruct tp.
Qed.
(** If-None-Match is sent exactly when there is such a copy: tagged, and more than the margin away
    from its expiry. *)
Theorem C23_condition_exact K cf ls kinds s i retry tp inm at_ :
  frun K cf ls (finit kinds) = Some s -> fs_calls s !! i = Some (FSent retry tp inm at_) ->
  inm = true <-> exists t d e, tp = Some t /\ t_etag t <> [] /\ sp_data (t_sp t) = Some d /\ sd_expires d = Some e /\ at_ < e - f_margin cf.
Proof.
  intros H Hi. apply fetch_inv in H as [_ H]. destruct (H _ _ Hi) as [Htp ->]. unfold conditional. destruct tp as [t|]; [|split; [done|by intros (? & ? & ? & ? & _)]].
  destruct (Htp t eq_refl) as [_ (d & e & Hd & He & Hx)]. unfold after. rewrite andb_true_iff, Z.ltb_lt, negb_true_iff, bool_decide_eq_false, Hx. split.
  - intros [? ?]. by exists t, d, e.
  - intros (t' & d' & e' & [= <-] & ? & Hd' & He' & ?). split; [done|]. congruence.
Qed.
Example C23_nonvacuous :
  let ls := [FBegin 0 5; FResp 0 (Response 200 (B "tag") (Doc (doc1 (B "dom") (60 * second)))) 8 keys1]%Z in
  let inm now := option_map (fun s => match fs_calls s !! 1%nat with Some (FSent _ _ b _) => b | _ => false end)
                   (frun K1 cf1 (ls ++ [FBegin 1 now]) (finit [false; false])) in
  inm (50 * second - 1) = Some true /\ inm (50 * second) = Some false /\
  show (frun K1 cf1 (ls ++ [FBegin 1 9; FResp 1 (Response 304 [] BadBody) 10 keys1]) (finit [false; false])) =
    [Some (Some (60 * second), None); Some (Some (60 * second), None)].
Proof. vm_compute. done. Qed.
(** REFUTED without "to a conditional request": a server that answers 304 although no
    If-None-Match was sent makes Fetch return, without an error, a policy that expired
    long ago. *)
Theorem C23_unsolicited_304_refuted :
  exists ls s, frun K1 cf1 ls (finit [false; false]) = Some s /\
    show (Some s) = [Some (Some (60 * second), None); Some (Some (60 * second), None)] /\
    ls !! 2%nat = Some (FBegin 1 (3600 * second)).
Proof.
  exists [FBegin 0 5; FResp 0 (Response 200 (B "tag") (Doc (doc1 (B "dom") (60 * second)))) 8 keys1;
          FBegin 1 (3600 * second); FResp 1 (Response 304 [] BadBody) (3601 * second) keys1]%Z.
  eexists. split; [vm_compute; reflexivity|]. split; [vm_compute; done|done].
Qed.

(** ** C24 *)
Theorem C24_attempts_bounded K cf ls kinds s i :
  frun K cf ls (finit kinds) = Some s -> kinds !! i = Some true ->
  Z.of_nat (requests K i ls) <= Z.max 0 (f_attempts cf + 1).
Proof.
  intros H Hk. eapply (frun_budget K cf ls _ _ i (FIdle true)); [exact H| |done].
  cbn [finit fs_calls]. change (map FIdle kinds) with (FIdle <$> kinds). by rewrite list_lookup_fmap, Hk.
Qed.
(** Exactly retryAttempts + 1 requests have failed when it gives up. *)
Theorem C24_gives_up_after_all_attempts K cf ls kinds s i sp e :
  f_url_ok cf = true -> frun K cf ls (finit kinds) = Some s -> kinds !! i = Some true ->
  fs_calls s !! i = Some (FRet sp (Some e)) -> Z.of_nat (requests K i ls) = Z.max 0 (f_attempts cf + 1).
Proof.
  intros Hu H Hk Hi. destruct (frun_spent K cf ls _ _ i (FIdle true) [] Hu H) as (c' & Hc' & Hs); [|done|].
  - cbn [finit fs_calls]. change (map FIdle kinds) with (FIdle <$> kinds). by rewrite list_lookup_fmap, Hk.
  - rewrite Hi in Hc'. injection Hc' as <-. done.
Qed.
Theorem C24_stops_at_success K cf s i sp e l :
  fs_calls s !! i = Some (FRet sp e) ->
  (exists now, l = FBegin i now) \/ (exists r now pkp, l = FResp i r now pkp) -> fstep K cf l s = None.
Proof. intros H [[now ->]|(r & now & pkp & ->)]; cbn [fstep]; by rewrite H. Qed.
Theorem C24_success_returned_at_once K cf s i retry tp inm at_ r now pkp sp upd :
  fs_calls s !! i = Some (FSent retry tp inm at_) -> fetch_response K cf tp pkp now r = (Ok sp, upd) ->
  exists s', fstep K cf (FResp i r now pkp) s = Some s' /\ fs_calls s' !! i = Some (FRet (Some sp) None).
Proof.
  intros H E. cbn [fstep]. rewrite H, E. eexists. split; [done|]. cbn [fs_calls].
  apply list_lookup_insert. by apply lookup_lt_Some in H.
Qed.
Theorem C24_result_or_error K cf ls kinds s i sp e :
  frun K cf ls (finit kinds) = Some s -> fs_calls s !! i = Some (FRet sp e) -> sp <> None \/ e <> None.
Proof. intros H Hi. apply fetch_inv in H as [_ H]. specialize (H _ _ Hi). destruct sp, e; cbn in H; [left|left|right|]; done. Qed.
(** The fallback: when the loop is exhausted the result is the kept policy and an error. *)
Theorem C24_fallback K cf ls kinds s i k last now :
  frun K cf ls (finit kinds) = Some s -> fs_calls s !! i = Some (FLoop k last) -> f_attempts cf <= k ->
  exists s' e, fstep K cf (FBegin i now) s = Some s' /\
    fs_calls s' !! i = Some (FRet (option_map t_sp (fs_cache s)) (Some e)) /\
    match option_map t_sp (fs_cache s) with Some sp => newest K ls sp | None => none_accepted K ls end.
Proof.
  intros H Hi Hk. cbn [fstep]. rewrite Hi. destruct (Z.ltb_spec k (f_attempts cf)); [lia|].
  eexists. eexists. split; [done|]. cbn [fs_calls]. split; [apply list_lookup_insert; by apply lookup_lt_Some in Hi|].
  apply fetch_cache in H. destruct (fs_cache s); [by eexists|done].
Qed.
(** An error with a policy arises in no other way. *)
Theorem C24_error_only_after_failure K cf l s s' i sp e :
  fstep K cf l s = Some s' -> fs_calls s' !! i = Some (FRet sp (Some e)) -> fs_calls s !! i <> Some (FRet sp (Some e)) ->
  sp = None \/ exists k last, fs_calls s !! i = Some (FLoop k last) /\ f_attempts cf <= k /\ sp = option_map t_sp (fs_cache s).
Proof.
  intros Hs Hi Hn. destruct (fstep_return _ _ _ _ _ _ _ _ Hs Hi Hn) as [(? & ? & ? & _ & ? & _)|[(k & last & now & ? & _ & ? & ? & _)|[? _]]];
    [done|right; eauto|by left].
Qed.
Example C24_nonvacuous :
  requests K1 1 hist1 = 3%nat /\ f_attempts cf1 = 2 /\ requests K1 0 hist1 = 2%nat /\
  (* no attempt at all *)
  show (frun K1 (FConf 0 (-2) true) [FBegin 0 1; FBegin 0 2] (finit [true])) = [Some (None, Some (ErrMsg "retryAttempts"))].
Proof. vm_compute. done. Qed.

(** ** C25, fetcher part *)
Theorem C25_fetch_panics_only_on_partial K cf l s s' i :
  fstep K cf l s = Some s' -> fs_calls s' !! i = Some FPanic -> fs_calls s !! i <> Some FPanic ->
  exists r now pkp retry tp inm at_, l = FResp i r now pkp /\ fs_calls s !! i = Some (FSent retry tp inm at_) /\
    ((exists etag b, r = Response 304 etag b /\ tp = None) \/ (exists etag, r = Response 200 etag NullBody)).
Proof. apply fstep_panic. Qed.
(** If no body is null and 304 only answers conditional requests, nothing panics. *)
Definition civil (K : crypto) (cf : fconf) (kinds : list bool) (ls : list (flabel K)) : Prop :=
  forall ls1 i r now pkp ls2 s, ls = ls1 ++ FResp i r now pkp :: ls2 -> frun K cf ls1 (finit kinds) = Some s ->
    (forall etag, r <> Response 200 etag NullBody) /\
    forall etag b, r = Response 304 etag b -> exists retry tp at_, fs_calls s !! i = Some (FSent retry tp true at_).
Theorem C25_civil_server_no_panic_partial K cf ls kinds s :
  frun K cf ls (finit kinds) = Some s -> civil K cf kinds ls -> forall i, fs_calls s !! i <> Some FPanic.
Proof.
  revert s. induction ls as [|l ls IH] using rev_ind; intros s H Hciv i Hp.
  - injection H as <-. cbn [finit fs_calls] in Hp. by apply elem_of_list_lookup_2, elem_of_list_fmap in Hp as (b & ? & _).
  - rewrite frun_app in H. destruct (frun K cf ls (finit kinds)) as [s1|] eqn:E; [|done].
    cbn [frun] in H. destruct (fstep K cf l s1) as [s2|] eqn:E2; [|done]. injection H as ->.
    assert (fs_calls s1 !! i <> Some FPanic) as Hn.
    { apply IH; [done|]. intros ls1 j r now pkp ls2 s0 -> Hr. eapply (Hciv ls1 j r now pkp (ls2 ++ [l])); [|done].
      by rewrite <- app_assoc. }
    destruct (C25_fetch_panics_only_on_partial _ _ _ _ _ _ E2 Hp Hn) as (r & now & pkp & retry & tp & inm & at_ & -> & Hc & Hb).
    destruct (Hciv ls i r now pkp [] s1 eq_refl E) as [Hnull H304].
    destruct Hb as [(etag & b & -> & ->)|(etag & ->)]; [|by eapply Hnull].
    destruct (H304 etag b eq_refl) as (retry' & tp' & at' & Hc'). rewrite Hc in Hc'. injection Hc' as _ <- -> _.
    apply fetch_inv in E as [_ E]. destruct (E _ _ Hc) as [_ Hcond]. done.
Qed.
Example C25_civil_nonvacuous :
  exists s, frun K1 cf1 hist1 (finit [true; true]) = Some s /\ civil K1 cf1 [true; true] hist1.
Proof.
  destruct (frun K1 cf1 hist1 (finit [true; true])) as [s|] eqn:E; [|by vm_compute in E].
  exists s. split; [done|]. intros ls1 i r now pkp ls2 s0 Heq _.
  assert (FResp i r now pkp ∈ hist1) as Hin by (rewrite Heq; apply elem_of_app; right; left). clear Heq E.
  unfold hist1 in Hin. repeat (apply elem_of_cons in Hin as [Hin|Hin]; [try done; injection Hin as _ -> _ _; done|]).
  by apply elem_of_nil in Hin.
Qed.
(** null in the place of the policies, of a policy or of an assertion. *)
Definition has_null (d : signed_data) : Prop :=
  sd_policy d = None \/ exists p, sd_policy d = Some p /\ (None ∈ pd_policies p \/ exists pol, Some pol ∈ pd_policies p /\ None ∈ pol).
(** What a finished call returns is used without a panic, unless a verified document contains such a null. *)
Theorem C25_result_used K cf ls kinds s i sp e : frun K cf ls (finit kinds) = Some s -> fs_calls s !! i = Some (FRet sp e) ->
  (forall e', fetched_policy sp e = Err e' <-> sp = None /\ e = Some e') /\
  (fetched_policy sp e = Panic <-> exists p d, sp = Some p /\ sp_data p = Some d /\ has_null d).
Proof.
  intros H Hi. destruct sp as [p|].
  - pose proof (C21_served_policies_verified _ _ _ _ _ _ _ _ H Hi) as (j & etag & now & pkp & _ & (d & ex & v & m & v' & m' & Hd & He & _)).
    cbn [fetched_policy]. rewrite Hd, He. split.
    + intros e'. split; [destruct (sd_policy d) as [pd|]; [by destruct (policies_of _)|done]|by intros [? _]].
    + split.
      * intros Hx. exists p, d. split; [done|]. split; [done|]. destruct (sd_policy d) as [pd|] eqn:Ep; [right|by left]. exists pd. split; [done|].
        apply policies_of_null. by destruct (policies_of (pd_policies pd)).
      * intros (p' & d' & [= <-] & Hd' & Hp). rewrite Hd in Hd'. injection Hd' as <-. destruct Hp as [->|(pd & -> & Hn)]; [done|]. apply policies_of_null in Hn. by rewrite Hn.
  - destruct (C24_result_or_error _ _ _ _ _ _ _ _ H Hi) as [?|He]; [done|]. destruct e as [e|]; [|done]. cbn [fetched_policy]. split.
    + intros e'. split; [intros [= <-]; done|]. by intros [_ [= <-]].
    + split; [done|]. by intros (p & d & ? & _).
Qed.
(** REFUTED for the two misbehaviours. *)
Theorem C25_304_without_copy_refuted :
  exists s, frun K1 cf1 [FBegin 0 1; FResp 0 (Response 304 [] BadBody) 2 keys1] (finit [false]) = Some s /\
    fs_calls s !! 0%nat = Some FPanic.
Proof. eexists. split; [vm_compute; reflexivity|done]. Qed.
Theorem C25_null_policy_refuted :
  exists s, frun K1 cf1 [FBegin 0 1; FResp 0 (Response 200 [] NullBody) 2 keys1] (finit [false]) = Some s /\
    fs_calls s !! 0%nat = Some FPanic.
Proof. eexists. split; [vm_compute; reflexivity|done]. Qed.

Print Assumptions C21_served_policies_verified.
Print Assumptions C21_kept_policy_verified.
Print Assumptions C21_kept_policy_newest.
Print Assumptions C22_verify_exact.
Print Assumptions C22_verify_never_panics.
Print Assumptions C22_expired_refused.
Print Assumptions C22_unknown_key_refused.
Print Assumptions C22_bad_signature_refused.
Print Assumptions C22_bad_zms_signature_refused.
Print Assumptions C23_conditional_copy_fresh_partial.
Print Assumptions C23_tag_is_that_of_the_copy.
Print Assumptions C23_condition_exact.
Print Assumptions C23_unsolicited_304_refuted.
Print Assumptions C24_attempts_bounded.
Print Assumptions C24_gives_up_after_all_attempts.
Print Assumptions C24_stops_at_success.
Print Assumptions C24_success_returned_at_once.
Print Assumptions C24_result_or_error.
Print Assumptions C24_fallback.
Print Assumptions C24_error_only_after_failure.
Print Assumptions C25_fetch_panics_only_on_partial.
Print Assumptions C25_civil_server_no_panic_partial.
Print Assumptions C25_result_used.
Print Assumptions C25_304_without_copy_refuted.
Print Assumptions C25_null_policy_refuted.
