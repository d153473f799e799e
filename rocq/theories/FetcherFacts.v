(** * Facts about the fetcher *)
From Verif Require Export Fetcher.

(** A policy document that is acceptable at time [now]: data and expiry present,
    expiry strictly later, both keys known, both signatures good. *)
Definition valid_policy (K : crypto) (pkp : provider K) (now : time) (sp : signed_policy) : Prop :=
  exists d e v m v' m',
    sp_data sp = Some d /\ sd_expires d = Some e /\ now < e /\
    pkp EnvZTS (sp_key sp) = Some v /\ marshal_spd K d = Some m /\ vfy K v m (sp_sig sp) = true /\
    pkp EnvZMS (sd_zms_key d) = Some v' /\ marshal_pd K (sd_policy d) = Some m' /\
    vfy K v' m' (sd_zms_sig d) = true.

Lemma time_sub_le0 e now : (time_sub e now <=? 0) = (e <=? now).
Proof.
  unfold time_sub, sat64, min_int64, max_int64, two63.
  destruct (Z.leb_spec e now); destruct (Z.leb_spec (Z.max (-9223372036854775808) (Z.min (9223372036854775808 - 1) (e - now))) 0); lia.
Qed.

Lemma sp_verify_iff K pkp now s :
  sp_verify K pkp now s = Ok tt <-> exists sp, s = Some sp /\ valid_policy K pkp now sp.
Proof.
  unfold sp_verify, valid_policy. split.
  - destruct s as [sp|]; [|done]. intros H. exists sp. split; [done|].
    destruct (sp_data sp) as [d|]; [|done]. destruct (sd_expires d) as [e|] eqn:Ee; [|done].
    rewrite time_sub_le0 in H. destruct (Z.leb_spec e now); [done|].
    destruct (pkp EnvZTS (sp_key sp)) as [v|]; [|done]. destruct (marshal_spd K d) as [m|] eqn:Em; [|done].
    destruct (vfy K v m (sp_sig sp)) eqn:Ev; [|done]. cbn [negb] in H.
    destruct (pkp EnvZMS (sd_zms_key d)) as [v'|] eqn:Ek; [|done].
    destruct (marshal_pd K (sd_policy d)) as [m'|] eqn:Em'; [|done].
    destruct (vfy K v' m' (sd_zms_sig d)) eqn:Ev'; [|done].
    exists d, e, v, m, v', m'. by split_and!.
  - intros (sp & -> & d & e & v & m & v' & m' & -> & -> & Hlt & -> & -> & Hv & -> & -> & Hv').
    rewrite time_sub_le0. destruct (Z.leb_spec e now); [lia|]. rewrite Hv. cbn [negb]. by rewrite Hv'.
Qed.

Lemma policies_of_written l doc : policies_of l = Some doc <-> l = written doc.
Proof.
  unfold policies_of, written. rewrite mapM_Some. split.
  - intros H. induction H as [|x y l k Hx _ IH]; [done|]. cbn [map]. rewrite IH. f_equal. destruct x as [x|]; [|done]. f_equal.
    apply mapM_Some in Hx. clear -Hx. induction Hx as [|a b l k Ha _ IH]; [done|]. cbn [map]. by rewrite IH, Ha.
  - intros ->. induction doc as [|pol doc IH]; constructor; [|done]. apply mapM_Some. clear. induction pol; by constructor.
Qed.
Lemma written_inj d1 d2 : written d1 = written d2 -> d1 = d2.
Proof. intros H. apply policies_of_written in H. assert (policies_of (written d2) = Some d2) as H2 by (by apply policies_of_written). rewrite (proj2 (policies_of_written _ _) eq_refl) in H. by injection H. Qed.
Lemma policies_of_null l : policies_of l = None <-> None ∈ l \/ exists pol, Some pol ∈ l /\ None ∈ pol.
Proof.
  unfold policies_of. rewrite mapM_None. rewrite Exists_exists. split.
  - intros (x & Hx & Hn). destruct x as [pol|]; [|by left]. right. exists pol. split; [done|]. apply mapM_None, Exists_exists in Hn as (r & Hr & ->). done.
  - intros [H|(pol & H & Hn)]; [by exists None|]. exists (Some pol). split; [done|]. apply mapM_None, Exists_exists. by exists None.
Qed.

Lemma sp_verify_panic K pkp now s : sp_verify K pkp now s = Panic <-> s = None.
Proof.
  unfold sp_verify. destruct s as [sp|]; [|done]. split; [|done].
  destruct (sp_data sp) as [d|]; [|done]. destruct (sd_expires d); [|done]. destruct (_ <=? _); [done|].
  destruct (pkp EnvZTS _); [|done]. destruct (marshal_spd K d); [|done]. destruct (negb _); [done|].
  destruct (pkp EnvZMS _); [|done]. destruct (marshal_pd K _); [|done]. by destruct (negb _).
Qed.

Section history.
  Context (K : crypto) (cf : fconf).

  (** [sp] was downloaded in the history and verified at that moment. *)
  Definition verified_in (ls : list (flabel K)) (sp : signed_policy) : Prop :=
    exists i etag now pkp, FResp i (Response 200 etag (Doc sp)) now pkp ∈ ls /\ valid_policy K pkp now sp.
  Definition tag_ok (P : signed_policy -> Prop) (t : tagged) : Prop :=
    P (t_sp t) /\ exists d e, sp_data (t_sp t) = Some d /\ sd_expires d = Some e /\ t_etag_expiry t = e - f_margin cf.
  Definition call_ok (P : signed_policy -> Prop) (c : fcall) : Prop :=
    match c with
    | FSent _ tp inm at_ => (forall t, tp = Some t -> tag_ok P t) /\ inm = conditional tp at_
    | FRet (Some sp) _ => P sp
    | FRet None None => False
    | _ => True
    end.
  Definition finv (P : signed_policy -> Prop) (s : fst_) : Prop :=
    (forall t, fs_cache s = Some t -> tag_ok P t) /\ (forall i c, fs_calls s !! i = Some c -> call_ok P c).

  Lemma finv_mono (P Q : signed_policy -> Prop) s : (forall sp, P sp -> Q sp) -> finv P s -> finv Q s.
  Proof.
    intros HPQ [Hc Hs]. assert (forall t, tag_ok P t -> tag_ok Q t) as Ht by (intros t [? ?]; split; auto).
    split; [auto|]. intros i c H. specialize (Hs _ _ H). destruct c as [|? ?|? ? ? ?|[?|] [?|]|]; cbn in *; try done; [|by auto..].
    destruct Hs as [H1 H2]. split; [|done]. auto.
  Qed.

  Lemma fetch_response_spec tp pkp now r res upd (P : signed_policy -> Prop) :
    fetch_response K cf tp pkp now r = (res, upd) ->
    (forall t, tp = Some t -> tag_ok P t) ->
    (forall etag sp, r = Response 200 etag (Doc sp) -> valid_policy K pkp now sp -> P sp) ->
    (forall sp, res = Ok sp -> P sp) /\ (forall t, upd = Some t -> tag_ok P t).
  Proof.
    unfold fetch_response. intros H Htp HP. destruct r as [e|status etag b]; [injection H as <- <-; done|].
    destruct (Z.eqb_spec status 304) as [->|H304].
    { destruct tp as [t|]; injection H as <- <-; (split; [|done]); [|done]. intros sp [= <-]. by apply Htp. }
    destruct (Z.eqb_spec status 200) as [->|H200]; cbn [negb] in H; [|injection H as <- <-; done].
    destruct b as [| |sp]; [by injection H as <- <-|by injection H as <- <-|].
    destruct (sp_verify K pkp now (Some sp)) as [[]|e|] eqn:E; [|by injection H as <- <-|by apply sp_verify_panic in E].
    apply sp_verify_iff in E as (sp' & [= <-] & Hv). pose proof Hv as (d & e & _ & _ & _ & _ & Hd & He & _).
    rewrite Hd, He in H. injection H as <- <-. pose proof (HP etag sp eq_refl Hv) as Hp. split; [by intros ? [= <-]|].
    intros t [= <-]. split; [done|]. exists d, e. split_and!; try done.
  Qed.

  Lemma fetch_response_panic tp pkp now r upd :
    fetch_response K cf tp pkp now r = (Panic, upd) ->
    (exists etag b, r = Response 304 etag b /\ tp = None) \/ (exists etag, r = Response 200 etag NullBody).
  Proof.
    unfold fetch_response. intros H. destruct r as [e|status etag b]; [done|].
    destruct (Z.eqb_spec status 304) as [->|H304].
    { destruct tp as [t|]; [done|]. left. eauto. }
    destruct (Z.eqb_spec status 200) as [->|H200]; cbn [negb] in H; [|done].
    destruct b as [| |sp]; [done|right; eauto|].
    destruct (sp_verify K pkp now (Some sp)) as [[]|e|] eqn:E; [|done|by apply sp_verify_panic in E].
    apply sp_verify_iff in E as (sp' & [= <-] & Hv). pose proof Hv as (d & e & _ & _ & _ & _ & Hd & He & _).
    by rewrite Hd, He in H.
  Qed.

  Lemma finv_upd P c calls i w : (forall t, c = Some t -> tag_ok P t) ->
    (forall k x, calls !! k = Some x -> call_ok P x) -> call_ok P w -> finv P (FSt c (<[i := w]> calls)).
  Proof.
    intros Hc Hs Hw. split; [done|]. intros k x H. cbn [fs_calls] in H.
    apply list_lookup_insert_Some in H as [(_ & <- & _)|[_ H]]; eauto.
  Qed.
  Lemma fetch_begin_ok P c retry now : (forall t, c = Some t -> tag_ok P t) -> call_ok P (fetch_begin cf c retry now).
  Proof. intros H. unfold fetch_begin. destruct (f_url_ok cf); [by split|]. by destruct retry. Qed.

  Lemma fstep_inv l s s' (P : signed_policy -> Prop) : fstep K cf l s = Some s' ->
    (forall i etag now pkp sp, l = FResp i (Response 200 etag (Doc sp)) now pkp -> valid_policy K pkp now sp -> P sp) ->
    finv P s -> finv P s'.
  Proof.
    intros Hs HP [Hc Hi]. destruct l as [i now|i r now pkp]; cbn [fstep] in Hs;
      destruct (fs_calls s !! i) as [c|] eqn:Ec; try done.
    - destruct c as [[]|k last|? ? ? ?|? ?|]; try done.
      + injection Hs as <-. by apply finv_upd.
      + injection Hs as <-. apply finv_upd; [done..|]. by apply fetch_begin_ok.
      + destruct (k <? f_attempts cf); injection Hs as <-; apply finv_upd; try done.
        * by apply fetch_begin_ok.
        * destruct (fs_cache s) as [t|]; cbn; [|done]. by apply Hc.
    - destruct c as [|? ?|retry tp inm at_|? ?|]; try done.
      destruct (fetch_response K cf tp pkp now r) as [res upd] eqn:E. injection Hs as <-.
      pose proof (Hi _ _ Ec) as [Htp _].
      destruct (fetch_response_spec _ _ _ _ _ _ P E Htp) as (H1 & H2).
      { intros etag sp -> Hv. by eapply HP. }
      apply finv_upd; [|done|].
      + intros t Ht. destruct upd as [t'|]; [injection Ht as <-; by apply H2|by apply Hc].
      + destruct res as [sp|e|]; [cbn; by apply H1| |done]. by destruct retry.
  Qed.

  Lemma frun_inv ls s s' pre (H : frun K cf ls s = Some s') :
    finv (verified_in pre) s -> finv (verified_in (pre ++ ls)) s'.
  Proof.
    revert s pre H. induction ls as [|l ls IH]; intros s pre H Hf; cbn [frun] in H.
    - injection H as <-. by rewrite app_nil_r.
    - destruct (fstep K cf l s) as [s1|] eqn:E; [|done].
      replace (pre ++ l :: ls) with ((pre ++ [l]) ++ ls) by (by rewrite <- app_assoc).
      apply (IH s1); [done|]. eapply fstep_inv; [exact E| |].
      + intros i etag now pkp sp -> Hv. exists i, etag, now, pkp. split; [|done]. apply elem_of_app. right. left.
      + eapply finv_mono; [|exact Hf]. intros sp (i & etag & now & pkp & Hin & Hv). exists i, etag, now, pkp.
        split; [|done]. apply elem_of_app. by left.
  Qed.
  Lemma finit_inv kinds : finv (verified_in []) (finit kinds).
  Proof.
    split; [done|]. intros i c H. cbn [finit fs_calls] in H. apply elem_of_list_lookup_2, elem_of_list_fmap in H as (b & -> & _). done.
  Qed.
  Lemma fetch_inv ls kinds s : frun K cf ls (finit kinds) = Some s -> finv (verified_in ls) s.
  Proof. intros H. apply (frun_inv _ _ _ [] H), finit_inv. Qed.

  (** Panics only on the two misbehaviours. *)
  Definition bad_answer (r : response signed_policy) : Prop :=
    (exists etag b, r = Response 304 etag b) \/ (exists etag, r = Response 200 etag NullBody).
  Lemma fstep_panic l s s' i : fstep K cf l s = Some s' -> fs_calls s' !! i = Some FPanic -> fs_calls s !! i <> Some FPanic ->
    exists r now pkp retry tp inm at_, l = FResp i r now pkp /\ fs_calls s !! i = Some (FSent retry tp inm at_) /\
      ((exists etag b, r = Response 304 etag b /\ tp = None) \/ (exists etag, r = Response 200 etag NullBody)).
  Proof.
    intros Hs Hp Hn. destruct l as [k now|k r now pkp]; cbn [fstep] in Hs;
      destruct (fs_calls s !! k) as [c|] eqn:Ec; try done.
    - assert (forall c' w, FSt c' (<[k:=w]> (fs_calls s)) = s' -> w <> FPanic -> False) as Hx.
      { intros c' w <- Hw. cbn [fs_calls] in Hp. apply list_lookup_insert_Some in Hp as [(_ & ? & _)|[_ Hp]]; done. }
      destruct c as [[]|kk last|? ? ? ?|? ?|]; try done.
      + injection Hs as Hs. exfalso. by eapply Hx.
      + injection Hs as Hs. exfalso. eapply Hx; [exact Hs|]. unfold fetch_begin. by destruct (f_url_ok cf).
      + destruct (kk <? f_attempts cf); injection Hs as Hs; exfalso; (eapply Hx; [exact Hs|]); [|done].
        unfold fetch_begin. by destruct (f_url_ok cf).
    - destruct c as [|? ?|retry tp inm at_|? ?|]; try done.
      destruct (fetch_response K cf tp pkp now r) as [res upd] eqn:E. injection Hs as <-. cbn [fs_calls] in Hp.
      apply list_lookup_insert_Some in Hp as [(-> & Hw & _)|[_ Hp]]; [|done].
      exists r, now, pkp, retry, tp, inm, at_. split_and!; try done.
      assert (res = Panic) as -> by (destruct res as [?|?|]; [done|by destruct retry|done]).
      by apply fetch_response_panic in E.
  Qed.

  (** Without those answers no call ever panics. *)
  Definition sane (ls : list (flabel K)) : Prop :=
    forall i r now pkp, FResp i r now pkp ∈ ls ->
      (forall etag b, r <> Response 304 etag b) /\ (forall etag, r <> Response 200 etag NullBody).
  Lemma frun_no_panic ls s s' : frun K cf ls s = Some s' ->
    (forall i r now pkp, FResp i r now pkp ∈ ls -> forall etag, r <> Response 200 etag NullBody) ->
    (forall i r now pkp, FResp i r now pkp ∈ ls -> (forall etag b, r <> Response 304 etag b) \/
        forall ls1 ls2 s1 retry tp inm at_, ls = ls1 ++ FResp i r now pkp :: ls2 -> frun K cf ls1 s = Some s1 ->
          fs_calls s1 !! i = Some (FSent retry tp inm at_) -> tp <> None) ->
    (forall i, fs_calls s !! i <> Some FPanic) -> forall i, fs_calls s' !! i <> Some FPanic.
  Proof.
    revert s. induction ls as [|l ls IH]; intros s H Hnull H304 Hn; cbn [frun] in H; [by injection H as <-|].
    destruct (fstep K cf l s) as [s1|] eqn:E; [|done]. apply (IH s1); [done|..].
    - intros i r now pkp Hin. apply (Hnull i r now pkp). by right.
    - intros i r now pkp Hin. destruct (H304 i r now pkp) as [Hx|Hx]; [by right|by left|]. right.
      intros ls1 ls2 s2 retry tp inm at_ -> Hrun Hi. eapply (Hx (l :: ls1) ls2); [done| |exact Hi].
      cbn [frun]. by rewrite E.
    - intros i Hp. destruct (fstep_panic _ _ _ _ E Hp (Hn i)) as (r & now & pkp & retry & tp & inm & at_ & -> & Hc & Hb).
      destruct Hb as [(etag & b & -> & ->)|(etag & ->)].
      + destruct (H304 i (Response 304 etag b) now pkp) as [Hx|Hx]; [left|by eapply Hx|].
        by eapply (Hx [] ls s).
      + by eapply (Hnull i _ now pkp); [left|].
  Qed.

  (** ** Retry discipline *)
  Definition is_resp (i : nat) (l : flabel K) : bool :=
    match l with FResp k _ _ _ => (k =? i)%nat | _ => false end.
  Definition requests (i : nat) (ls : list (flabel K)) : nat := length (List.filter (is_resp i) ls).
  (** Attempts that call [i] may still make. *)
  Definition budget (c : fcall) : Z :=
    match c with
    | FIdle false => 1
    | FIdle true => Z.max 0 (f_attempts cf + 1)
    | FLoop k _ => Z.max 0 (f_attempts cf - k)
    | FSent (Some k) _ _ _ => Z.max 1 (f_attempts cf - k)
    | FSent None _ _ _ => 1
    | FRet _ _ | FPanic => 0
    end.
  Definition sent_ok (c : fcall) : Prop := match c with FSent (Some k) _ _ _ => k < f_attempts cf | _ => True end.

  Lemma fstep_budget l s s' i c : fstep K cf l s = Some s' -> fs_calls s !! i = Some c -> sent_ok c ->
    exists c', fs_calls s' !! i = Some c' /\ sent_ok c' /\ budget c' + (if is_resp i l then 1 else 0) <= budget c.
  Proof.
    intros Hs Hc Hok.
    assert (forall k w c0, FSt c0 (<[k := w]> (fs_calls s)) = s' -> k <> i -> fs_calls s' !! i = Some c) as Hother.
    { intros k w c0 <- Hne. cbn [fs_calls]. by rewrite list_lookup_insert_ne. }
    pose proof (lookup_lt_Some _ _ _ Hc) as Hlt.
    destruct l as [k now|k r now pkp]; cbn [fstep is_resp] in *.
    - destruct (decide (k = i)) as [->|Hne].
      + rewrite Hc in Hs.
        assert (forall retry, sent_ok (fetch_begin cf (fs_cache s) retry now) \/
          (exists k, retry = Some k /\ ~ k < f_attempts cf)) as Hsent.
        { intros retry. unfold fetch_begin. destruct (f_url_ok cf); [|left; by destruct retry].
          destruct retry as [k|]; cbn; [|by left]. destruct (decide (k < f_attempts cf)); [by left|right; eauto]. }
        destruct c as [[]|kk last|? ? ? ?|? ?|]; try done.
        * injection Hs as <-. cbn [fs_calls]. rewrite list_lookup_insert by done. eexists. split; [done|]. split; [done|]. cbn. lia.
        * injection Hs as <-. cbn [fs_calls]. rewrite list_lookup_insert by done. eexists. split; [done|].
          split; [by destruct (Hsent None) as [?|(? & ? & ?)]|]. unfold fetch_begin. destruct (f_url_ok cf); cbn; lia.
        * destruct (Z.ltb_spec kk (f_attempts cf)); injection Hs as <-; cbn [fs_calls]; rewrite list_lookup_insert by done;
            eexists; (split; [done|]); (split; [|cbn; try lia]).
          -- by destruct (Hsent (Some kk)) as [?|(? & [= <-] & ?)].
          -- unfold fetch_begin. destruct (f_url_ok cf); cbn; lia.
          -- done.
      + destruct (fs_calls s !! k) as [c'|] eqn:Ek; [|done]. exists c. split; [|split; [done|lia]].
        destruct c' as [[]|kk last|? ? ? ?|? ?|]; try done.
        * injection Hs as Hs. by eapply Hother.
        * injection Hs as Hs. by eapply Hother.
        * destruct (kk <? f_attempts cf); injection Hs as Hs; by eapply Hother.
    - destruct (fs_calls s !! k) as [c'|] eqn:Ek; [|done].
      destruct c' as [|? ?|retry tp inm at_|? ?|]; try done.
      destruct (fetch_response K cf tp pkp now r) as [res upd]. injection Hs as Hs.
      destruct (Nat.eqb_spec k i) as [->|Hne].
      + rewrite Hc in Ek. injection Ek as ->. rewrite <- Hs. cbn [fs_calls]. rewrite list_lookup_insert by done.
        eexists. split; [done|]. cbn [sent_ok] in Hok.
        destruct res as [sp|e|]; cbn; [split; [done|]; destruct retry; lia| |split; [done|]; destruct retry; lia].
        destruct retry as [kk|]; cbn; (split; [done|]); lia.
      + exists c. split; [by eapply Hother|]. split; [done|lia].
  Qed.
  Lemma frun_budget ls s s' i c : frun K cf ls s = Some s' -> fs_calls s !! i = Some c -> sent_ok c ->
    Z.of_nat (requests i ls) <= budget c.
  Proof.
    assert (forall c, 0 <= budget c) as Hpos.
    { intros [[]|? ?|[?|] ? ? ?|? ?|]; cbn; lia. }
    revert s c. induction ls as [|l ls IH]; intros s c H Hc Hok; cbn [frun] in H; [unfold requests; cbn; apply Hpos|].
    destruct (fstep K cf l s) as [s1|] eqn:E; [|done].
    destruct (fstep_budget _ _ _ _ _ E Hc Hok) as (c' & Hc' & Hok' & Hb).
    specialize (IH _ _ H Hc' Hok'). unfold requests in *. cbn [List.filter]. destruct (is_resp i l); cbn [length]; lia.
  Qed.

  (** How a call can end. *)
  Lemma fstep_return l s s' i sp e : fstep K cf l s = Some s' -> fs_calls s' !! i = Some (FRet sp e) ->
    fs_calls s !! i <> Some (FRet sp e) ->
    (* first success of an attempt *)
    (exists r now pkp, l = FResp i r now pkp /\ e = None /\ sp <> None) \/
    (* FetchWithRetry exhausted: the cached policy, if any, with an error *)
    (exists k last now, fs_calls s !! i = Some (FLoop k last) /\ l = FBegin i now /\ f_attempts cf <= k /\
       sp = option_map t_sp (fs_cache s) /\ e <> None) \/
    (* plain Fetch failed *)
    (sp = None /\ e <> None).
  Proof.
    intros Hs Hr Hn. destruct l as [k now|k r now pkp]; cbn [fstep] in Hs;
      destruct (fs_calls s !! k) as [c|] eqn:Ec; try done.
    - assert (forall c' w, FSt c' (<[k:=w]> (fs_calls s)) = s' -> k = i /\ w = FRet sp e) as Hx.
      { intros c' w <-. cbn [fs_calls] in Hr. apply list_lookup_insert_Some in Hr as [(? & ? & _)|[_ Hr]]; done. }
      assert (forall retry, fetch_begin cf (fs_cache s) retry now = FRet sp e -> sp = None /\ e <> None) as Hb.
      { intros retry. unfold fetch_begin. destruct (f_url_ok cf); [done|]. destruct retry; [done|]. by intros [= <- <-]. }
      destruct c as [[]|kk last|? ? ? ?|? ?|]; try done.
      + injection Hs as Hs. by destruct (Hx _ _ Hs).
      + injection Hs as Hs. destruct (Hx _ _ Hs) as [_ Hw]. right; right. by eapply Hb.
      + destruct (Z.ltb_spec kk (f_attempts cf)) as [Hlt|Hge]; injection Hs as Hs.
        * destruct (Hx _ _ Hs) as [_ Hw]. right; right. by eapply Hb.
        * destruct (Hx _ _ Hs) as [-> Hw]. injection Hw as <- <-. right; left. exists kk, last, now. by split_and!.
    - destruct c as [|? ?|retry tp inm at_|? ?|]; try done.
      destruct (fetch_response K cf tp pkp now r) as [res upd] eqn:E. injection Hs as <-. cbn [fs_calls] in Hr.
      apply list_lookup_insert_Some in Hr as [(-> & Hw & _)|[_ Hr]]; [|done].
      destruct res as [sp'|e'|].
      + injection Hw as <- <-. left. exists r, now, pkp. by split_and!.
      + destruct retry; [done|]. injection Hw as <- <-. right; right. done.
      + done.
  Qed.

  (** The cache holds the last document that was downloaded and found valid. *)
  Definition accepts (l : flabel K) (etag : str) (sp : signed_policy) : Prop :=
    exists i now pkp, l = FResp i (Response 200 etag (Doc sp)) now pkp /\ valid_policy K pkp now sp.
  Definition none_accepted (ls : list (flabel K)) : Prop := forall l etag sp, l ∈ ls -> ~ accepts l etag sp.
  (** [sp] is the last valid download; [etag] is the tag it came with. *)
  Definition newest_answer (ls : list (flabel K)) (etag : str) (sp : signed_policy) : Prop :=
    exists ls1 l ls2, ls = ls1 ++ l :: ls2 /\ accepts l etag sp /\ none_accepted ls2.
  Definition newest (ls : list (flabel K)) (sp : signed_policy) : Prop := exists etag, newest_answer ls etag sp.
  Definition cache_spec (ls : list (flabel K)) (c : option tagged) : Prop :=
    match c with Some t => newest_answer ls (t_etag t) (t_sp t) | None => none_accepted ls end.

  Lemma fetch_response_upd tp pkp now r res upd : fetch_response K cf tp pkp now r = (res, upd) ->
    match upd with
    | Some t => r = Response 200 (t_etag t) (Doc (t_sp t)) /\ valid_policy K pkp now (t_sp t)
    | None => forall etag sp, r = Response 200 etag (Doc sp) -> ~ valid_policy K pkp now sp
    end.
  Proof.
    unfold fetch_response. intros H. destruct r as [e|status etag b]; [by injection H as <- <-|].
    destruct (Z.eqb_spec status 304) as [->|H304]; [by destruct tp; injection H as <- <-|].
    destruct (Z.eqb_spec status 200) as [->|H200]; cbn [negb] in H; [|injection H as <- <-; by intros ? ? [= ? ? ?]].
    destruct b as [| |sp]; [by injection H as <- <-|by injection H as <- <-|].
    destruct (sp_verify K pkp now (Some sp)) as [[]|e|] eqn:E; [| |by apply sp_verify_panic in E].
    - apply sp_verify_iff in E as (sp' & [= <-] & Hv). pose proof Hv as (d & e & _ & _ & _ & _ & Hd & He & _).
      rewrite Hd, He in H. injection H as <- <-. cbn [t_sp t_etag]. eauto.
    - injection H as <- <-. intros ? ? [= <- <-] Hv.
      assert (sp_verify K pkp now (Some sp) = Ok tt) as E' by (apply sp_verify_iff; eauto). by rewrite E in E'.
  Qed.

  Lemma fstep_cache l s s' pre : fstep K cf l s = Some s' -> cache_spec pre (fs_cache s) ->
    cache_spec (pre ++ [l]) (fs_cache s').
  Proof.
    assert (forall c, (forall etag sp, ~ accepts l etag sp) -> cache_spec pre c -> cache_spec (pre ++ [l]) c) as Hkeep.
    { intros [t|] Hn; cbn.
      - intros (ls1 & l1 & ls2 & -> & Ha & Hl). exists ls1, l1, (ls2 ++ [l]). split; [by rewrite <- app_assoc|]. split; [done|].
        intros l' etag' sp' Hin. apply elem_of_app in Hin as [Hin|Hin]; [by eapply Hl|]. apply elem_of_list_singleton in Hin as ->. apply Hn.
      - intros Hl l' etag' sp' Hin. apply elem_of_app in Hin as [Hin|Hin]; [by eapply Hl|]. apply elem_of_list_singleton in Hin as ->. apply Hn. }
    intros Hs Hc. destruct l as [k now|k r now pkp]; cbn [fstep] in Hs;
      destruct (fs_calls s !! k) as [c|] eqn:Ec; try done.
    - assert (fs_cache s' = fs_cache s) as ->.
      { destruct c as [[]|kk last|? ? ? ?|? ?|]; try done; [by injection Hs as <-..|].
        destruct (kk <? f_attempts cf); by injection Hs as <-. }
      apply Hkeep; [|done]. by intros etag sp (? & ? & ? & ? & ?).
    - destruct c as [|? ?|retry tp inm at_|? ?|]; try done.
      destruct (fetch_response K cf tp pkp now r) as [res upd] eqn:E. injection Hs as <-. cbn [fs_cache].
      apply fetch_response_upd in E. destruct upd as [t|].
      + destruct E as (-> & Hv). cbn. exists pre, (FResp k (Response 200 (t_etag t) (Doc (t_sp t))) now pkp), [].
        split; [done|]. split; [by exists k, now, pkp|]. intros ? ? ? Hin. by apply elem_of_nil in Hin.
      + apply Hkeep; [|done]. intros etag sp (i' & now' & pkp' & Heq & Hv). injection Heq as -> -> -> ->. by eapply E.
  Qed.
  Lemma frun_cache ls s s' pre : frun K cf ls s = Some s' -> cache_spec pre (fs_cache s) ->
    cache_spec (pre ++ ls) (fs_cache s').
  Proof.
    revert s pre. induction ls as [|l ls IH]; intros s pre H Hc; cbn [frun] in H.
    - injection H as <-. by rewrite app_nil_r.
    - destruct (fstep K cf l s) as [s1|] eqn:E; [|done].
      replace (pre ++ l :: ls) with ((pre ++ [l]) ++ ls) by (by rewrite <- app_assoc).
      apply (IH s1); [done|]. by eapply fstep_cache.
  Qed.
  Lemma fetch_cache ls kinds s : frun K cf ls (finit kinds) = Some s -> cache_spec ls (fs_cache s).
  Proof. intros H. apply (frun_cache _ _ _ [] H). intros l etag sp Hin. by apply elem_of_nil in Hin. Qed.

  Lemma frun_app ls1 ls2 s : frun K cf (ls1 ++ ls2) s = match frun K cf ls1 s with Some s1 => frun K cf ls2 s1 | None => None end.
  Proof. revert s. induction ls1 as [|l ls1 IH]; intros s; cbn [frun app]; [done|]. by destruct (fstep K cf l s). Qed.

  Lemma frun_snoc ls l s s' : frun K cf (ls ++ [l]) s = Some s' -> exists s1, frun K cf ls s = Some s1 /\ fstep K cf l s1 = Some s'.
  Proof. rewrite frun_app. destruct (frun K cf ls s) as [s1|]; [|done]. cbn [frun]. intros H. exists s1. split; [done|]. by destruct (fstep K cf l s1). Qed.
  (** What a request that is out remembers is what was kept when it was sent. *)
  Lemma sent_copy ls kinds s i retry tp inm at_ : frun K cf ls (finit kinds) = Some s -> fs_calls s !! i = Some (FSent retry tp inm at_) ->
    exists ls1 ls2, ls = ls1 ++ FBegin i at_ :: ls2 /\ cache_spec ls1 tp /\ inm = conditional tp at_.
  Proof.
    revert s. induction ls as [|l ls IH] using rev_ind; intros s H Hi.
    - cbn [frun] in H. injection H as <-. cbn [finit fs_calls] in Hi. apply elem_of_list_lookup_2, elem_of_list_fmap in Hi as (b & Hb & _). done.
    - apply frun_snoc in H as (s1 & H & Hs).
      assert (fs_calls s1 !! i = Some (FSent retry tp inm at_) \/ l = FBegin i at_ /\ tp = fs_cache s1 /\ inm = conditional tp at_) as [Ho|(-> & -> & Hc)].
      { destruct l as [k now|k r now pkp]; cbn [fstep] in Hs; destruct (fs_calls s1 !! k) as [c|] eqn:Ec; try done.
        - assert (forall retry', fetch_begin cf (fs_cache s1) retry' now = FSent retry tp inm at_ -> now = at_ /\ tp = fs_cache s1 /\ inm = conditional tp at_) as Hb.
          { unfold fetch_begin. intros retry' Hb. destruct (f_url_ok cf); [|by destruct retry']. by injection Hb as _ <- <- <-. }
          destruct c as [[]|kk last|? ? ? ?|? ?|]; try done; [injection Hs as <-; cbn [fs_calls] in Hi; apply list_lookup_insert_Some in Hi as [(-> & Hw & _)|[_ ?]]; [|by left]..|].
          + done.
          + right. destruct (Hb _ Hw) as (-> & ? & ?). done.
          + destruct (kk <? f_attempts cf); injection Hs as <-; cbn [fs_calls] in Hi; apply list_lookup_insert_Some in Hi as [(-> & Hw & _)|[_ ?]]; try (by left).
            right. destruct (Hb _ Hw) as (-> & ? & ?). done.
        - destruct c as [|? ?|retry' tp' inm' at'|? ?|]; try done.
          destruct (fetch_response K cf tp' pkp now r) as [res upd]. injection Hs as <-. cbn [fs_calls] in Hi.
          apply list_lookup_insert_Some in Hi as [(-> & Hw & _)|[_ ?]]; [|by left]. destruct res as [| |]; [done| |done]. by destruct retry'. }
      + destruct (IH _ H Ho) as (ls1 & ls2 & -> & Hx). exists ls1, (ls2 ++ [l]). by rewrite <- app_assoc.
      + exists ls, []. split; [done|]. split; [by apply (fetch_cache _ kinds)|done].
  Qed.

  (** Exact number of requests of a FetchWithRetry call. *)
  Definition spent (c : fcall) (n : Z) : Prop :=
    match c with
    | FIdle b => b = true /\ n = 0
    | FLoop k _ => n = k + 1 /\ (k = -1 \/ k <= f_attempts cf)
    | FSent (Some k) _ _ _ => n = k + 1 /\ k < f_attempts cf /\ -1 <= k
    | FSent None _ _ _ => False
    | FRet _ (Some _) => n = Z.max 0 (f_attempts cf + 1)
    | FRet _ None | FPanic => 1 <= n <= f_attempts cf + 1
    end.
  Lemma requests_app i ls1 ls2 : requests i (ls1 ++ ls2) = (requests i ls1 + requests i ls2)%nat.
  Proof. unfold requests. rewrite List.filter_app, app_length. done. Qed.
  Lemma fstep_spent l s s' i c pre : f_url_ok cf = true -> fstep K cf l s = Some s' -> fs_calls s !! i = Some c ->
    spent c (Z.of_nat (requests i pre)) ->
    exists c', fs_calls s' !! i = Some c' /\ spent c' (Z.of_nat (requests i (pre ++ [l]))).
  Proof.
    intros Hurl Hs Hc Hsp. rewrite requests_app. pose proof (lookup_lt_Some _ _ _ Hc) as Hlt.
    destruct l as [k now|k r now pkp]; cbn [fstep] in Hs.
    - assert (requests i [FBegin k now] = 0%nat) as -> by done. rewrite Nat.add_0_r.
      unfold fetch_begin in Hs. rewrite Hurl in Hs.
      destruct (decide (k = i)) as [->|Hne].
      + rewrite Hc in Hs. destruct c as [[]|kk last|? ? ? ?|? ?|]; try done.
        * injection Hs as <-. cbn [fs_calls]. rewrite list_lookup_insert by done. eexists. split; [done|]. cbn in *. lia.
        * by destruct Hsp.
        * destruct (Z.ltb_spec kk (f_attempts cf)); injection Hs as <-; cbn [fs_calls]; rewrite list_lookup_insert by done;
            eexists; (split; [done|]); cbn in *; lia.
      + destruct (fs_calls s !! k) as [c'|] eqn:Ek; [|done]. exists c. split; [|done].
        destruct c' as [[]|kk last|? ? ? ?|? ?|]; try done.
        * injection Hs as <-. cbn [fs_calls]. by rewrite list_lookup_insert_ne.
        * injection Hs as <-. cbn [fs_calls]. by rewrite list_lookup_insert_ne.
        * destruct (kk <? f_attempts cf); injection Hs as <-; cbn [fs_calls]; by rewrite list_lookup_insert_ne.
    - destruct (fs_calls s !! k) as [c'|] eqn:Ek; [|done].
      destruct c' as [|? ?|retry tp inm at_|? ?|]; try done.
      destruct (fetch_response K cf tp pkp now r) as [res upd]. injection Hs as <-. cbn [fs_calls].
      unfold requests at 2. cbn [List.filter is_resp]. destruct (Nat.eqb_spec k i) as [->|Hne].
      + rewrite Hc in Ek. injection Ek as ->. rewrite list_lookup_insert by done. eexists. split; [done|].
        destruct retry as [kk|]; [|done]. cbn [spent length] in *. destruct res as [sp|e|]; cbn; lia.
      + exists c. rewrite list_lookup_insert_ne by done. split; [done|]. cbn [length]. by rewrite Nat.add_0_r.
  Qed.
  Lemma frun_spent ls s s' i c pre : f_url_ok cf = true -> frun K cf ls s = Some s' -> fs_calls s !! i = Some c ->
    spent c (Z.of_nat (requests i pre)) ->
    exists c', fs_calls s' !! i = Some c' /\ spent c' (Z.of_nat (requests i (pre ++ ls))).
  Proof.
    intros Hurl. revert s c pre. induction ls as [|l ls IH]; intros s c pre H Hc Hsp; cbn [frun] in H.
    - injection H as <-. rewrite app_nil_r. eauto.
    - destruct (fstep K cf l s) as [s1|] eqn:E; [|done].
      destruct (fstep_spent _ _ _ _ _ _ Hurl E Hc Hsp) as (c' & Hc' & Hsp').
      destruct (IH _ _ _ H Hc' Hsp') as (c'' & ? & Hx). rewrite <- app_assoc in Hx. eauto.
  Qed.
End history.
