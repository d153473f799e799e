(** * Property C72: response bodies are closed *)
From Verif Require Import Body.
From Verif Require Prop_Fetcher Prop_PubKey Prop_Client.
From Verif Require Import Client GoStrings.

(** ** Specification *)
(** Closed, once, as the last thing done with it. *)
Definition closed (ev : list bev) : Prop := exists l, ev = l ++ [BClose] /\ BClose ∉ l.
Definition closedb (ev : list bev) : bool := match rev ev with BClose :: l => negb (existsb (fun e => match e with BClose => true | _ => false end) l) | _ => false end.
(** The responses with a body in a history, in order. *)
Definition key_responses (ls : list plabel) : list (response key_list) :=
  omap (fun l => match l with PResp _ (Response st et b) _ => Some (Response st et b) | _ => None end) ls.
Definition policy_responses {K} (ls : list (flabel K)) : list (response signed_policy) :=
  omap (fun l => match l with FResp _ (Response st et b) _ _ => Some (Response st et b) | _ => None end) ls.

Lemma closedb_spec ev : closedb ev = true <-> closed ev.
Proof.
  unfold closedb, closed. split.
  - destruct (rev ev) as [|[] l] eqn:E; try done. intros H. exists (rev l). rewrite <- (rev_involutive ev), E. split; [done|].
    intros Hin. apply elem_of_list_In, in_rev in Hin. apply negb_true_iff in H. assert (existsb (fun e => match e with BClose => true | _ => false end) l = true) as Hx; [|congruence].
    apply existsb_exists. by exists BClose.
  - intros (l & -> & Hn). rewrite rev_unit. apply negb_true_iff. destruct (existsb _ (rev l)) eqn:E; [|done].
    apply existsb_exists in E as (x & Hx & Hb). destruct x; try done. apply in_rev, elem_of_list_In in Hx. done.
Qed.

(** ** The traces belong to the functions of the model *)
Lemma pk_traced_erases {V} (parse : str -> option V) drains t r : snd (respond_traced parse drains t r) = respond parse t r.
Proof. unfold respond_traced, respond. destruct r as [|st et b]; [done|]. destruct (st =? 304); [done|]. destruct (negb (st =? 200)); [done|]. by destruct b. Qed.
Lemma pol_traced_erases K drains cf tp pkp now r : snd (fetch_traced K drains cf tp pkp now r) = fetch_response K cf tp pkp now r.
Proof.
  unfold fetch_traced, fetch_response. destruct r as [|st et b]; [done|]. destruct (st =? 304); [by destruct tp|]. destruct (negb (st =? 200)); [done|].
  destruct b as [| |sp]; try done. destruct (sp_verify K pkp now (Some sp)) as [[]| |]; try done. destruct (sp_data sp); [|done]. by destruct (sd_expires _).
Qed.
Lemma prun_traced_erases {V} (parse : str -> option V) cf drains ls s log : option_map fst (prun_traced parse cf drains ls s log) = prun parse cf ls s.
Proof. revert s log. induction ls as [|l ls IH]; intros s log; cbn [prun_traced prun]; [done|]. destruct (pstep parse cf l s); [apply IH|done]. Qed.
Lemma frun_traced_erases K cf drains ls s log : option_map fst (frun_traced K cf drains ls s log) = frun K cf ls s.
Proof. revert s log. induction ls as [|l ls IH]; intros s log; cbn [frun_traced frun]; [done|]. destruct (fstep K cf l s); [apply IH|done]. Qed.

(** ** The policy fetchers *)
(** Every response body is closed whose end can be reached; one that fails on the way is not. *)
Theorem C72_policy_body_closed_iff K cf drains kinds ls s log : frun_traced K cf drains ls (finit kinds) [] = Some (s, log) ->
  length log = length (policy_responses ls) /\ forall n ev, log !! n = Some ev -> closed ev <-> drains n = true.
Proof.
  assert (forall ls s0 log0 s log, frun_traced K cf drains ls s0 log0 = Some (s, log) -> (forall n ev, log0 !! n = Some ev -> closed ev <-> drains n = true) ->
    length log = (length log0 + length (policy_responses ls))%nat /\ forall n ev, log !! n = Some ev -> closed ev <-> drains n = true) as Hx.
  { clear. intros ls. induction ls as [|l ls IH]; intros s0 log0 s log H H0; cbn [frun_traced] in H.
    { injection H as <- <-. split; [cbn; lia|done]. }
    destruct (fstep K cf l s0) as [s1|] eqn:E; [|done]. apply IH in H as [H1 H2].
    - split; [|done]. rewrite H1. clear - E. destruct l as [i now|i r now pkp]; [done|]. cbn [fstep] in E. destruct (fs_calls s0 !! i) as [[]|]; try done.
      destruct r; cbn [has_body]; [done|]. rewrite app_length. change (policy_responses (FResp i (Response status etag b) now pkp :: ls)) with (Response status etag b :: policy_responses ls). cbn [length]. lia.
    - intros n ev. destruct l as [i now|i r now pkp]; [by apply H0|]. destruct (fs_calls s0 !! i) as [[]|]; try by apply H0.
      destruct r as [|st et b]; cbn [has_body]; [by apply H0|]. intros [Hl|[Hn Hl]]%lookup_app_Some; [by apply H0|].
      apply list_lookup_singleton_Some in Hl as [Hn' <-]. assert (n = length log0) as -> by lia. rewrite <- closedb_spec. cbn [fetch_traced].
      unfold flush_and_close. destruct (drains (length log0)), (st =? 304), (negb (st =? 200)), tp, b as [| |sp]; try done;
        (destruct (sp_verify K pkp now (Some sp)) as [[]| |]; try done; destruct (sp_data sp) as [d|]; [|done]; by destruct (sd_expires d)). }
  intros H. apply Hx in H; [done|]. intros n ev. by rewrite lookup_nil.
Qed.
(** ** The public key daemon *)
Lemma key_trace {V} (parse : str -> option V) d t st et b :
  closed (fst (respond_traced parse d t (Response st et b))) <-> st = 200 /\ b <> BadBody.
Proof.
  rewrite <- closedb_spec. cbn [respond_traced]. destruct (Z.eqb_spec st 304) as [-> |H3]; [split; [done|by intros [? _]]|].
  destruct (Z.eqb_spec st 200) as [-> |H2]; cbn [negb]; [|split; [done|by intros [? _]]]. destruct b as [| |l]; [split; [done|by intros [_ []]]| |]; by split.
Qed.
(** A body is closed exactly if the status was 200 and the body was well-formed JSON. *)
Theorem C72_key_body_closed_iff {V} (parse : str -> option V) cf drains m ls s log : prun_traced parse cf drains ls (pinit m) [] = Some (s, log) ->
  Forall2 (fun r ev => closed ev <-> exists et b, r = Response 200 et b /\ b <> BadBody) (key_responses ls) log.
Proof.
  assert (forall ls s0 log0 s log, prun_traced parse cf drains ls s0 log0 = Some (s, log) ->
    exists tl, log = log0 ++ tl /\ Forall2 (fun r ev => closed ev <-> exists et b, r = Response 200 et b /\ b <> BadBody) (key_responses ls) tl) as Hx.
  { clear. intros ls. induction ls as [|l ls IH]; intros s0 log0 s log H; cbn [prun_traced] in H.
    { injection H as <- <-. exists []. split; [by rewrite app_nil_r|constructor]. }
    destruct (pstep parse cf l s0) as [s1|] eqn:E; [|done]. apply IH in H as (tl & -> & H).
    destruct l as [|i r now| | |]; try (exists tl; split; [reflexivity|exact H]). cbn [pstep] in E. destruct (p_tasks s0 !! i) as [[]|]; try done.
    destruct r as [|st et b]; cbn [has_body key_responses omap list_omap]; [by exists tl|]. eexists. rewrite <- app_assoc. split; [reflexivity|]. cbn [app].
    constructor; [|done]. rewrite key_trace. split; [intros [-> Hb]; eauto|]. by intros (? & ? & [= -> -> ->] & ?). }
  intros H. apply Hx in H as (tl & -> & H). done.
Qed.

(** *** Successful updates leave bodies open *)
Definition lone : key_list := [Some (B "1", B "k1")].
Definition cf0 : pconf := PConf 0 true.
Definition first_update : list plabel :=
  [PBegin 0 1; PResp 0 (Response 200 (B "a") (Doc lone)) 1; PPut 0 (B "1"); PNext 0; PVisit 0 (B "1"); PNext 0;
   PBegin 1 1; PResp 1 (Response 200 (B "b") (Doc lone)) 1; PPut 1 (B "1"); PNext 1; PVisit 1 (B "1"); PNext 1].
Definition unchanged (i : nat) : list plabel := [PBegin i 1; PResp i (Response 304 [] NullBody) 1].
Definition refreshes (k n : nat) : list plabel := seq k n ≫= unchanged.
Definition tagged_state (s : @pst str) : Prop :=
  g_get 1 (B "zts") (p_etags s) = Some (B "a", Some lone) /\ g_get 1 (B "zms") (p_etags s) = Some (B "b", Some lone).
Lemma unchanged_run drains s log dn rest : tagged_state s -> p_tasks s = dn ++ PIdle :: rest ->
  exists s', prun_traced Some cf0 drains (unchanged (length dn)) s log = Some (s', log ++ [[]]) /\ tagged_state s' /\ p_tasks s' = (dn ++ [PDone None]) ++ rest.
Proof.
  intros [H1 H2] Ht. unfold unchanged. cbn [prun_traced pstep pc_url_ok cf0]. rewrite Ht, list_lookup_middle by done.
  assert (g_get 1 (env_name (is_zts (length dn))) (p_etags s) = Some (if is_zts (length dn) then B "a" else B "b", Some lone)) as ->.
  { unfold env_name, zts_name, zms_name. by destruct (is_zts (length dn)). }
  cbn [with_task p_tasks p_etags]. rewrite Ht. assert ((<[length dn := PSent (Some (if is_zts (length dn) then B "a" else B "b", Some lone))]> (dn ++ PIdle :: rest)) !! length dn = Some (PSent (V := str) (Some (if is_zts (length dn) then B "a" else B "b", Some lone)))) as ->.
  { apply list_lookup_insert. rewrite app_length. cbn. lia. }
  cbn [has_body respond respond_traced Z.eqb Pos.eqb fst with_etags with_task p_tasks p_etags]. eexists. split; [done|]. split; [done|]. cbn [p_tasks with_task].
  unfold with_etags, with_task. cbn [p_tasks]. rewrite Ht, list_insert_insert, insert_app_r_alt by lia. rewrite Nat.sub_diag. cbn. by rewrite <- app_assoc.
Qed.
Lemma refreshes_run drains n : forall s log dn rest, tagged_state s -> p_tasks s = dn ++ replicate n PIdle ++ rest ->
  exists s', prun_traced Some cf0 drains (refreshes (length dn) n) s log = Some (s', log ++ replicate n []) /\ p_tasks s' = dn ++ replicate n (PDone None) ++ rest.
Proof.
  assert (forall ls1 ls2 s log s1 log1, prun_traced Some cf0 drains ls1 s log = Some (s1, log1) -> prun_traced Some cf0 drains (ls1 ++ ls2) s log = prun_traced Some cf0 drains ls2 s1 log1) as Happ.
  { intros ls1. induction ls1 as [|l ls1 IH]; intros ls2 s log s1 log1 H; cbn [app prun_traced] in *; [by injection H as <- <-|]. destruct (pstep Some cf0 l s); [|done]. by apply IH. }
  induction n as [|n IH]; intros s log dn rest Hs Ht; [exists s; by rewrite app_nil_r|]. cbn [replicate app] in Ht.
  destruct (unchanged_run drains s log dn _ Hs Ht) as (s1 & H1 & Hs1 & Ht1). destruct (IH s1 (log ++ [[]]) (dn ++ [PDone None]) rest Hs1 Ht1) as (s2 & H2 & Ht2).
  exists s2. split; [|by rewrite Ht2, <- app_assoc]. unfold refreshes. cbn [seq mbind list_bind]. rewrite (Happ _ _ _ _ _ _ H1).
  rewrite app_length, Nat.add_1_r in H2. rewrite <- app_assoc in H2. exact H2.
Qed.
(** The claim for keys is false without bound: after [n + 1] updates, all successful, the last [n] of
    them answered "not modified", [2 n] bodies are open. *)
Theorem C72_unchanged_keys_leak_refuted n : exists ls s log,
  prun_traced Some cf0 (fun _ => true) ls (pinit (S n)) [] = Some (s, log) /\
  (forall m, (m <= n)%nat -> update_result s m = Some (Ok tt)) /\
  length (List.filter (fun ev => negb (closedb ev)) log) = (2 * n)%nat.
Proof.
  assert (exists s, prun_traced Some cf0 (fun _ => true) first_update (pinit (S n)) [] = Some (s, replicate 2 [BDecode; BDrain true; BClose]) /\ tagged_state s /\
    p_tasks s = [PDone None; PDone None] ++ replicate (2 * n) PIdle ++ []) as (s1 & H1 & Hs1 & Ht1).
  { unfold pinit. replace (2 * S n)%nat with (2 + 2 * n)%nat by lia. rewrite replicate_add, app_nil_r. generalize (replicate (2 * n) (PIdle (V := str))) as rest. intros rest. eexists. split; [vm_compute; reflexivity|]. by split. }
  destruct (refreshes_run (fun _ => true) (2 * n) s1 (replicate 2 [BDecode; BDrain true; BClose]) [PDone None; PDone None] [] Hs1 Ht1) as (s2 & H2 & Ht2).
  exists (first_update ++ refreshes 2 (2 * n)), s2, (replicate 2 [BDecode; BDrain true; BClose] ++ replicate (2 * n) []). split_and!.
  - revert H1 H2. cbn [length]. generalize first_update, (pinit (V := str) (S n)), (refreshes 2 (2 * n)), (@nil (list bev)) at 1 2. generalize (replicate 2 [BDecode; BDrain true; BClose]). clear.
    intros l1 ls1 s ls2 log. revert s log. induction ls1 as [|l ls1 IH]; intros s log H1 H2; cbn [app prun_traced] in *; [by injection H1 as -> ->|].
    destruct (pstep Some cf0 l s); [|done]. by apply IH.
  - intros m Hm. unfold update_result. rewrite Ht2, app_nil_r. change [PDone None; PDone None] with (replicate 2 (PDone (V := str) None)). rewrite <- replicate_add.
    rewrite !lookup_replicate_2 by lia. done.
  - assert (forall k, length (List.filter (fun ev => negb (closedb ev)) (replicate k [])) = k) as Hk by (intros k; induction k; cbn; congruence).
    cbn [replicate app List.filter closedb rev negb existsb]. cbn. exact (Hk _).
Qed.

Example C72_nonvacuous : exists s log,
  frun_traced Prop_Fetcher.K1 (FConf 0 1 true) (fun n => negb (n =? 1)%nat)
    [FBegin 0 1; FBegin 0 1; FResp 0 (Response 500 [] NullBody) 1 Prop_Fetcher.keys1; FBegin 0 1; FResp 0 (Response 200 [] BadBody) 1 Prop_Fetcher.keys1] (finit [true]) [] = Some (s, log) /\
  log = [[BDrain true; BClose]; [BDecode; BDrain false]] /\ policy_responses
    [FBegin 0 1; FBegin 0 1; FResp 0 (Response 500 [] NullBody) 1 Prop_Fetcher.keys1; FBegin 0 1; FResp 0 (Response 200 [] BadBody) 1 Prop_Fetcher.keys1] = [Response 500 [] NullBody; Response 200 [] BadBody].
Proof. eexists _, _. split; [vm_compute; reflexivity|]. by split. Qed.

Print Assumptions C72_policy_body_closed_iff.
Print Assumptions C72_key_body_closed_iff.
Print Assumptions C72_unchanged_keys_leak_refuted.
