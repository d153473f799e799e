(** * Property C73: an accepted configuration can be started *)
From Verif Require Import Startup Prop_Config.
From Verif Require Import GoStrings.

(** ** Specification *)
(** A period text, [dflt] if left empty, denotes a positive duration. *)
Definition positive (E : parsers) (t dflt : str) : Prop := exists d, denotes E (or_default t dflt) d /\ 0 < d.
(** The conditions on the parameters under which Start works. *)
Definition startable (E : parsers) (c : authority) : Prop :=
  2 <= a_exp c /\
  (a_no_pubkeyd c = false -> positive E (a_pk_purge c) (B "84h") /\ positive E (a_pk_refresh c) (B "24h")) /\
  (a_no_policyd c = false -> positive E (a_po_refresh c) (B "30m")) /\
  (a_no_jwkd c = false -> positive E (a_jk_refresh c) (B "24h")).
(** ... and a policy update can publish. *)
Definition publishable (E : parsers) (c : authority) : Prop := a_no_policyd c = false -> positive E (a_po_purge c) (B "1h").

Lemma positive_iff E t dflt d : denotes E (or_default t dflt) d -> positive E t dflt <-> 0 < d.
Proof. unfold positive, denotes. intros Hd. split; [intros (d' & Hd' & H); congruence|]. by exists d. Qed.
Lemma tickers_ok l : tickers l = Ok tt <-> Forall (fun d => 0 < d) l.
Proof.
  induction l as [|d l IH]; cbn [tickers]; [split; [constructor|done]|]. unfold new_ticker. rewrite Forall_cons, <- IH. destruct (Z.leb_spec d 0); cbn [obind]; [split; [done|lia]|]. naive_solver.
Qed.
Lemma tickers_total l : tickers l = Ok tt \/ tickers l = Panic.
Proof. induction l as [|d l IH]; cbn [tickers]; [by left|]. unfold new_ticker. destruct (d <=? 0); cbn [obind]; [by right|done]. Qed.
Lemma if_enabled_total {A} (f : A -> outcome unit) x : (forall a, f a = Ok tt \/ f a = Panic) -> if_enabled f x = Ok tt \/ if_enabled f x = Panic.
Proof. intros H. destruct x; [apply H|by left]. Qed.
Lemma start_total a : start_all a = Ok tt \/ start_all a = Panic.
Proof.
  unfold start_all. destruct (tickers_total [Z.quot (a_exp (au_conf a)) 2]) as [-> | ->]; [|by right]. cbn [obind].
  destruct (if_enabled_total pubkey_start (au_pub a) (fun c => tickers_total _)) as [-> | ->]; [|by right]. cbn [obind].
  destruct (if_enabled_total policy_start (au_pol a) (fun c => tickers_total _)) as [-> | ->]; [|by right]. cbn [obind].
  apply if_enabled_total. intros c. apply tickers_total.
Qed.
Lemma bind_unit (x : outcome unit) (y : outcome unit) : (let! _ := x in y) = Ok tt <-> x = Ok tt /\ y = Ok tt.
Proof. destruct x as [[]| |]; cbn [obind]; naive_solver. Qed.
Lemma enabled_ok {A} b (P : A -> Prop) (f : A -> outcome unit) x (Q : Prop) : child (negb b) P x -> (forall a, P a -> f a = Ok tt <-> Q) -> if_enabled f x = Ok tt <-> (b = false -> Q).
Proof. intros Hc Hf. destruct b; cbn [negb child] in Hc; [by subst|]. destruct Hc as (a & -> & Ha). cbn [if_enabled]. rewrite (Hf a Ha). naive_solver. Qed.

Lemma half_pos d : 0 < Z.quot d 2 <-> 2 <= d.
Proof. destruct (Z.le_gt_cases 0 d); [rewrite Z.quot_div_nonneg by lia; split; intros; Z.to_euclidean_division_equations; lia|]. split; intros; Z.to_euclidean_division_equations; lia. Qed.
Lemma pub_ok E c pk : pub_for E c pk -> pubkey_start pk = Ok tt <-> positive E (a_pk_purge c) (B "84h") /\ positive E (a_pk_refresh c) (B "24h").
Proof. intros (_ & _ & _ & Hr & _ & _ & Hp). unfold pubkey_start. rewrite tickers_ok, Forall_cons, Forall_singleton, (positive_iff _ _ _ _ Hr), (positive_iff _ _ _ _ Hp). done. Qed.
Lemma pol_ok E c po : pol_for E c po -> policy_start po = Ok tt <-> positive E (a_po_refresh c) (B "30m").
Proof. intros (_ & _ & _ & _ & _ & _ & Hr & _). unfold policy_start. rewrite tickers_ok, Forall_singleton, (positive_iff _ _ _ _ Hr). done. Qed.
Lemma purge_ok E c po : pol_for E c po -> tickers [po_purge po] = Ok tt <-> positive E (a_po_purge c) (B "1h").
Proof. intros (_ & _ & _ & _ & _ & _ & _ & Hr & _). rewrite tickers_ok, Forall_singleton, (positive_iff _ _ _ _ Hr). done. Qed.
Lemma jwk_ok E c jk : jwk_for E c jk -> jwk_start jk = Ok tt <-> positive E (a_jk_refresh c) (B "24h").
Proof. intros (_ & _ & _ & _ & _ & Hr & _). unfold jwk_start. rewrite tickers_ok, Forall_singleton, (positive_iff _ _ _ _ Hr). done. Qed.

(** ** C73 *)
(** Exactly when an accepted configuration starts; in every other case the process panics. *)
Theorem C73_start_iff E opts a : sane E -> new E opts = Ok a ->
  (start_all a = Ok tt <-> startable E (parameters opts)) /\ (start_all a = Panic <-> ~ startable E (parameters opts)).
Proof.
  intros Hs Hn. apply C69_new_iff in Hn as [_ (Hc & Hpub & Hpol & Hjw & _)]; [|done].
  assert (start_all a = Ok tt <-> startable E (parameters opts)) as H.
  { unfold start_all, startable. rewrite !bind_unit, tickers_ok, Forall_singleton, Hc.
    rewrite (enabled_ok _ _ pubkey_start _ _ Hpub (pub_ok E (parameters opts))), (enabled_ok _ _ policy_start _ _ Hpol (pol_ok E (parameters opts))),
      (enabled_ok _ _ jwk_start _ _ Hjw (jwk_ok E (parameters opts))), half_pos. done. }
  split; [done|]. rewrite <- H. destruct (start_total a) as [-> | ->]; naive_solver.
Qed.
(** Exactly when a policy update can publish its result; otherwise its expiry daemon panics. *)
Theorem C73_publish_iff E opts a : sane E -> new E opts = Ok a ->
  (policy_published a = Ok tt <-> publishable E (parameters opts)) /\ (policy_published a = Panic <-> ~ publishable E (parameters opts)).
Proof.
  intros Hs Hn. apply C69_new_iff in Hn as [_ (Hc & Hpub & Hpol & Hjw & _)]; [|done].
  assert (policy_published a = Ok tt <-> publishable E (parameters opts)) as H by exact (enabled_ok _ _ _ _ _ Hpol (purge_ok E (parameters opts))).
  split; [done|]. rewrite <- H. destruct (if_enabled_total (fun c => tickers [po_purge c]) (au_pol a) (fun c => tickers_total _)) as [Ht|Ht]; unfold policy_published in *; rewrite Ht; naive_solver.
Qed.
(** A time.ParseDuration right about a few texts. *)
Definition minute : duration := 60 * second.
Definition E1 : parsers := Parsers (fun t =>
  if bool_decide (t = B "24h") then Some (1440 * minute) else if bool_decide (t = B "168h") then Some (10080 * minute)
  else if bool_decide (t = B "84h") then Some (5040 * minute) else if bool_decide (t = B "1m") then Some minute
  else if bool_decide (t = B "3h") then Some (180 * minute) else if bool_decide (t = B "30m") then Some (30 * minute)
  else if bool_decide (t = B "1h") then Some (60 * minute) else if bool_decide (t = B "0s") then Some 0
  else if bool_decide (t = B "-5m") then Some (-5 * minute) else None) (fun d => Z.quot d second) (uri_scheme E0).
Lemma sane_E1 : sane E1.
Proof. unfold sane. repeat constructor; vm_compute; by eexists. Qed.
(** Whenever ParseDuration gets the texts of the defaults right, options that leave the periods alone can be started. *)
Definition leaves_periods (c : authority) : Prop :=
  a_pk_purge c = [] /\ a_pk_refresh c = [] /\ a_po_refresh c = [] /\ a_po_purge c = [] /\ a_jk_refresh c = [] /\ 2 <= a_exp c.
Theorem C73_default_periods_start E opts a : sane E -> new E opts = Ok a ->
  denotes E (B "84h") (5040 * minute) -> denotes E (B "24h") (1440 * minute) -> denotes E (B "30m") (30 * minute) -> denotes E (B "1h") (60 * minute) ->
  leaves_periods (parameters opts) -> start_all a = Ok tt /\ policy_published a = Ok tt.
Proof.
  intros Hs Hn H1 H2 H3 H4 (E1 & E2 & E3 & E4 & E5 & E6). split.
  - apply (C73_start_iff E opts a Hs Hn). unfold startable, positive. rewrite E1, E2, E3, E5. change (or_default [] (B "84h")) with (B "84h"). change (or_default [] (B "24h")) with (B "24h").
    change (or_default [] (B "30m")) with (B "30m"). split_and!; [done|intros _; split; by eexists|intros _; by eexists..].
  - apply (C73_publish_iff E opts a Hs Hn). unfold publishable, positive. rewrite E4. intros _. exists (60 * minute). split; [exact H4|done].
Qed.
(** New accepts periods with which the first Start crashes the process, and others with which the
    first completed policy update does. *)
Definition opts_zero : list option_ := [OURL (B "zts.example/v1"); OPkRefresh (B "0s")].
Definition opts_negative : list option_ := [OURL (B "zts.example/v1"); OPoPurge (B "-5m")].
Definition opts_nocache : list option_ := [OURL (B "zts.example/v1"); OCacheExp 0].
Theorem C73_accepted_but_crashes_refuted : exists E opts a, sane E /\ new E opts = Ok a /\ start_all a = Panic.
Proof. exists E1, opts_zero, (made E1 opts_zero). split_and!; [apply sane_E1|apply made_ok; vm_compute; reflexivity|vm_compute; reflexivity]. Qed.
Theorem C73_no_cache_crashes_refuted : exists E opts a, sane E /\ new E opts = Ok a /\ a_exp (au_conf a) = 0 /\ start_all a = Panic.
Proof. exists E1, opts_nocache, (made E1 opts_nocache). split_and!; [apply sane_E1|apply made_ok; vm_compute; reflexivity|vm_compute; reflexivity..]. Qed.
Theorem C73_update_crashes_refuted : exists E opts a, sane E /\ new E opts = Ok a /\ start_all a = Ok tt /\ policy_published a = Panic.
Proof. exists E1, opts_negative, (made E1 opts_negative). split_and!; [apply sane_E1|apply made_ok; vm_compute; reflexivity|vm_compute; reflexivity..]. Qed.
Definition opts_plain : list option_ := [OURL (B "zts.example/v1"); ODomains (Some [B "dom"])].
Example C73_nonvacuous :
  new E1 opts_plain = Ok (made E1 opts_plain) /\ leaves_periods (parameters opts_plain) /\ start_all (made E1 opts_plain) = Ok tt /\
  (is_Some (au_pub (made E1 opts_plain)) /\ is_Some (au_pol (made E1 opts_plain)) /\ is_Some (au_jwk (made E1 opts_plain))).
Proof. split_and!; [apply made_ok; vm_compute; reflexivity|vm_compute; split_and!; (reflexivity || discriminate)|vm_compute; reflexivity|vm_compute; by eexists..]. Qed.

Print Assumptions C73_start_iff.
Print Assumptions C73_publish_iff.
Print Assumptions C73_default_periods_start.
Print Assumptions C73_accepted_but_crashes_refuted.
Print Assumptions C73_no_cache_crashes_refuted.
Print Assumptions C73_update_crashes_refuted.
