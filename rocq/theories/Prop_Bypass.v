(** * Property C106: what the query of a request can do *)
From Verif Require Import TranslatorProofs Prop_Translator Prop_Query SystemFacts SystemExec PolicyCheckers Prop_System Prop_Window GoStringsFacts.
From Verif Require Prop_PubKey Prop_Fetcher Prop_Role Prop_Access Prop_Authorizer PubKeyFacts.
From Verif Require Import GoStrings.

(** ** With mapping rules *)
(** No rule of the list has a parameter [k] in its query. *)
Definition unnamed (k : str) (l : list rule) : Prop := forall r, r ∈ l -> r_query r !! k = None.

(** A request whose query has a parameter that no rule of the domain names goes to the policy check as
    it is, whatever its method and path. *)
Theorem C106_unnamed_parameter_untranslated U m o d l meth path query kvs k v :
  m !! d = Some (Some l) -> says query kvs -> (k, v) ∈ kvs -> unnamed k l ->
  translate U (Some m) o d meth path query = Ok (meth, path).
Proof.
  intros Hm Hq Hk Hu.
  assert (exists rq, parse_query query = Some rq /\ is_Some (rq !! k)) as (rq & Hrq & Hs).
  { assert (exists mq, holds mq kvs) as [mq Hmq].
    { clear. induction kvs as [|[k v] kvs IH] using rev_ind; [by exists ∅; intros k; rewrite lookup_empty|].
      destruct IH as [mq Hmq]. eexists. by apply holds_add. }
    exists mq. split; [apply C80_query_is_decoded_exactly; by exists kvs|]. rewrite (Hmq k).
    destruct (values_of k kvs) as [|x xs] eqn:E; [|by eexists].
    apply values_nil in E. rewrite Forall_forall in E. by destruct (E _ Hk). }
  apply (C56_no_match_unchanged U m o d l); [exact Hm| |].
  - apply Forall_forall. intros r Hr (_ & _ & rq' & Hp & Hiff & _). rewrite Hrq in Hp. injection Hp as <-.
    apply Hiff in Hs. rewrite (Hu _ Hr) in Hs. by destruct Hs.
  - intros Hn. rewrite Hrq in Hn. discriminate Hn.
Qed.

Lemma says_snoc q l s l' : says q l -> "&"%char ∉ s -> ";"%char ∉ s -> setting s l' -> says (q ++ "&"%char :: s) (l ++ l').
Proof.
  intros H Ha Hs Hl. induction H as [s1 l1 H1 H2 H3|s1 q1 l1 l2 H1 H2 H3 H4 IH].
  - apply says_more; [done..|]. by apply says_one.
  - rewrite <- (app_assoc s1), <- (app_assoc l1). cbn [app]. by apply says_more.
Qed.
Lemma xs_spells n : spells (replicate n "x"%char) (replicate n "x"%char).
Proof. induction n as [|n IH]; cbn; [constructor|]. by apply sp_plain. Qed.
Lemma xs_no c n : c <> "x"%char -> c ∉ replicate n "x"%char.
Proof. intros Hc Hin. apply elem_of_replicate in Hin as [Hin _]. done. Qed.
(** A name longer than any in the rules. *)
Definition name_bound (l : list rule) : nat := foldr (fun r n => foldr (fun kv n => length (fst kv) + n)%nat n (map_to_list (r_query r))) 0%nat l.
Lemma fold_len (kvs : list (str * param)) n k p : (k, p) ∈ kvs -> (length k <= foldr (fun kv n => length (fst kv) + n)%nat n kvs)%nat.
Proof. induction kvs as [|kv kvs IH]; cbn; [by intros ?%elem_of_nil|]. intros [<-|H]%elem_of_cons; cbn; [lia|]. specialize (IH H). lia. Qed.
Lemma fold_ge (kvs : list (str * param)) n : (n <= foldr (fun kv n => length (fst kv) + n)%nat n kvs)%nat.
Proof. induction kvs as [|kv kvs IH]; cbn; lia. Qed.
Lemma name_bound_ok l : unnamed (replicate (S (name_bound l)) "x"%char) l.
Proof.
  intros r Hr. destruct (r_query r !! _) as [p|] eqn:E; [exfalso|done].
  assert (forall k p', r_query r !! k = Some p' -> (length k <= name_bound l)%nat) as H.
  { clear E. intros k p' Hk. apply elem_of_map_to_list in Hk. induction Hr as [r l|r r1 l Hr IH]; cbn [name_bound foldr].
    - by eapply fold_len.
    - etransitivity; [by apply IH|]. apply fold_ge. }
  apply H in E. rewrite replicate_length in E. lia.
Qed.
(** So the sender of a request always has a way round the rules: whatever they are, a parameter can be
    added to any well formed query so that method and path are checked as they are. *)
Theorem C106_rules_can_be_passed_by U m d meth path query kvs : says query kvs ->
  exists k, says (query ++ "&"%char :: k) (kvs ++ [(k, [])]) /\
    forall o, translate U (Some m) o d meth path (query ++ "&"%char :: k) = Ok (meth, path).
Proof.
  intros Hq. set (l := default [] (default None (m !! d))). set (k := replicate (S (name_bound l)) "x"%char). exists k.
  assert (says (query ++ "&"%char :: k) (kvs ++ [(k, [])])) as Hs.
  { apply says_snoc; [done|by apply xs_no..|]. apply set_key; [done|by apply xs_no|]. apply xs_spells. }
  split; [done|]. intros o. destruct (m !! d) as [[l'|]|] eqn:E.
  - eapply C106_unnamed_parameter_untranslated; [exact E|exact Hs| |exact (name_bound_ok l')]. apply elem_of_app. right. by apply elem_of_list_singleton.
  - apply C56_unknown_domain_unchanged. by rewrite E.
  - apply C56_unknown_domain_unchanged. by rewrite E.
Qed.
(** What authorize hands to the policy check then. *)
Theorem C106_checked_as_it_is {O} U m (f : O -> orders) (cf : @zconf O) p q kvs :
  z_trans cf = Some (fun o => translate U (Some m) (f o)) -> says (q_query q) kvs ->
  exists query, forall o, target cf o p (Req (q_mode q) (q_tok q) (q_act q) (q_res q) query (q_cert q)) = Ok (q_act q, z_prefix cf ++ q_res q).
Proof.
  intros Ht Hs. destruct (C106_rules_can_be_passed_by U m (pr_domain p) (q_act q) (q_res q) _ _ Hs) as (k & _ & H). eexists. intros o.
  unfold target. rewrite Ht. cbn [q_act q_res q_query]. by rewrite H.
Qed.

(** ** Without mapping rules *)
Definition with_query (query : str) (q : request) : request := Req (q_mode q) (q_tok q) (q_act q) (q_res q) query (q_cert q).
(** Without a translator the query has no influence: any call comes to the same with any query, and
    leaves the same in the cache. *)
Theorem C106_query_ignored_without_rules K X {O} (cf : @zconf O) e q query c : z_trans cf = None ->
  authorize K X cf e (with_query query q) c = authorize K X cf e q c.
Proof. intros Ht. unfold authorize, cache_key, target, empty_params, process. rewrite Ht. reflexivity. Qed.

(** ** In the whole system *)
Section exs.
  Import Prop_PubKey Prop_Fetcher Prop_Authorizer Prop_Access.
  (** The rules turn GET /open into a get of /secret, which the policy denies role r1; it allows role r1
      all the rest. *)
  Definition open_rules : rules := {[ B "dom" := Some [Rule (B "GET") (B "/open") (B "get") (B "/secret") [] ∅] ]}.
  Definition open_read : rules := match new_mapping_rules [] (fun _ _ => []) (Some open_rules) with Ok m => m | _ => ∅ end.
  Definition open_trans : unit -> str -> str -> str -> str -> outcome (str * str) :=
    fun _ => translate U0 (Some open_read) (Orders (fun _ => []) []).
  Definition ocf : @sconf unit := SConf (ZConf true (Some open_trans) (B "/p") (60 * second) true true (AConf false 0 0 false ∅)) pcf1 (JConf (B "https://zts/keys") []) [cf1].
  Definition oinit : sys K1 := yinit K1 ocf t0 2 2 0 1 (fun _ => [false; false]).
  Definition ocmds : list (@cmd unit) :=
    keys_cmds 0 (B "ZTSKEY") ++ keys_cmds 1 (B "ZMSKEY") ++
    [DSend 0 0; DReply 0 0 (Response 200 (B "a") (Doc (pol1 (B "dom") wdoc (60 * second)))); DSpawn 0; DTake 0 0 0] ++
    replicate 5 (DWork 0 0) ++ [DFinish 0] ++
    wcall 0 6 3 2 (rq (B "/open") []) ++ wcall 1 8 3 3 (rq (B "/open") (B "x")) ++ [DStore 1].
  Definition verdict_at (i : nat) (s : sys K1) : option (request * option error) :=
    match z_tasks (y_auth K1 s) !! i with Some (CDone q (Ok _)) => Some (q, None) | Some (CDone q (Err e)) => Some (q, Some e) | _ => None end.
  Lemma verdict_ok i s q : verdict_at i s = Some (q, None) -> exists p, z_tasks (y_auth K1 s) !! i = Some (CDone q (Ok p)).
  Proof.
    unfold verdict_at. destruct (z_tasks (y_auth K1 s) !! i) as [[| | | | | |q' [p'| |]]|]; try discriminate. intros [= ->]. by exists p'.
  Qed.
  Lemma verdict_err i s q e : verdict_at i s = Some (q, Some e) -> z_tasks (y_auth K1 s) !! i = Some (CDone q (Err e)).
  Proof.
    unfold verdict_at. destruct (z_tasks (y_auth K1 s) !! i) as [[| | | | | |q' [p'| |]]|]; try discriminate. by intros [= -> ->].
  Qed.
  (** The request is denied, and granted with a parameter added that no rule names: same token, action
      and path, same policies, rules that NewMappingRules accepts. *)
  Theorem C106_denied_with_any_query_refuted : exists ls s q query p,
    System.yrun K1 X0 U0 parse1 ocf oinit ls s /\ new_mapping_rules [] (fun _ _ => []) (Some open_rules) = Ok open_read /\
    z_tasks (y_auth K1 s) !! 0%nat = Some (CDone q (Err ErrDenyByPolicy)) /\
    z_tasks (y_auth K1 s) !! 1%nat = Some (CDone (with_query query q) (Ok p)).
  Proof.
    assert (match drive K1 X0 U0 parse1 ocf ocmds [] oinit with Some (_, s) => Some (verdict_at 0 s, verdict_at 1 s) | None => None end
      = Some (Some (rq (B "/open") [], Some ErrDenyByPolicy), Some (rq (B "/open") (B "x"), None))) as H by (vm_compute; reflexivity).
    destruct (drive K1 X0 U0 parse1 ocf ocmds [] oinit) as [[tr s]|] eqn:Ed; [|discriminate H].
    destruct (drive_run K1 X0 U0 parse1 ocf oinit _ _ _ Ed) as [Hr _]. clear Ed.
    assert (verdict_at 0 s = Some (rq (B "/open") [], Some ErrDenyByPolicy) /\ verdict_at 1 s = Some (rq (B "/open") (B "x"), None)) as [H0 H1].
    { revert H. generalize (verdict_at 0 s) (verdict_at 1 s). intros a b H. split; congruence. }
    apply verdict_err in H0. apply verdict_ok in H1 as [p H1].
    exists (rev tr.*1), s, (rq (B "/open") []), (B "x"), p. split; [exact Hr|]. split; [|split; [exact H0|exact H1]].
    unfold open_read. assert (is_ok (new_mapping_rules [] (fun _ _ => []) (Some open_rules)) = true) as Hok by (vm_compute; reflexivity).
    destruct (new_mapping_rules _ _ _); [reflexivity|discriminate Hok..].
  Qed.
  Example C106_nonvacuous :
    says (B "fixed=v&key=a") [(B "fixed", B "v"); (B "key", B "a")] /\
    is_ok (translate U0 (Some read_rules) first_a (B "dom") (B "GET") (B "/path/p") (B "fixed=v&key=a")) = true /\
    translate U0 (Some read_rules) first_a (B "dom") (B "GET") (B "/path/p") (B "fixed=v&key=a") = Ok (B "act", B "res.p.a.{other}") /\
    translate U0 (Some read_rules) first_a (B "dom") (B "GET") (B "/path/p") (B "fixed=v&key=a&xxxxxxxxx") = Ok (B "GET", B "/path/p") /\
    replicate (S (name_bound [read_q; read_ab])) "x"%char = B "xxxxxxxxx".
  Proof.
    split_and!; [|vm_compute; reflexivity..].
    apply says_split. exists [[(B "fixed", B "v")]; [(B "key", B "a")]]. split; [|done].
    assert (split "&"%char (B "fixed=v&key=a") = [B "fixed=v"; B "key=a"]) as -> by (vm_compute; reflexivity).
    repeat (apply Forall2_cons; split); try apply Forall2_nil_2; apply parse_setting_spec; eexists; (split; [vm_compute; reflexivity|reflexivity]).
  Qed.
End exs.

Print Assumptions C106_unnamed_parameter_untranslated.
Print Assumptions C106_rules_can_be_passed_by.
Print Assumptions C106_checked_as_it_is.
Print Assumptions C106_query_ignored_without_rules.
Print Assumptions C106_denied_with_any_query_refuted.
Print Assumptions C106_nonvacuous.
