(** * Property C101: what can crash the process *)
From Verif Require Import Hooked SystemFacts SystemExec PolicyCheckers Prop_System Prop_Window Prop_Expiry GoStringsFacts.
From Verif Require Prop_PubKey Prop_Fetcher Prop_Role Prop_Access Prop_Authorizer PubKeyFacts.
From Verif Require Import GoStrings.

Section claims.
  Context (K : crypto) (X : jwt_ext) {O : Type} (U : unicode) (parse : str -> option (verifier K)).
  Context (cf : @sconf O) (doms : list str) (t0 : time) (n nk nj nu : nat) (calls : nat -> list bool).
  Notation s0 := (yinit K cf t0 n nk nj nu calls).
  Notation hrun := (hrun K X U parse cf doms (hinit K s0)).
  Notation hstep := (hstep K X U parse cf doms).
  Notation yrun := (yrun K X U parse cf s0).
  Notation ystep := (ystep K X U parse cf).
  Notation downloaded := (downloaded K X U parse cf s0).
  Notation happened := (happened K X U parse cf s0).
  Notation hlabel := (@hlabel K O).
  Notation ylabel := (@ylabel K O).
  Notation hsys := (hsys K).
  Notation now := (now K).
  Notation expired_entry := (expired_entry K X U parse cf doms t0 n nk nj nu calls).
  Notation role_of_policy := (role_of_policy K X U parse cf t0 n nk nj nu calls).

  (** ** Specification *)
  (** Some goroutine has panicked: a call of the API, a fetch, the use of what a fetch returned, a run of the key
      daemon, a policy check, or a hook. *)
  Definition sys_panicked (s : sys K) : Prop :=
    (exists i q, z_tasks (y_auth K s) !! i = Some (CDone q Panic)) \/
    (exists d f c, y_fetch K s !! d = Some f /\ fs_calls f !! c = Some FPanic) \/
    (exists d f c sp e, y_fetch K s !! d = Some f /\ fs_calls f !! c = Some (FRet sp e) /\ fetched_policy sp e = Panic) \/
    (exists i, p_tasks (y_keys K s) !! i = Some PPanic) \/
    (exists i k, y_chk K s !! i = Some (Some k) /\ s_panic (k_st k) = true).
  Definition crashed (h : hst K) : Prop := sys_panicked (h_sys K h) \/ h_down K h = true.
  (** The kind of token the request has is switched off. *)
  Definition disabled (q : request) : Prop :=
    match q_mode q with MRole => z_role (s_z cf) = false | MAccess => z_access (s_z cf) = false end.

  (** A document was downloaded whose signatures are good by the keys held at that moment, and which has not expired. *)
  Definition accepted (ls : list ylabel) (d : nat) (sp : signed_policy) : Prop :=
    exists i etag l1 s1, happened ls (YReply K d i (Response 200 etag (Doc sp))) l1 s1 /\ valid_policy K (get_pub_key (y_keys K s1)) (now s1) sp.

  (** What Athenz may do to bring it about: 304 to a request for a policy by a fetcher that has none, JSON null in the
      place of a policy document, of the policies, a policy or an assertion of a signed document, of a key list or of a key, 304 to a request for
      keys that named no ETag. *)
  Inductive server_fault (ls : list ylabel) : Prop :=
  | F_policy_304 d i etag b l1 s1 f retry inm t : happened ls (YReply K d i (Response 304 etag b)) l1 s1 ->
      y_fetch K s1 !! d = Some f -> fs_calls f !! i = Some (FSent retry None inm t) -> server_fault ls
  | F_policy_null d i etag : YReply K d i (Response 200 etag NullBody) ∈ ls -> server_fault ls
  | F_policies_null d sp sd : accepted ls d sp -> sp_data sp = Some sd -> Prop_Fetcher.has_null sd -> server_fault ls
  | F_keys_304 i etag b t l1 s1 : happened ls (YKey K (PResp i (Response 304 etag b) t)) l1 s1 ->
      p_tasks (y_keys K s1) !! i = Some (PSent None) -> server_fault ls
  | F_keys_null i etag t : YKey K (PResp i (Response 200 etag NullBody) t) ∈ ls -> server_fault ls
  | F_key_null i etag kl t : YKey K (PResp i (Response 200 etag (Doc kl)) t) ∈ ls ->
      (exists k1 k2, kl = k1 ++ None :: k2 /\ forall id key, Some (id, key) ∈ k1 -> is_Some (parse key)) -> server_fault ls.
  (** What the program using the library may do: a token of a kind that is switched off, a translator that panics. *)
  Inductive user_fault (ls : list ylabel) : Prop :=
  | F_kind i ks l1 s1 q : happened ls (YAuth K (ZParse K i ks)) l1 s1 -> z_tasks (y_auth K s1) !! i = Some (CParse q) ->
      disabled q -> user_fault ls
  | F_trans i o l1 s1 q p tr : happened ls (YAuth K (ZTrans K i o)) l1 s1 -> z_tasks (y_auth K s1) !! i = Some (CTrans q p) ->
      z_trans (s_z cf) = Some tr -> tr o (pr_domain p) (q_act q) (q_res q) (q_query q) = Panic -> user_fault ls.
  (** A policy names a role of a domain that is not configured, its entry expired, and the hook ran for it. *)
  Definition hook_fault (ls : list hlabel) : Prop :=
    exists o k dom, HCrash K k ∈ ls /\ expired_entry ls o k /\ role_of_policy (hsys ls) k /\ begins_with k dom /\ dom ∉ doms.

  (** ** Facts *)
  Lemma accepted_mono ls l d sp : accepted ls d sp -> accepted (ls ++ l) d sp.
  Proof. intros (i & etag & l1 & s1 & H & Hv). exists i, etag, l1, s1. split; [by apply happened_mono|done]. Qed.
  Lemma server_fault_mono ls l : server_fault ls -> server_fault (ls ++ l).
  Proof.
    intros [? ? ? ? ? ? ? ? ? ? H|? ? ? H|? ? ? H|? ? ? ? ? ? H|? ? ? H|? ? ? ? H];
      [eapply F_policy_304; [by apply happened_mono|done..]|eapply F_policy_null; apply elem_of_app; by left|eapply F_policies_null; [by apply accepted_mono|done..]|
       eapply F_keys_304; [by apply happened_mono|done..]|eapply F_keys_null; apply elem_of_app; by left|eapply F_key_null; [apply elem_of_app; by left|done..]].
  Qed.
  Lemma user_fault_mono ls l : user_fault ls -> user_fault (ls ++ l).
  Proof. intros [? ? ? ? ? H|? ? ? ? ? ? ? H]; [eapply F_kind; [by apply happened_mono|done..]|eapply F_trans; [by apply happened_mono|done..]]. Qed.
  Lemma decode_keys_null l acc : decode_keys parse l acc = Panic <->
    exists k1 k2, l = k1 ++ None :: k2 /\ forall id key, Some (id, key) ∈ k1 -> is_Some (parse key).
  Proof.
    revert acc. induction l as [|[[id key]|] l IH]; intros acc; cbn [decode_keys].
    - split; [done|]. intros (k1 & k2 & H & _). by destruct k1.
    - destruct (parse key) as [v|] eqn:E.
      + rewrite IH. split.
        * intros (k1 & k2 & -> & H). exists (Some (id, key) :: k1), k2. split; [done|]. intros id' key' Hin. apply elem_of_cons in Hin as [Hin|Hin]; [injection Hin as -> ->; by eexists|by eapply H].
        * intros (k1 & k2 & Hl & H). destruct k1 as [|x k1]; [done|]. injection Hl as <- ->. exists k1, k2. split; [done|]. intros id' key' Hin. eapply H. by right.
      + split; [done|]. intros (k1 & k2 & Hl & H). destruct k1 as [|x k1]; [done|]. injection Hl as <- ->. destruct (H id key) as [v Hv]; [left|]. congruence.
    - split; [|done]. intros _. exists [], l. split; [done|]. intros id key Hin. by apply elem_of_nil in Hin.
  Qed.
  Lemma panics_stay_fetch fc l f f' c : fstep K fc l f = Some f' -> 
    (fs_calls f !! c = Some FPanic -> fs_calls f' !! c = Some FPanic) /\ (forall sp e, fs_calls f !! c = Some (FRet sp e) -> fs_calls f' !! c = Some (FRet sp e)).
  Proof.
    intros Hs. assert (forall k u x, fs_calls f !! k = Some u -> fs_calls f' = <[k := x]> (fs_calls f) -> u <> FPanic -> (forall sp e, u <> FRet sp e) ->
      (fs_calls f !! c = Some FPanic -> fs_calls f' !! c = Some FPanic) /\ (forall sp e, fs_calls f !! c = Some (FRet sp e) -> fs_calls f' !! c = Some (FRet sp e))) as Hset.
    { intros k u x Hk -> Hn Hr. split; [|intros sp e]; intros Hc; (rewrite list_lookup_insert_ne; [done|]); intros ->; rewrite Hk in Hc; [|by destruct (Hr sp e); injection Hc as <-]. by injection Hc. }
    destruct l as [k t|k r t pkp]; cbn [fstep] in Hs; destruct (fs_calls f !! k) as [u|] eqn:Ek; try done.
    - destruct u as [[]|kk last| | |]; try done; [| |destruct (kk <? f_attempts fc)]; injection Hs as <-; by eapply Hset.
    - destruct u as [| |retry tp inm at_| |]; try done. destruct (fetch_response K fc tp pkp t r) as [res upd]. injection Hs as <-. by eapply Hset.
  Qed.
  Lemma panics_stay_keys l (p p' : @pst (verifier K)) i : pstep parse (s_p cf) l p = Some p' -> p_tasks p !! i = Some PPanic -> p_tasks p' !! i = Some PPanic.
  Proof.
    intros Hs Hi. apply PubKeyFacts.pstep_inv in Hs as (t & t' & Ht & -> & Hm & _). rewrite list_lookup_insert_ne; [done|]. intros <-.
    rewrite Hi in Ht. injection Ht as <-. clear -Hm. destruct l; cbn [PubKeyFacts.moves] in Hm.
    - by destruct Hm.
    - by destruct Hm as (? & ? & _).
    - by destruct Hm as (? & ? & ? & ? & _).
    - by destruct Hm as (? & ? & ? & _).
    - by destruct Hm as (_ & [(? & ? & _)|(? & ? & _)]).
  Qed.
  Lemma fetch_ok' ls s : yrun ls s -> forall d f, y_fetch K s !! d = Some f -> exists fc, s_f cf !! d = Some fc /\ finv fc (accepted ls d) f.
  Proof.
    intros H. induction H as [|ls l s s' H IH Hs]; intros d f Hf.
    - cbn in Hf. rewrite list_lookup_fmap in Hf. destruct (seq 0 (length (s_f cf)) !! d) as [d'|] eqn:E; [|done]. cbn in Hf. injection Hf as <-.
      apply lookup_seq in E as [-> Hlt]. destruct (lookup_lt_is_Some_2 _ _ Hlt) as [fc Hfc]. exists fc. split; [done|].
      eapply finv_mono; [|apply (finit_inv K)]. intros sp (? & ? & ? & ? & Hx & _). by apply elem_of_nil in Hx.
    - assert (forall d f, y_fetch K s !! d = Some f -> exists fc, s_f cf !! d = Some fc /\ finv fc (accepted (ls ++ [l]) d) f) as IH'.
      { intros d' f' H'. destruct (IH _ _ H') as (fc & Hfc & Hi). exists fc. split; [done|]. eapply finv_mono; [|exact Hi]. intros sp. apply accepted_mono. }
      destruct Hs; try (by apply IH'); cbn [set_fetch y_fetch] in Hf; apply list_lookup_insert_Some in Hf as [(<- & <- & _)|[_ Hf]]; try (by apply IH');
        destruct (IH' _ _ H1) as (fc' & Hfc & Hi); assert (fc' = fc) as -> by congruence; exists fc; (split; [done|]);
        (eapply fstep_inv; [eassumption| |exact Hi]).
      + done.
      + intros i' etag t pkp sp Heq Hv. injection Heq as -> -> <- <-. exists i', etag, ls, s. split; [by apply happened_last|done].
  Qed.
  Lemma result_panics ls s d f c sp e : yrun ls s -> y_fetch K s !! d = Some f -> fs_calls f !! c = Some (FRet sp e) -> fetched_policy sp e = Panic ->
    server_fault ls.
  Proof.
    intros H Hf Hc Hp. destruct (fetch_ok' _ _ H _ _ Hf) as (fc & _ & _ & Hi). specialize (Hi _ _ Hc). destruct sp as [sp|]; [|by destruct e].
    assert (accepted ls d sp) as Ha by (by destruct e). pose proof Ha as (? & ? & ? & ? & _ & (sd & ex & ? & ? & ? & ? & Hd & He & _)).
    cbn [fetched_policy] in Hp. rewrite Hd, He in Hp. 
    eapply F_policies_null; [done|done|]. destruct (sd_policy sd) as [pd|] eqn:Ep; [right|by left]. exists pd. split; [done|]. apply policies_of_null. by destruct (policies_of _).
  Qed.
  Lemma check_calm ls s i k : yrun ls s -> y_chk K s !! i = Some (Some k) -> s_panic (k_st k) = false /\ ~ returned (k_st k) Panic.
  Proof.
    intros H Hk. destruct (checks_ok K X U parse cf t0 n nk nj nu calls _ _ H _ _ Hk) as [(c0 & kls & Hr & _) _]. split; [by eapply never_panics|].
    intros Hp. by apply (returned_inv _ _ _ _ _ _ _ _ _ _ Hr) in Hp.
  Qed.
  Lemma process_panics s now q : process K X (s_z cf) (keys_now K cf s) now q = Panic <-> disabled q.
  Proof.
    unfold process, disabled. destruct (q_mode q).
    - destruct (z_role (s_z cf)); [|done]. split; [|done]. cbn [keys_now ks_pub].
      match goal with |- context [parse_and_validate ?a ?b ?c ?d] => destruct (parse_and_validate a b c d) eqn:E end; try done. by apply Prop_Role.C35_never_panics in E.
    - destruct (z_access (s_z cf)); [|done]. split; [|done]. cbn [keys_now ks_jwk].
      match goal with |- context [parse_access ?x ?a ?b ?c ?d ?e] => destruct (parse_access x a b c d e) eqn:E end; try done. by apply Prop_Access.C37_never_panics in E.
  Qed.
  Lemma target_panics o p q : target (s_z cf) o p q = Panic <-> exists tr, z_trans (s_z cf) = Some tr /\ tr o (pr_domain p) (q_act q) (q_res q) (q_query q) = Panic.
  Proof.
    unfold target. destruct (z_trans (s_z cf)) as [tr|]; cbn; [|split; [done|by intros (? & ? & _)]].
    split.
    - destruct (tr o (pr_domain p) (q_act q) (q_res q) (q_query q)) eqn:E; try done. intros _. by exists tr.
    - intros (tr' & Heq & Hx). injection Heq as <-. by rewrite Hx.
  Qed.
  Lemma auth_panics ls s l z i q : yrun ls s -> zstep K X (s_z cf) l (y_auth K s) = Some z -> auth_ok K cf s l -> z_tasks z !! i = Some (CDone q Panic) ->
    z_tasks (y_auth K s) !! i = Some (CDone q Panic) \/ user_fault (ls ++ [YAuth K l]).
  Proof.
    intros H Hs Ha Hi. pose proof (happened_last K X U parse cf s0 ls (YAuth K l) s H) as Hh.
    assert (forall j t, z = set_task (y_auth K s) j t -> (forall q, t <> CDone q Panic) -> z_tasks (y_auth K s) !! i = Some (CDone q Panic)) as Hset.
    { intros j t -> Ht. cbn [set_task z_tasks] in Hi. by apply list_lookup_insert_Some in Hi as [(_ & -> & _)|[_ Hi]]; [destruct (Ht q)|]. }
    destruct l as [tt|j q'|j|j ks|j o|j r|j|kk|]; cbn [zstep] in Hs.
    - destruct (_ <=? _); [|done]. injection Hs as <-. by left.
    - destruct (z_tasks (y_auth K s) !! j) as [[]|]; try done. injection Hs as Hs. left. eapply Hset; [by symmetry|]. by destruct (empty_params _ _).
    - destruct (z_tasks (y_auth K s) !! j) as [[]|]; try done. injection Hs as Hs. left. eapply Hset; [by symmetry|]. by destruct (g_get _ _ _).
    - destruct (z_tasks (y_auth K s) !! j) as [[]|] eqn:Ej; try done. cbn [auth_ok] in Ha. subst ks. injection Hs as Hs.
      destruct (process K X (s_z cf) (keys_now K cf s) _ q0) as [p|e|] eqn:E; [left; eapply Hset; [by symmetry|]; by destruct (z_policy _)|left; eapply Hset; [by symmetry|done]|].
      right. apply process_panics in E. by eapply F_kind.
    - destruct (z_tasks (y_auth K s) !! j) as [[]|] eqn:Ej; try done. injection Hs as Hs.
      destruct (target (s_z cf) o p q0) as [[a r]|e|] eqn:E; [left; eapply Hset; [by symmetry|done]|left; eapply Hset; [by symmetry|done]|].
      right. apply target_panics in E as (tr & Htr & E). by eapply F_trans.
    - destruct (z_tasks (y_auth K s) !! j) as [[]|]; try done. injection Hs as Hs. left. cbn [auth_ok] in Ha. destruct Ha as (k & Hk & Hr).
      eapply Hset; [by symmetry|]. destruct r; [done..|]. by destruct (check_calm _ _ _ _ H Hk).
    - destruct (z_tasks (y_auth K s) !! j) as [[]|]; try done. injection Hs as <-. left. cbn [z_tasks] in Hi. by apply list_lookup_insert_Some in Hi as [(_ & ? & _)|[_ Hi]].
    - destruct (z_cache (y_auth K s) !! kk) as [e|]; [|done]. destruct (g_valid _ e); [done|]. injection Hs as <-. by left.
    - injection Hs as <-. by left.
  Qed.
  Lemma done_stays (l : @zlabel K O) z z' i q r : zstep K X (s_z cf) l z = Some z' -> z_tasks z !! i = Some (CDone q r) -> z_tasks z' !! i = Some (CDone q r).
  Proof.
    intros Hs Hi. destruct l as [tt|j q'|j|j ks|j o|j x|j|kk|]; cbn [zstep] in Hs.
    - destruct (_ <=? _); [|done]. by injection Hs as <-.
    - destruct (z_tasks z !! j) as [[]|] eqn:Ej; try done. injection Hs as <-. cbn [set_task z_tasks]. rewrite list_lookup_insert_ne; [done|congruence].
    - destruct (z_tasks z !! j) as [[]|] eqn:Ej; try done. injection Hs as <-. cbn [set_task z_tasks]. rewrite list_lookup_insert_ne; [done|congruence].
    - destruct (z_tasks z !! j) as [[]|] eqn:Ej; try done. injection Hs as <-. cbn [set_task z_tasks]. rewrite list_lookup_insert_ne; [done|congruence].
    - destruct (z_tasks z !! j) as [[]|] eqn:Ej; try done. injection Hs as <-. cbn [set_task z_tasks]. rewrite list_lookup_insert_ne; [done|congruence].
    - destruct (z_tasks z !! j) as [[]|] eqn:Ej; try done. injection Hs as <-. cbn [set_task z_tasks]. rewrite list_lookup_insert_ne; [done|congruence].
    - destruct (z_tasks z !! j) as [[]|] eqn:Ej; try done. injection Hs as <-. cbn [z_tasks]. rewrite list_lookup_insert_ne; [done|congruence].
    - destruct (z_cache z !! kk) as [e|]; [|done]. destruct (g_valid _ e); [done|]. by injection Hs as <-.
    - by injection Hs as <-.
  Qed.
  Lemma panic_stays ls l s s' : yrun ls s -> ystep l s s' -> sys_panicked s -> sys_panicked s'.
  Proof.
    intros H Hs [(i & q & Hi)|[(d & f & c & Hf & Hc)|[(d & f & c & sp & e & Hf & Hc & Hp)|[(i & Hi)|(i & k & Hk & Hp)]]]].
    - left. exists i, q. destruct Hs; try done. cbn [set_auth y_auth]. by eapply done_stays.
    - right; left. destruct Hs; try (by exists d, f, c); cbn [set_fetch y_fetch]; (destruct (decide (d0 = d)) as [->|Hne];
        [assert (f0 = f) as -> by congruence; exists d, f', c; (rewrite list_lookup_insert by (by eapply lookup_lt_Some)); split; [done|]; by eapply (panics_stay_fetch fc)
        |exists d, f, c; by rewrite list_lookup_insert_ne]).
    - right; right; left. destruct Hs; try (by exists d, f, c, sp, e); cbn [set_fetch y_fetch]; (destruct (decide (d0 = d)) as [->|Hne];
        [assert (f0 = f) as -> by congruence; exists d, f', c, sp, e; (rewrite list_lookup_insert by (by eapply lookup_lt_Some)); split; [done|]; split; [|done]; by eapply (panics_stay_fetch fc)
        |exists d, f, c, sp, e; by rewrite list_lookup_insert_ne]).
    - right; right; right; left. exists i. destruct Hs; try done. cbn [set_keys y_keys]. by eapply panics_stay_keys.
    - destruct (check_calm _ _ _ _ H Hk). congruence.
  Qed.
  Lemma panic_later l1 l2 s1 s : yrun l1 s1 -> yrun (l1 ++ l2) s -> sys_panicked s1 -> sys_panicked s.
  Proof.
    intros H1. revert s. induction l2 as [|l l2 IH] using rev_ind; intros s H Hp.
    - rewrite app_nil_r in H. assert (s1 = s) as -> by (by eapply yrun_det). done.
    - rewrite app_assoc in H. apply yrun_snoc in H as (s2 & H2 & Hs). eapply panic_stays; [exact H2|exact Hs|]. by apply IH.
  Qed.
  Lemma panic_caused l l1 l2 s1 s2 s : yrun (l1 ++ l :: l2) s -> yrun l1 s1 -> ystep l s1 s2 -> sys_panicked s2 -> sys_panicked s.
  Proof.
    intros H H1 Hs Hp. replace (l1 ++ l :: l2) with ((l1 ++ [l]) ++ l2) in H by (by rewrite <- app_assoc). eapply panic_later; [|exact H|exact Hp]. by eapply Y_snoc.
  Qed.
  Lemma reply_panics ls s d i r l1 s1 f retry tp inm t : yrun ls s -> happened ls (YReply K d i r) l1 s1 -> y_fetch K s1 !! d = Some f -> fs_calls f !! i = Some (FSent retry tp inm t) ->
    (r = Response 304 (match r with Response _ e _ => e | _ => [] end) (match r with Response _ _ b => b | _ => BadBody end) /\ tp = None \/ (exists etag, r = Response 200 etag NullBody) \/
     exists etag sp sd, r = Response 200 etag (Doc sp) /\ valid_policy K (get_pub_key (y_keys K s1)) (now s1) sp /\ sp_data sp = Some sd /\ Prop_Fetcher.has_null sd) -> sys_panicked s.
  Proof.
    intros H Hh Hf Hi Hr. destruct (happened_step K X U parse cf t0 n nk nj nu calls _ _ _ _ _ H Hh) as [s2 Hs]. destruct Hh as [[l2 ->] H1].
    eapply panic_caused; [exact H|exact H1|exact Hs|]. inversion Hs; subst. assert (f0 = f) as -> by congruence.
    match goal with Hx : fstep _ _ _ f = Some _ |- _ => rename Hx into Hst end. cbn [fstep] in Hst. rewrite Hi in Hst.
    destruct (fetch_response K fc tp (get_pub_key (y_keys K s1)) (now s1) r) as [res upd] eqn:E. injection Hst as <-.
    destruct Hr as [[Hr ->]|[[etag ->]|(etag & sp & sd & -> & Hv & Hd & Hp)]].
    - right; left. destruct r as [|st e b]; [done|]. injection Hr as ->. cbn in E. injection E as <- _.
      eexists d, _, i. cbn [set_fetch y_fetch]. rewrite list_lookup_insert by (by eapply lookup_lt_Some). split; [done|]. cbn [fs_calls]. by rewrite list_lookup_insert by (by eapply lookup_lt_Some).
    - right; left. cbn in E. injection E as <- _.
      eexists d, _, i. cbn [set_fetch y_fetch]. rewrite list_lookup_insert by (by eapply lookup_lt_Some). split; [done|]. cbn [fs_calls]. by rewrite list_lookup_insert by (by eapply lookup_lt_Some).
    - right; right; left. assert (res = Ok sp) as ->.
      { assert (sp_verify K (get_pub_key (y_keys K s1)) (now s1) (Some sp) = Ok tt) as Hok by (apply sp_verify_iff; by exists sp).
        unfold fetch_response in E. change (200 =? 304) with false in E. change (200 =? 200) with true in E. cbn [negb] in E. rewrite Hok in E.
        pose proof Hv as (sd' & ex & _ & _ & _ & _ & Hd' & He & _). rewrite Hd', He in E. by injection E as <- _. }
      eexists d, _, i, (Some sp), None. cbn [set_fetch y_fetch]. rewrite list_lookup_insert by (by eapply lookup_lt_Some). split; [done|]. cbn [fs_calls]. rewrite list_lookup_insert by (by eapply lookup_lt_Some).
      split; [done|]. cbn [fetched_policy]. rewrite Hd. destruct Hp as [->|(pd & -> & Hn)]; [done|]. apply policies_of_null in Hn. rewrite Hn. by destruct (sd_expires sd).
  Qed.
  Lemma elem_happened ls s l : yrun ls s -> l ∈ ls -> exists l1 s1, happened ls l l1 s1.
  Proof. intros H Hin. apply elem_of_list_split in Hin as (l1 & l2 & ->). destruct (yrun_split K X U parse cf _ _ _ _ H) as [s1 H1]. exists l1, s1. split; [by exists l2|done]. Qed.
  Lemma keys_panic ls s i r t l1 s1 : yrun ls s -> happened ls (YKey K (PResp i r t)) l1 s1 ->
    (forall c, p_tasks (y_keys K s1) !! i = Some (PSent c) -> fst (respond parse c r) = PPanic) -> sys_panicked s.
  Proof.
    intros H Hh Hr. destruct (happened_step K X U parse cf t0 n nk nj nu calls _ _ _ _ _ H Hh) as [s2 Hs]. destruct Hh as [[l2 ->] H1].
    eapply panic_caused; [exact H|exact H1|exact Hs|]. right; right; right; left. exists i. inversion Hs; subst. cbn [set_keys y_keys].
    match goal with Hx : pstep _ _ _ _ = Some _ |- _ => rename Hx into Hst end. cbn [pstep] in Hst. destruct (p_tasks (y_keys K s1) !! i) as [[|c| | | |]|] eqn:Ei; try done.
    specialize (Hr c eq_refl). destruct (respond parse c r) as [t' c']. cbn in Hr. subst t'. injection Hst as <-. cbn [with_task with_etags p_tasks].
    by rewrite list_lookup_insert by (by eapply lookup_lt_Some).
  Qed.

  (** ** Theorems *)
  (** A goroutine has panicked exactly if one of these things has happened, in every execution. *)
  Theorem C101_panic_iff ls s : yrun ls s -> sys_panicked s <-> server_fault ls \/ user_fault ls.
  Proof.
    intros H. split.
    - induction H as [|ls l s s' H IH Hs].
      { intros [(i & q & Hi)|[(d & f & c & Hf & Hc)|[(d & f & c & sp & e & Hf & Hc & _)|[(i & Hi)|(i & k & Hk & _)]]]]; cbn in *.
        - by apply lookup_replicate in Hi as [? _].
        - rewrite list_lookup_fmap in Hf. destruct (seq 0 (length (s_f cf)) !! d) as [d'|]; [|done]. injection Hf as <-. cbn in Hc. rewrite list_lookup_fmap in Hc. by destruct (calls d' !! c).
        - rewrite list_lookup_fmap in Hf. destruct (seq 0 (length (s_f cf)) !! d) as [d'|]; [|done]. injection Hf as <-. cbn in Hc. rewrite list_lookup_fmap in Hc. by destruct (calls d' !! c).
        - by apply lookup_replicate in Hi as [? _].
        - by apply lookup_replicate in Hk as [? _]. }
      assert (yrun (ls ++ [l]) s') as H' by (by eapply Y_snoc). intros Hp.
      assert (sys_panicked s \/ server_fault (ls ++ [l]) \/ user_fault (ls ++ [l])) as [Hx|Hx]; [|destruct (IH Hx); [left; by apply server_fault_mono|right; by apply user_fault_mono]|done].
      clear IH. destruct Hp as [(i & q & Hi)|[(d & f & c & Hf & Hc)|[(d & f & c & sp & e & Hf & Hc & Hx)|[(i & Hi)|(i & k & Hk & Hx)]]]].
      + destruct Hs; try (left; left; by exists i, q). cbn [set_auth y_auth] in Hi. destruct (auth_panics _ _ _ _ _ _ H H0 H1 Hi) as [Hx|Hx]; [left; left; by exists i, q|right; by right].
      + destruct (y_fetch K s !! d) as [f0|] eqn:Ef; [destruct (fs_calls f0 !! c) as [[a1|a1 a2|a1 a2 a3 a4|a1 a2|]|] eqn:Ec|].
        5:{ left. right; left. by exists d, f0, c. }
        all: right; left; destruct Hs as [| | |s d' i fc f1 f' Hfc Hf1 Hst|s d' i r fc f1 f' Hfc Hf1 Hst| | | | | | | |]; cbn [set_auth set_keys set_jwk set_upd set_obj publish set_chk set_fetch y_fetch] in Hf; try (exfalso; congruence);
          (apply list_lookup_insert_Some in Hf as [(-> & -> & _)|[_ Hf]]; [|exfalso; congruence]); try (exfalso; congruence);
          (assert (f1 = f0) as -> by congruence); (destruct (fstep_panic _ _ _ _ _ c Hst Hc) as (r' & t & pkp & retry & tp & inm & at_ & Heq & Hsent & Hb); [by rewrite Ec|]); try done; injection Heq as -> -> _ _;
          (destruct Hb as [(etag & b & -> & ->)|(etag & ->)]; [eapply F_policy_304; [by apply happened_last|done|done]|eapply F_policy_null; apply elem_of_app; right; by left]).
      + right; left. by eapply result_panics.
      + destruct (p_tasks (y_keys K s) !! i) as [[|a1|a1 a2|a1 a2|a1|]|] eqn:Ei.
        6:{ left. right; right; right; left. by exists i. }
        all: right; left; destruct Hs as [|s l k Hst _| | | | | | | | | | |]; cbn [set_auth set_keys set_jwk set_upd set_obj publish set_chk set_fetch y_keys] in Hi; try (exfalso; congruence);
          destruct l as [j t|j r t|j kk|j kk|j]; apply PubKeyFacts.pstep_inv in Hst as (u & u' & Hu & Htasks & Hm & _); rewrite Htasks in Hi;
          (apply list_lookup_insert_Some in Hi as [(Heq & -> & _)|[_ Hi]]; [|exfalso; congruence]); cbn [PubKeyFacts.moves task_of] in *; subst i;
          try (exfalso; repeat (match goal with Hx : exists _, _ |- _ => destruct Hx | Hx : _ /\ _ |- _ => destruct Hx | Hx : _ \/ _ |- _ => destruct Hx end); try done; by destruct (pc_url_ok _)).
        all: destruct Hm as (c & -> & Hm & _).
        all: try (exfalso; congruence).
        unfold respond in Hm. destruct r as [e|status etag b]; [done|]. destruct (Z.eqb_spec status 304) as [->|]; [|destruct (Z.eqb_spec status 200) as [->|]; [|done]].
        * destruct c; [done|]. eapply F_keys_304; [by apply happened_last|done].
        * cbn [negb] in Hm. destruct b as [| |kl]; [done|eapply F_keys_null; apply elem_of_app; right; by left|]. cbn [fst] in Hm.
          destruct (decode_keys parse kl ∅) eqn:E; try done. apply decode_keys_null in E. eapply F_key_null; [apply elem_of_app; right; by left|done].
      + destruct (check_calm _ _ _ _ H' Hk). congruence.
    - intros [Hf|Hf].
      + destruct Hf as [d i etag b l1 s1 f retry inm t Hh Hf Hi|d i etag Hin|d sp sd (i & etag & l1 & s1 & Hh & Hv) Hd Hp|i etag b t l1 s1 Hh Hi|i etag t Hin|i etag kl t Hin Hn].
        * eapply reply_panics; [exact H|exact Hh|exact Hf|exact Hi|by left].
        * destruct (elem_happened _ _ _ H Hin) as (l1 & s1 & Hh). destruct (happened_step K X U parse cf t0 n nk nj nu calls _ _ _ _ _ H Hh) as [s2 Hs].
          inversion Hs; subst. match goal with Hx : fstep _ _ _ ?f = Some _ |- _ => cbn [fstep] in Hx; destruct (fs_calls f !! i) as [[| |retry tp inm at_| |]|] eqn:Ei; try done end.
          eapply reply_panics; [exact H|exact Hh|done|exact Ei|]. right; left. by eexists.
        * destruct (happened_step K X U parse cf t0 n nk nj nu calls _ _ _ _ _ H Hh) as [s2 Hs].
          inversion Hs; subst. match goal with Hx : fstep _ _ _ ?f = Some _ |- _ => cbn [fstep] in Hx; destruct (fs_calls f !! i) as [[| |retry tp inm at_| |]|] eqn:Ei; try done end.
          eapply reply_panics; [exact H|exact Hh|done|exact Ei|]. right; right. by exists etag, sp, sd.
        * eapply keys_panic; [exact H|exact Hh|]. intros c Hc. rewrite Hi in Hc. by injection Hc as <-.
        * destruct (elem_happened _ _ _ H Hin) as (l1 & s1 & Hh). eapply keys_panic; [exact H|exact Hh|]. done.
        * destruct (elem_happened _ _ _ H Hin) as (l1 & s1 & Hh). eapply keys_panic; [exact H|exact Hh|]. intros c _. cbn. by rewrite (proj2 (decode_keys_null kl ∅) Hn).
      + destruct Hf as [i ks l1 s1 q Hh Hi Hd|i o l1 s1 q p tr Hh Hi Htr Hp];
          destruct (happened_step K X U parse cf t0 n nk nj nu calls _ _ _ _ _ H Hh) as [s2 Hs]; destruct Hh as [[l2 ->] H1]; (eapply panic_caused; [exact H|exact H1|exact Hs|]);
          left; exists i, q; inversion Hs; subst; cbn [set_auth y_auth]; match goal with Hx : zstep _ _ _ _ _ = Some _ |- _ => cbn [zstep] in Hx; rewrite Hi in Hx; injection Hx as <- end;
          cbn [set_task z_tasks]; (rewrite list_lookup_insert by (by eapply lookup_lt_Some)).
        * match goal with Hx : auth_ok _ _ _ _ |- _ => cbn [auth_ok] in Hx; subst ks end. by rewrite (proj2 (process_panics _ _ _) Hd).
        * by rewrite (proj2 (target_panics o p q) (ex_intro _ tr (conj Htr Hp))).
  Qed.
  Theorem C101_hook_iff ls s : hrun ls s -> h_down K s = true <-> hook_fault ls.
  Proof.
    intros Hr. split.
    - intros Hd. destruct Hr as [|ls l s s' Hr Hs]; [done|]. assert (hrun (ls ++ [l]) s') as Hr' by (by eapply HR_snoc).
      assert (exists k, l = HCrash K k /\ k ∈ h_pend K s /\ hook_domain k ∉ doms) as (k & -> & Hk & Hn).
      { inversion Hs; subst; cbn in Hd; try done; exists k; split_and!; [done| |by apply fetcher_of_none]. match goal with Hp : h_pend _ _ = _ |- _ => rewrite Hp end. rewrite elem_of_app, elem_of_cons. tauto. }
      destruct (reasons _ _ _ _ _ _ _ _ _ _ _ _ _ _ Hr) as (_ & R2 & _). destruct (R2 _ Hk) as [o Ho]. apply (expired_mono _ _ _ _ _ _ _ _ _ _ _ _ _ [HCrash K k]) in Ho.
      exists o, k, (hook_domain k). split_and!; [apply elem_of_app; right; by left|done|by eapply expired_role|by apply hook_domain_spec|done].
    - intros (o & k & dom & Hin & _). induction Hr as [|ls l s s' Hr IH Hs]; [by apply elem_of_nil in Hin|]. apply elem_of_app in Hin as [Hin|Hin].
      + specialize (IH Hin). destruct Hs; congruence.
      + apply elem_of_list_singleton in Hin. subst l. inversion Hs; by subst.
  Qed.
  (** The process has crashed exactly if Athenz, the program or the hook has done one of those things. *)
  Theorem C101_crash_iff ls s : hrun ls s -> crashed s <-> server_fault (hsys ls) \/ user_fault (hsys ls) \/ hook_fault ls.
  Proof.
    intros Hr. unfold crashed. rewrite (C101_panic_iff _ _ (C90_is_the_system _ _ _ _ _ _ _ _ _ _ _ _ _ _ Hr)), (C101_hook_iff _ _ Hr). tauto.
  Qed.
  (** A policy check never panics. *)
  Theorem C101_checks_never_panic ls s i k : hrun ls s -> y_chk K (h_sys K s) !! i = Some (Some k) -> s_panic (k_st k) = false.
  Proof. intros Hr Hk. by destruct (check_calm _ _ _ _ (C90_is_the_system _ _ _ _ _ _ _ _ _ _ _ _ _ _ Hr) Hk). Qed.
  (** So the process stays up if the answers of Athenz contain no null and 304 only answers a request that named an ETag,
      if all roles belong to configured domains, only tokens of enabled kinds are presented and the translator does not
      panic; whatever else Athenz answers, whatever tokens come, whatever is in the policies. *)
  Definition polite (ls : list ylabel) : Prop :=
    (forall d i etag b l1 s1, happened ls (YReply K d i (Response 304 etag b)) l1 s1 ->
       exists f retry tp t, y_fetch K s1 !! d = Some f /\ fs_calls f !! i = Some (FSent retry tp true t)) /\
    (forall d i etag, YReply K d i (Response 200 etag NullBody) ∉ ls) /\
    (forall d i etag sp sd, YReply K d i (Response 200 etag (Doc sp)) ∈ ls -> sp_data sp = Some sd -> ~ Prop_Fetcher.has_null sd) /\
    (forall i etag b t l1 s1, happened ls (YKey K (PResp i (Response 304 etag b) t)) l1 s1 -> exists c, p_tasks (y_keys K s1) !! i = Some (PSent (Some c))) /\
    (forall i etag t, YKey K (PResp i (Response 200 etag NullBody) t) ∉ ls) /\
    (forall i etag kl t, YKey K (PResp i (Response 200 etag (Doc kl)) t) ∈ ls -> None ∉ kl).
  Definition well_used (ls : list ylabel) : Prop :=
    (forall i q, YAuth K (ZCall K i q) ∈ ls -> ~ disabled q) /\
    (forall tr o dom act res query, z_trans (s_z cf) = Some tr -> tr o dom act res query <> Panic).
  Lemma polite_no_fault ls s : yrun ls s -> polite ls -> ~ server_fault ls.
  Proof.
    intros H (P1 & P2 & P3 & P4 & P5 & P6) [d i etag b l1 s1 f retry inm t Hh Hf Hi|d i etag Hin|d sp sd (i & etag & l1 & s1 & [[l2 Hl] _] & _) Hd Hp|i etag b t l1 s1 Hh Hi|i etag t Hin|i etag kl t Hin (k1 & k2 & -> & _)].
    - destruct (P1 _ _ _ _ _ _ Hh) as (f' & retry' & tp & t' & Hf' & Hi'). assert (f' = f) as -> by congruence. rewrite Hi in Hi'. injection Hi' as _ <- -> _.
      destruct Hh as [_ H1]. destruct (fetch_ok K X U parse cf t0 n nk nj nu calls _ _ H1 _ _ Hf) as (fc & _ & _ & Hx). destruct (Hx _ _ Hi) as [_ Hc]. done.
    - by eapply P2.
    - eapply (P3 d i etag sp sd); [|done..]. rewrite Hl, elem_of_app, elem_of_cons. tauto.
    - destruct (P4 _ _ _ _ _ _ Hh) as [c Hc]. congruence.
    - by eapply P5.
    - eapply P6; [exact Hin|]. rewrite elem_of_app, elem_of_cons. tauto.
  Qed.
  (** Every task is about a request that was made. *)
  Lemma task_called ls s i t : yrun ls s -> z_tasks (y_auth K s) !! i = Some t ->
    match t with Authorizer.CIdle => True | CLook q | CParse q | CTrans q _ | CCheck q _ _ _ | CStore q _ | CDone q _ => YAuth K (ZCall K i q) ∈ ls end.
  Proof.
    intros H. revert i t. induction H as [|ls l s s' H IH Hs]; intros i t Hi; [cbn in Hi; by apply lookup_replicate in Hi as [-> _]|].
    assert (forall i t, z_tasks (y_auth K s) !! i = Some t -> match t with Authorizer.CIdle => True | CLook q | CParse q | CTrans q _ | CCheck q _ _ _ | CStore q _ | CDone q _ => YAuth K (ZCall K i q) ∈ ls ++ [l] end) as IH'.
    { intros j u Hj. specialize (IH _ _ Hj). destruct u; try done; apply elem_of_app; by left. }
    clear IH. destruct Hs as [s l z Hst _| | | | | | | | | | | |]; try (by apply IH'). cbn [set_auth y_auth] in Hi.
    assert (forall j u q, z_tasks (y_auth K s) !! j = Some u -> (match u with Authorizer.CIdle => l = ZCall K j q | CLook q' | CParse q' | CTrans q' _ | CCheck q' _ _ _ | CStore q' _ | CDone q' _ => q' = q end) ->
      forall v, (match v with Authorizer.CIdle => False | CLook q' | CParse q' | CTrans q' _ | CCheck q' _ _ _ | CStore q' _ | CDone q' _ => q' = q end) -> <[j := v]> (z_tasks (y_auth K s)) !! i = Some t ->
      match t with Authorizer.CIdle => True | CLook q | CParse q | CTrans q _ | CCheck q _ _ _ | CStore q _ | CDone q _ => YAuth K (ZCall K i q) ∈ ls ++ [YAuth K l] end) as Hset.
    { intros j u q Hj Hu v Hv Hx. apply list_lookup_insert_Some in Hx as [(-> & -> & _)|[_ Hx]]; [|by apply IH']. specialize (IH' _ _ Hj).
      assert (YAuth K (ZCall K i q) ∈ ls ++ [YAuth K l]) as Hq by (destruct u; subst; try done; apply elem_of_app; right; by left). destruct t; subst; done. }
    destruct l as [tt|j q|j|j ks|j o|j r|j|kk|]; cbn [zstep] in Hst.
    - destruct (_ <=? _); [|done]. injection Hst as <-. exact (IH' _ _ Hi).
    - destruct (z_tasks (y_auth K s) !! j) as [[]|] eqn:Ej; try done. injection Hst as <-. eapply (Hset j _ q Ej eq_refl); [|exact Hi]. by destruct (empty_params _ _).
    - destruct (z_tasks (y_auth K s) !! j) as [[]|] eqn:Ej; try done. injection Hst as <-. eapply (Hset j _ q Ej eq_refl); [|exact Hi]. by destruct (g_get _ _ _).
    - destruct (z_tasks (y_auth K s) !! j) as [[]|] eqn:Ej; try done. injection Hst as <-. eapply (Hset j _ q Ej eq_refl); [|exact Hi]. destruct (process _ _ _ _ _ _); [by destruct (z_policy _)|done..].
    - destruct (z_tasks (y_auth K s) !! j) as [[]|] eqn:Ej; try done. injection Hst as <-. eapply (Hset j _ q Ej eq_refl); [|exact Hi]. by destruct (target _ _ _ _) as [[]| |].
    - destruct (z_tasks (y_auth K s) !! j) as [[]|] eqn:Ej; try done. injection Hst as <-. eapply (Hset j _ q Ej eq_refl); [|exact Hi]. by destruct r.
    - destruct (z_tasks (y_auth K s) !! j) as [[]|] eqn:Ej; try done. injection Hst as <-. eapply (Hset j _ q Ej eq_refl); [|exact Hi]. done.
    - destruct (z_cache (y_auth K s) !! kk) as [e|]; [|done]. destruct (g_valid _ e); [done|]. injection Hst as <-. exact (IH' _ _ Hi).
    - injection Hst as <-. exact (IH' _ _ Hi).
  Qed.
  Theorem C101_stays_up ls s : hrun ls s -> polite (hsys ls) -> well_used (hsys ls) ->
    (forall k dom, role_of_policy (hsys ls) k -> begins_with k dom -> dom ∈ doms) -> ~ crashed s.
  Proof.
    intros Hr Hp [W1 W2] Hd. rewrite (C101_crash_iff _ _ Hr). pose proof (C90_is_the_system _ _ _ _ _ _ _ _ _ _ _ _ _ _ Hr) as Hy.
    intros [Hf|[Hf|(o & k & dom & _ & _ & Hrole & Hb & Hn)]]; [by eapply polite_no_fault| |by eapply Hn, Hd].
    destruct Hf as [i ks l1 s1 q [[l2 Hl] H1] Hi Hx|i o' l1 s1 q p tr _ _ Htr Hx]; [|by eapply W2].
    apply (task_called _ _ _ _ H1) in Hi. apply (W1 i q); [|exact Hx]. rewrite Hl. apply elem_of_app. left. exact Hi.
  Qed.
End claims.

(** ** Concrete executions *)
Section exec.
  Context (K : crypto) (X : jwt_ext) {O : Type} (U : unicode) (parse : str -> option (verifier K)).
  Context (cf : @sconf O) (doms : list str) (t0 : time) (n nk nj nu : nat) (calls : nat -> list bool).
  Notation s0 := (yinit K cf t0 n nk nj nu calls).
  Definition disabledb (q : request) : bool := match q_mode q with MRole => negb (z_role (s_z cf)) | MAccess => negb (z_access (s_z cf)) end.
  (** The conditions of [polite] and [well_used] for one step. *)
  Definition calmb (x : @ylabel K O * sys K) : bool :=
    match x with
    | (YReply _ d i (Response 304 _ _), s) =>
        match y_fetch K s !! d with Some f => match fs_calls f !! i with Some (FSent _ _ true _) => true | _ => false end | None => false end
    | (YReply _ _ _ (Response 200 _ NullBody), _) => false
    | (YReply _ _ _ (Response 200 _ (Doc sp)), _) => match sp_data sp with Some d => match sd_policy d with Some p => match policies_of (pd_policies p) with Some _ => true | None => false end | None => false end | None => true end
    | (YKey _ (PResp i (Response 304 _ _) _), s) => match p_tasks (y_keys K s) !! i with Some (PSent (Some _)) => true | _ => false end
    | (YKey _ (PResp _ (Response 200 _ NullBody) _), _) => false
    | (YKey _ (PResp _ (Response 200 _ (Doc kl)) _), _) => forallb (fun k => match k with Some _ => true | None => false end) kl
    | (YAuth _ (ZCall _ _ q), _) => negb (disabledb q)
    | _ => true
    end.
  Lemma calm_sound tr s : htraced K X U parse cf doms t0 n nk nj nu calls tr s -> forallb calmb (strace K tr) = true ->
    polite K X U parse cf t0 n nk nj nu calls (hsys K tr.*1) /\ (forall i q, YAuth K (ZCall K i q) ∈ hsys K tr.*1 -> ~ disabled cf q).
  Proof.
    intros (Hr & Hh & _) Hb. rewrite forallb_forall in Hb. pose proof (C90_is_the_system _ _ _ _ _ _ _ _ _ _ _ _ _ _ Hr) as Hy.
    assert (forall l l1 s1, happened K X U parse cf s0 (hsys K tr.*1) l l1 s1 -> calmb (l, s1) = true) as H1 by (intros l l1 s1 Hx; by apply Hb, elem_of_list_In, (Hh _ l1)).
    assert (forall l, l ∈ hsys K tr.*1 -> exists s1, calmb (l, s1) = true) as H2.
    { intros l Hin. destruct (elem_happened _ _ _ _ _ _ _ _ _ _ _ _ _ _ Hy Hin) as (l1 & s1 & Hx). exists s1. by eapply H1. }
    clear Hb Hh. split; [split_and!|].
    - intros d i etag b l1 s1 Hx. apply H1 in Hx. cbn in Hx. destruct (y_fetch K s1 !! d) as [f|]; [|done]. destruct (fs_calls f !! i) as [[| |retry tp [] t| |]|] eqn:E; try done. by exists f, retry, tp, t.
    - intros d i etag Hin. apply H2 in Hin as [s1 Hx]. done.
    - intros d i etag sp sd Hin Hd Hp. apply H2 in Hin as [s1 Hx]. cbn in Hx. rewrite Hd in Hx. destruct Hp as [Hp|(pd & Hp & Hn)]; rewrite Hp in Hx; [done|]. apply policies_of_null in Hn. by rewrite Hn in Hx.
    - intros i etag b t l1 s1 Hx. apply H1 in Hx. cbn in Hx. destruct (p_tasks (y_keys K s1) !! i) as [[|[c|]| | | |]|]; try done. by exists c.
    - intros i etag t Hin. apply H2 in Hin as [s1 Hx]. done.
    - intros i etag kl t Hin Hn. apply H2 in Hin as [s1 Hx]. cbn in Hx. rewrite forallb_forall in Hx. apply elem_of_list_In in Hn. by specialize (Hx _ Hn).
    - intros i q Hin Hd. apply H2 in Hin as [s1 Hx]. cbn in Hx. unfold disabled in Hd. unfold disabledb in Hx. destruct (q_mode q); by rewrite Hd in Hx.
  Qed.
  Definition crashedb (h : hst K) : bool :=
    existsb (fun t => match t with CDone _ Panic => true | _ => false end) (z_tasks (y_auth K (h_sys K h))) ||
    existsb (fun f => existsb (fun c => match c with FPanic => true | FRet sp e => match fetched_policy sp e with Panic => true | _ => false end | _ => false end) (fs_calls f)) (y_fetch K (h_sys K h)) ||
    existsb (fun t => match t with PPanic => true | _ => false end) (p_tasks (y_keys K (h_sys K h))) || h_down K h.
  Lemma crashedb_sound h : crashedb h = true -> crashed K h.
  Proof.
    unfold crashedb. rewrite !orb_true_iff, !existsb_exists. intros [[[(t & Hin & Ht)|(f & Hin & Hf)]|(t & Hin & Ht)]|Hd]; [left..|by right].
    - apply elem_of_list_In, elem_of_list_lookup in Hin as [i Hi]. destruct t as [| | | | | |q [| |]]; try done. left. by exists i, q.
    - apply elem_of_list_In, elem_of_list_lookup in Hin as [d Hd]. apply existsb_exists in Hf as (c & Hc & Hx). apply elem_of_list_In, elem_of_list_lookup in Hc as [j Hj].
      destruct c as [| | |sp e|]; try done; [right; right; left; exists d, f, j, sp, e; split_and!; try done; by destruct (fetched_policy sp e)|right; left; by exists d, f, j].
    - apply elem_of_list_In, elem_of_list_lookup in Hin as [i Hi]. destruct t; try done. right; right; right; left. by exists i.
  Qed.
  Lemma crashedb_complete ls h : hrun K X U parse cf doms (hinit K s0) ls h -> crashed K h -> crashedb h = true.
  Proof.
    intros Hr Hx. unfold crashedb. rewrite !orb_true_iff, !existsb_exists. destruct Hx as [[(i & q & Hi)|[(d & f & c & Hf & Hc)|[(d & f & c & sp & e & Hf & Hc & Hp)|[(i & Hi)|(i & k & Hk & Hp)]]]]|Hd]; [| | | | |by right].
    - left; left; left. exists (CDone q Panic). split; [|done]. apply elem_of_list_In. by eapply elem_of_list_lookup_2.
    - left; left; right. exists f. split; [apply elem_of_list_In; by eapply elem_of_list_lookup_2|]. apply existsb_exists. exists FPanic. split; [apply elem_of_list_In; by eapply elem_of_list_lookup_2|done].
    - left; left; right. exists f. split; [apply elem_of_list_In; by eapply elem_of_list_lookup_2|]. apply existsb_exists. exists (FRet sp e). split; [apply elem_of_list_In; by eapply elem_of_list_lookup_2|]. by rewrite Hp.
    - left; right. exists PPanic. split; [apply elem_of_list_In; by eapply elem_of_list_lookup_2|done].
    - destruct (check_calm _ _ _ _ _ _ _ _ _ _ _ _ _ _ _ (C90_is_the_system _ _ _ _ _ _ _ _ _ _ _ _ _ _ Hr) Hk). congruence.
  Qed.
End exec.

Section example.
  Import Prop_PubKey Prop_Fetcher Prop_Authorizer Prop_Access.
  (** A policy is loaded, a request is granted, Athenz answers a policy request and a key request with 304, the policy
      expires and the hook starts: the premises of [C101_stays_up] hold. *)
  Definition ccmds : list (@hcmd unit) :=
    map XC (keys_cmds 0 (B "ZTSKEY") ++ keys_cmds 1 (B "ZMSKEY") ++
      [DSend 0 0; DReply 0 0 (Response 200 (B "a") (Doc (pol1 (B "dom") wdoc (61 * second)))); DSpawn 0; DTake 0 0 0] ++ replicate 5 (DWork 0 0) ++ [DFinish 0] ++
      wcall 0 8 3 3 (rq (B "/x") []) ++ [DStore 0; DSend 0 1; DReply 0 1 (Response 304 [] BadBody); DKey (PBegin 2 (50 * second)); DKey (PResp 2 (Response 304 [] BadBody) (50 * second)); DTick (62 * second)]) ++
    [XFind 1 (B "dom:role.r1"); XTake 1 (B "dom:role.r1"); XRun (B "dom:role.r1")].
  Example C101_nonvacuous : exists ls s q p, Hooked.hrun K1 X0 U0 parse1 wcf [B "dom"] (hinit K1 winit) ls s /\
    polite K1 X0 U0 parse1 wcf t0 2 2 0 1 (fun _ => [false; false]) (hsys K1 ls) /\ well_used K1 wcf (hsys K1 ls) /\
    (forall k dom, role_of_policy K1 X0 U0 parse1 wcf t0 2 2 0 1 (fun _ => [false; false]) (hsys K1 ls) k -> begins_with k dom -> dom ∈ [B "dom"]) /\
    z_tasks (y_auth K1 (h_sys K1 s)) !! 0%nat = Some (CDone q (Ok p)) /\ h_jobs K1 s <> [] /\
    YReply K1 0 1 (Response 304 [] BadBody) ∈ hsys K1 ls /\ YKey K1 (PResp 2 (Response 304 [] BadBody) (50 * second)) ∈ hsys K1 ls.
  Proof.
    assert (match hdrive K1 X0 U0 parse1 wcf [B "dom"] ccmds [] (hinit K1 winit) with
      | Some (tr, s) => Some (forallb (calmb K1 wcf) (strace K1 tr), granted_at 0 (h_sys K1 s), (replied (hsys K1 tr.*1), h_jobs K1 s,
          existsb (fun l => match l with YReply _ 0%nat 1%nat (Response 304 [] BadBody) => true | _ => false end) (hsys K1 tr.*1) &&
          existsb (fun l => match l with YKey _ (PResp 2%nat (Response 304 [] BadBody) t) => t =? 50 * second | _ => false end) (hsys K1 tr.*1))) | None => None end
      = Some (true, Some (rq (B "/x") [], [B "r1"], B "dom"), ([pol1 (B "dom") wdoc (61 * second)], [(1%nat, 0%nat, 0%nat)], true))) as H by (vm_compute; reflexivity).
    destruct (hdrive _ _ _ _ _ _ ccmds _ _) as [[tr s]|] eqn:E; [|discriminate H]. apply hdrive_run in E.
    assert (forall A C D (a a' : A) (b b' : C) (c c' : D), Some (a, b, c) = Some (a', b', c') -> a = a' /\ b = b' /\ c = c') as Hinj3.
    { clear. intros. injection H as -> -> ->. done. }
    assert (forall A C D (a a' : A) (b b' : C) (c c' : D), (a, b, c) = (a', b', c') -> a = a' /\ b = b' /\ c = c') as Hinj.
    { clear. intros. injection H as -> -> ->. done. }
    apply Hinj3 in H as (Hc & Hg & H). apply Hinj in H as (Hrep & Hj & Hx). apply andb_true_iff in Hx as [Hx1 Hx2]. unfold granted_at in Hg.
    destruct (z_tasks (y_auth K1 (h_sys K1 s)) !! 0%nat) as [[| | | | | |q [p| |]]|] eqn:E0; try discriminate Hg.
    destruct (calm_sound _ _ _ _ _ _ _ _ _ _ _ _ _ _ E Hc) as [Hp Hw]. exists tr.*1, s, q, p. split; [apply E|]. split; [exact Hp|]. split; [split; [exact Hw|]|split; [|split; [exact E0|split; [by rewrite Hj|split]]]].
    - intros tr' o dom act res query Ht. cbn in Ht. injection Ht as <-. unfold tr1. repeat case_match; discriminate.
    - intros k dom (d & sp & exp & doc & pol & r & Hd & (sd & pd & Hsd & _ & Hpd & Hdoc) & Hpol & Hr & <-) Hb. apply downloaded_replied in Hd. rewrite Hrep in Hd. apply elem_of_list_singleton in Hd as ->.
      cbn in Hsd. injection Hsd as <-. cbn in Hpd. injection Hpd as <-. assert (doc = wdoc) as -> by (apply written_inj; exact (eq_sym Hdoc)). unfold wdoc in Hpol. apply elem_of_list_singleton in Hpol as ->.
      apply hook_domain_spec in Hb. rewrite !elem_of_cons, elem_of_nil in Hr. destruct Hr as [->|[->|[]]]; cbn [r_role] in Hb; vm_compute in Hb; subst dom; left.
    - apply existsb_exists in Hx1 as (l & Hl & Hx). apply elem_of_list_In in Hl. destruct l as [| | | |d i r| | | | | | |]; try discriminate Hx. destruct d; [|discriminate Hx]. destruct i as [|[|]]; try discriminate Hx.
      destruct r as [|st et b]; [discriminate Hx|]. destruct (Z.eqb_spec st 304) as [->|Hne]; [|exfalso; revert Hx Hne; clear; intros Hx Hne; repeat case_match; congruence]. destruct et; [|discriminate Hx]. destruct b; [exact Hl|discriminate Hx..].
    - apply existsb_exists in Hx2 as (l & Hl & Hx). apply elem_of_list_In in Hl. destruct l as [|l| | | | | | | | | |]; try discriminate Hx. destruct l as [|i r t| | |]; try discriminate Hx. destruct i as [|[|[|]]]; try discriminate Hx.
      destruct r as [|st et b]; [discriminate Hx|]. destruct (Z.eqb_spec st 304) as [->|Hne]; [|exfalso; revert Hx Hne; clear; intros Hx Hne; repeat case_match; congruence]. destruct et; [|discriminate Hx]. destruct b; [|discriminate Hx..]. apply Z.eqb_eq in Hx as ->. exact Hl.
  Qed.

  (** Each of the causes does occur: one crashing execution for each. *)
  Definition nullpol : signed_policy := SignedPolicy (Some (SignedData (Some (60 * second)) (B "0") (B "ZMSKEYnull") None)) (B "0") (B "ZTSKEYspd0ZMSKEYnull").
  Definition nullin (l : list (option (list (option raw)))) : signed_policy :=
    SignedPolicy (Some (SignedData (Some (60 * second)) (B "0") (B "ZMSKEYpddom") (Some (PolicyData (B "dom") l)))) (B "0") (B "ZTSKEYspd0ZMSKEYpddom").
  Definition kcmds : list (@cmd unit) := keys_cmds 0 (B "ZTSKEY") ++ keys_cmds 1 (B "ZMSKEY").
  Definition no_roles : @sconf unit := SConf (ZConf true None (B "/p") (60 * second) false true (AConf false 0 0 false ∅)) pcf1 (JConf (B "https://zts/keys") []) [cf1].
  Definition bad_trans : @sconf unit := SConf (ZConf true (Some (fun _ _ _ _ _ => Panic)) (B "/p") (60 * second) true true (AConf false 0 0 false ∅)) pcf1 (JConf (B "https://zts/keys") []) [cf1].
  Definition crashes : list (@sconf unit * list (@hcmd unit) * @hcmd unit) :=
    [ (wcf, map XC [DSend 0 0], XC (DReply 0 0 (Response 304 [] BadBody)));
      (wcf, map XC [DSend 0 0], XC (DReply 0 0 (Response 200 [] NullBody)));
      (wcf, map XC (kcmds ++ [DSend 0 0]), XC (DReply 0 0 (Response 200 [] (Doc nullpol))));
      (wcf, map XC (kcmds ++ [DSend 0 0]), XC (DReply 0 0 (Response 200 [] (Doc (nullin [None])))));
      (wcf, map XC (kcmds ++ [DSend 0 0]), XC (DReply 0 0 (Response 200 [] (Doc (nullin (written wdoc ++ [Some [None]]))))));
      (wcf, map XC [DKey (PBegin 0 t0)], XC (DKey (PResp 0 (Response 304 [] BadBody) t0)));
      (wcf, map XC [DKey (PBegin 0 t0)], XC (DKey (PResp 0 (Response 200 [] NullBody) t0)));
      (wcf, map XC [DKey (PBegin 0 t0)], XC (DKey (PResp 0 (Response 200 [] (Doc [Some (B "0", B "ZTSKEY"); None])) t0)));
      (no_roles, map XC (kcmds ++ [DCall 0 (rq (B "/x") []); DLook 0]), XC (DParse 0));
      (bad_trans, map XC (kcmds ++ [DCall 0 (rq (B "/x") []); DLook 0; DParse 0]), XC (DTrans 0 tt));
      (wcf, xload odoc 5 ++ [XC (DTick (61 * second)); XFind 1 (B "other:role.r9"); XTake 1 (B "other:role.r9")], XRun (B "other:role.r9")) ].
  Example C101_each_cause_occurs : Forall (fun '(cf, cs, c) => exists tr s l s',
    hdrive K1 X0 U0 parse1 cf [B "dom"] cs [] (hinit K1 (yinit K1 cf t0 2 2 0 1 (fun _ => [false; false]))) = Some (tr, s) /\ hexec K1 X0 U0 parse1 cf [B "dom"] c s = Some (l, s') /\
    Hooked.hrun K1 X0 U0 parse1 cf [B "dom"] (hinit K1 (yinit K1 cf t0 2 2 0 1 (fun _ => [false; false]))) tr.*1 s /\ ~ crashed K1 s /\
    Hooked.hstep K1 X0 U0 parse1 cf [B "dom"] l s s' /\ crashed K1 s') crashes.
  Proof.
    assert (forallb (fun '(cf, cs, c) => match hdrive K1 X0 U0 parse1 cf [B "dom"] cs [] (hinit K1 (yinit K1 cf t0 2 2 0 1 (fun _ => [false; false]))) with
      | Some (_, s) => match hexec K1 X0 U0 parse1 cf [B "dom"] c s with Some (_, s') => negb (crashedb K1 s) && crashedb K1 s' | None => false end | None => false end) crashes = true) as H by (vm_compute; reflexivity).
    rewrite forallb_forall in H. apply Forall_forall. intros [[cf cs] c] Hcs. specialize (H _ (proj1 (elem_of_list_In _ _) Hcs)). cbn beta iota in H. clear Hcs.
    destruct (hdrive _ _ _ _ _ _ cs _ _) as [[tr s]|] eqn:E; [|discriminate H]. destruct (hexec _ _ _ _ _ _ c s) as [[l s']|] eqn:E2; [|discriminate H].
    apply andb_true_iff in H as [H1 H2]. exists tr, s, l, s'. split; [reflexivity|]. split; [exact E2|]. pose proof (hdrive_run _ _ _ _ _ _ _ _ _ _ _ _ _ _ _ E) as (Hr & _).
    split; [exact Hr|]. split; [|split; [by apply (hexec_sound _ _ _ _ _ _ c)|by apply crashedb_sound]]. intros Hx. apply (crashedb_complete _ _ _ _ _ _ _ _ _ _ _ _ _ _ Hr) in Hx. by rewrite Hx in H1.
  Qed.
End example.

Print Assumptions C101_panic_iff.
Print Assumptions C101_hook_iff.
Print Assumptions C101_crash_iff.
Print Assumptions C101_checks_never_panic.
Print Assumptions C101_stays_up.
Print Assumptions C101_nonvacuous.
Print Assumptions C101_each_cause_occurs.
