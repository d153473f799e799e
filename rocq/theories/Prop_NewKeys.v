(** * Property C97: new keys are in force within a bound *)
From Verif Require Import Prop_Jwk Prop_Access Prop_System Prop_Revoke Prop_Timed Timed Joint Prop_Latency SystemFacts PubKeyFacts Prop_Entitled.
From Verif Require Import Prop_Role RoleProofs.
From Verif Require Import Running Prop_KeyLatency Prop_KeyRevoke Prop_PubKey Prop_Grant.
From Verif Require Import GoStrings.

(** ** The key daemon *)
Section keys.
  Context {V : Type} (parse : str -> option V) (cf : pconf).
  Notation pst := (@pst V). Notation ptask := (@ptask V).
  Context (id : str) (v : V).

  (** The lists of the environment that arrive contain the key. *)
  Definition lists_key (z : bool) (l : plabel) : Prop :=
    forall i etag kl now, l = PResp i (Response 200 etag (Doc kl)) now -> is_zts i = z -> exists key, last_entry kl id key /\ parse key = Some v.
  Definition phase_has (t : ptask) : Prop :=
    match t with
    | PStore cm todo => cm !! id = Some v /\ (forall w, todo !! id = Some w -> w = v)
    | PSweep cm _ => cm !! id = Some v
    | _ => True
    end.
  Lemma moves_has z l s t t' (m m' : gmap str V) : lists_key z l -> is_zts (task_of l) = z -> phase_has t -> moves parse cf l s t t' m m' ->
    phase_has t' /\ (m !! id = Some v -> m' !! id = Some v).
  Proof.
    intros Hin Hz HT Hmv. destruct l as [i now|i r now|i k|i k|i]; cbn [moves task_of] in *.
    - destruct Hmv as (-> & -> & ->). split; [by destruct (pc_url_ok cf)|done].
    - destruct Hmv as (c & -> & Ht' & ->). split; [|done]. symmetry in Ht'. apply respond_doc in Ht'.
      destruct t' as [| |cm todo| | |]; try done. destruct Ht' as (-> & etag & l & -> & Hd).
      assert (cm !! id = Some v) as Hp; [|split; [done|intros w Hw; rewrite Hp in Hw; by injection Hw]].
      apply (decode_keys_spec _ _ _ Hd). by eapply Hin.
    - destruct Hmv as (cm & todo & w & -> & Hk & -> & ->). destruct HT as [H1 H2]. split.
      + split; [done|]. intros w' Hv. apply lookup_delete_Some in Hv as [_ Hv]. by apply H2.
      + intros Hm. destruct (decide (k = id)) as [->|Hne]; [rewrite lookup_insert; f_equal; by apply H2|by rewrite lookup_insert_ne].
    - destruct Hmv as (cm & todo & -> & Hk & -> & ->). split; [done|]. cbn in HT. intros Hm. destruct (cm !! k) eqn:E; [done|].
      rewrite lookup_delete_ne; [done|]. intros ->. by rewrite HT in E.
    - destruct Hmv as (-> & [(cm & -> & ->)|(cm & -> & ->)]); (split; [|done]); [by destruct HT|done].
  Qed.
  (** The run will put the key, or has. *)
  Definition puts (t : ptask) (m : gmap str V) : Prop :=
    match t with
    | PStore cm todo => todo !! id = Some v \/ m !! id = Some v
    | PSweep _ _ | PDone None => m !! id = Some v
    | _ => True
    end.
  Lemma puts_other t (m m' : gmap str V) : (m !! id = Some v -> m' !! id = Some v) -> puts t m -> puts t m'.
  Proof. intros Hm. destruct t as [| |cm todo|cm todo|[e|]|]; cbn; tauto. Qed.
  Lemma puts_moves z l s t t' (m m' : gmap str V) : lists_key z l -> is_zts (task_of l) = z -> phase_has t -> underway t ->
    moves parse cf l s t t' m m' -> puts t m -> puts t' m' /\ underway t'.
  Proof.
    intros Hin Hz HT Hu Hmv HC. pose proof (moves_has _ _ _ _ _ _ _ Hin Hz HT Hmv) as [_ Hkeep].
    destruct l as [i now|i r now|i k|i k|i]; cbn [moves task_of] in *.
    - by destruct Hmv as (-> & _).
    - by destruct Hmv as (c & -> & _).
    - destruct Hmv as (cm & todo & w & -> & Hk & -> & ->). destruct HT as [H1 H2]. split; [|done]. cbn in HC |- *.
      destruct (decide (k = id)) as [->|Hne]; [right; rewrite lookup_insert; f_equal; by apply H2|].
      rewrite lookup_delete_ne, lookup_insert_ne by done. done.
    - destruct Hmv as (cm & todo & -> & Hk & -> & ->). split; [|done]. cbn in HC |- *. by apply Hkeep.
    - destruct Hmv as (-> & [(cm & -> & ->)|(cm & -> & ->)]); (split; [|done]); cbn in HC |- *; [|done].
      rewrite lookup_empty in HC. by destruct HC.
  Qed.
  Lemma phases_have z ls (s s' : pst) : prun parse cf ls s = Some s' -> (forall l, l ∈ ls -> lists_key z l) ->
    (forall i t, is_zts i = z -> p_tasks s !! i = Some t -> phase_has t) ->
    (forall i t, is_zts i = z -> p_tasks s' !! i = Some t -> phase_has t).
  Proof.
    intros H HP HT. apply (prun_env_inv parse cf z phase_has (fun _ => True) (lists_key z) ls s s'); try done.
    intros l s0 t t' m m' H1 H2 H3 _ H4. split; [|done]. by eapply moves_has.
  Qed.
  Lemma key_stays z ls (s s' : pst) : prun parse cf ls s = Some s' -> (forall l, l ∈ ls -> lists_key z l) ->
    (forall i t, is_zts i = z -> p_tasks s !! i = Some t -> phase_has t) -> keys_at z s !! id = Some v -> keys_at z s' !! id = Some v.
  Proof.
    intros H HP HT HM. apply (prun_env_inv parse cf z phase_has (fun m => m !! id = Some v) (lists_key z) ls s s'); try done.
    intros l s0 t t' m m' H1 H2 H3 H4 H5. destruct (moves_has _ _ _ _ _ _ _ H1 H2 H3 H5) as [Hp Hm]. split; [done|]. by apply Hm.
  Qed.
  Lemma puts_run z i ls (s s' : pst) t : prun parse cf ls s = Some s' -> (forall l, l ∈ ls -> lists_key z l) ->
    (forall i t, is_zts i = z -> p_tasks s !! i = Some t -> phase_has t) ->
    is_zts i = z -> p_tasks s !! i = Some t -> underway t -> puts t (keys_at z s) ->
    exists t', p_tasks s' !! i = Some t' /\ underway t' /\ puts t' (keys_at z s').
  Proof.
    revert s t. induction ls as [|l ls IH]; intros s t H HP HT Hz Ht Hu HC; cbn [prun] in H; [injection H as <-; eauto|].
    destruct (pstep parse cf l s) as [s1|] eqn:E; [|done].
    assert (forall i t, is_zts i = z -> p_tasks s1 !! i = Some t -> phase_has t) as HT1.
    { apply (phases_have z [l] s s1); [cbn [prun]; by rewrite E| |done]. intros l' Hl. apply HP. apply elem_of_list_singleton in Hl as ->. left. }
    pose proof E as E0. apply pstep_inv in E as (t0 & t1 & Ht0 & Htasks & Hm & Hother & _).
    assert (forall l', l' ∈ ls -> lists_key z l') as HP' by (intros; apply HP; by right).
    assert (lists_key z l) as HPl by (apply HP; left).
    destruct (decide (task_of l = i)) as [<-|Hne].
    - rewrite Ht in Ht0. injection Ht0 as <-. rewrite Hz in Hm.
      destruct (puts_moves z l s t t1 _ _ HPl Hz (HT _ _ Hz Ht) Hu Hm HC) as [HC1 Hu1].
      eapply (IH s1 t1); try done. rewrite Htasks. apply list_lookup_insert. by apply lookup_lt_Some in Ht.
    - eapply (IH s1 t); try done; [by rewrite Htasks, list_lookup_insert_ne by done|].
      destruct (decide (is_zts (task_of l) = z)) as [Hzl|Hzl].
      + rewrite Hzl in Hm. eapply puts_other; [|exact HC]. by apply (moves_has z l s t0 t1 _ _ HPl Hzl (HT _ _ Hzl Ht0) Hm).
      + assert (z = negb (is_zts (task_of l))) as Hz' by (destruct z, (is_zts (task_of l)); done). rewrite Hz', Hother, <- Hz'. done.
  Qed.

  (** After a state in which no run is applying an older list, once some run has received a list and
      ended, a key that all lists received since contain is in force; and so ever after. *)
  Lemma key_in_force_since z ls1 i etag kl now ls2 ls3 (s s2 s3 : pst) :
    (forall i t, is_zts i = z -> p_tasks s !! i = Some t -> applying t = false) ->
    prun parse cf (ls1 ++ PResp i (Response 200 etag (Doc kl)) now :: ls2) s = Some s2 -> is_zts i = z ->
    p_tasks s2 !! i = Some (PDone None) -> prun parse cf ls3 s2 = Some s3 ->
    (forall l, l ∈ (ls1 ++ PResp i (Response 200 etag (Doc kl)) now :: ls2) ++ ls3 -> lists_key z l) -> keys_at z s3 !! id = Some v.
  Proof.
    intros Hset H2 Hz Hdone H3. set (ls := (ls1 ++ PResp i (Response 200 etag (Doc kl)) now :: ls2) ++ ls3). intros HP.
    assert (forall i t, is_zts i = z -> p_tasks s !! i = Some t -> phase_has t) as HT by (intros i' t' Hz' Ht'; specialize (Hset _ _ Hz' Ht'); by destruct t').
    pose proof H2 as H2'. rewrite prun_app in H2'. destruct (prun parse cf ls1 s) as [sa|] eqn:Ea; [|done]. cbn [prun] in H2'.
    destruct (pstep parse cf (PResp i (Response 200 etag (Doc kl)) now) sa) as [sb|] eqn:Eb; [|done].
    assert (forall i t, is_zts i = z -> p_tasks s2 !! i = Some t -> phase_has t) as HT2.
    { eapply phases_have; [exact H2| |done]. intros l Hl. apply HP. apply elem_of_app. by left. }
    assert (forall i t, is_zts i = z -> p_tasks sb !! i = Some t -> phase_has t) as HTb.
    { apply (phases_have z (ls1 ++ [PResp i (Response 200 etag (Doc kl)) now]) s sb); [rewrite prun_app, Ea; cbn [prun]; by rewrite Eb| |done].
      intros l Hl. apply HP. unfold ls. rewrite !elem_of_app, elem_of_cons in *. rewrite elem_of_nil in Hl. tauto. }
    pose proof Eb as Eb0. apply pstep_inv in Eb as (t & t' & Ht & Htasks & (c & -> & Ht' & _) & _). cbn [task_of] in *.
    assert (p_tasks sb !! i = Some t') as Hti by (rewrite Htasks; apply list_lookup_insert; by apply lookup_lt_Some in Ht).
    assert (underway t' /\ puts t' (keys_at z sb)) as [Hu HC].
    { specialize (HTb _ _ Hz Hti). destruct t' as [|c'|cm todo|cm todo|[e|]|].
      1,2,4: by symmetry in Ht'; apply respond_doc in Ht'.
      - symmetry in Ht'. apply respond_doc in Ht' as (-> & _). split; [done|]. left. by destruct HTb.
      - exfalso. pose proof (failure_is_final parse cf _ _ _ _ _ H2' Hti) as Hx. by rewrite Hdone in Hx.
      - exfalso. cbn in Ht'. by destruct (decode_keys parse kl ∅).
      - exfalso. clear -H2' Hti Hdone. revert sb H2' Hti. induction ls2 as [|l ls2 IH]; intros sb H2' Hti; cbn [prun] in H2'; [injection H2' as ->; by rewrite Hdone in Hti|].
        destruct (pstep parse cf l sb) as [sc|] eqn:E; [|done]. apply (IH sc); [done|]. apply pstep_inv in E as (t & t' & Ht & Htasks & Hm & _). rewrite Htasks.
        rewrite list_lookup_insert_ne; [done|]. intros Heq. rewrite Heq, Hti in Ht. injection Ht as <-.
        destruct l; cbn [moves] in Hm; naive_solver. }
    destruct (puts_run z i ls2 sb s2 t' H2') as (t2 & Ht2 & _ & HC2); try done.
    { intros l Hl. apply HP. unfold ls. rewrite !elem_of_app, elem_of_cons. tauto. }
    rewrite Hdone in Ht2. injection Ht2 as <-. eapply key_stays; [exact H3| |exact HT2|exact HC2].
    intros l Hl. apply HP. apply elem_of_app. by right.
  Qed.
End keys.

Section claims.
  Context (K : crypto) (X : jwt_ext) {O : Type} (U : unicode) (parse : str -> option (verifier K)).
  Context (cf : @sconf O) (t0 : time) (n nk nj nu : nat) (calls : nat -> list bool).
  Notation s0 := (yinit K cf t0 n nk nj nu calls).
  Notation yrun := (yrun K X U parse cf s0).
  Notation happened := (happened K X U parse cf s0).
  Notation passed := (passed K X U parse cf s0).
  Notation served_at := (served_at K X U parse cf t0 n nk nj nu calls).
  Notation own_calls := (own_calls K X U parse cf t0 n nk nj nu calls).
  Notation valid_token := (valid_token K X cf).
  Notation ylabel := (@ylabel K O).
  Notation now := (now K).

  (** ** Specification *)
  (** Every list of the environment received during [x] has [v] as the last entry for [id]. *)
  Definition key_listed (x : list ylabel) (z : bool) (id : str) (v : verifier K) : Prop :=
    forall i etag kl t, YKey K (PResp i (Response 200 etag (Doc kl)) t) ∈ x -> Nat.even i = z -> exists key, last_entry kl id key /\ parse key = Some v.
  (** Every key set downloaded from [u] during [x] has [k] as the first entry for [kid]. *)
  Definition set_listed (x : list ylabel) (u kid : str) (k : key) : Prop :=
    forall i set, YJwk K (JFetch i u (Some set)) ∈ x -> first_entry set kid k.
  (** The token of [q] is good at time [u], and the key it names is in everything received during [x]. *)
  Definition new_role (x : list ylabel) (u : time) (q : request) (p : principal) : Prop :=
    exists fs sig v, q_tok q = token_text fs sig /\ well_formed fs /\ times_ok fs /\
      u <= time_of zero_time (last_value fs (B "e")) /\
      key_listed x true (default [] (last_value fs (B "k"))) v /\
      vfy K v (signed_text fs) (default sig (last_value fs (B "s"))) = true /\
      let t := token_of fs sig in
      p = Principal (rt_principal t) (rt_roles t) (rt_domain t) (unix_of (rt_time t)) (unix_of (rt_expiry t)) [] None.
  Definition new_access (x : list ylabel) (u : time) (q : request) (p : principal) : Prop :=
    exists c h kid jku k, claims_of X (q_tok q) c /\ dates_ok u c /\ header_of X (q_tok q) h /\
      h !! B "kid" = Some (JStr kid) /\ kid <> [] /\ (h !! B "jku" = Some (JStr jku) \/ h !! B "jku" = None /\ jku = []) /\
      (jku = [] \/ jku = j_athenz (s_j cf) \/ jku ∈ j_urls (s_j cf)) /\ set_listed x (effective_url (s_j cf) jku) kid k /\
      signed_by X (q_tok q) h k /\
      (a_verify_client (z_aconf (s_z cf)) = true ->
         exists crt ids, q_cert q = Some crt /\ a_clients (z_aconf (s_z cf)) !! c_cn crt = Some ids /\ cl_client c ∈ ids) /\
      (a_bound (z_aconf (s_z cf)) = true -> exists crt, q_cert q = Some crt /\ bound_to X (z_aconf (s_z cf)) crt c) /\
      p = Principal (cl_sub c) (cl_scope c) (cl_aud c) (cl_iat c) (cl_exp c) [] (Some (cl_client c)).
  Definition new_token (x : list ylabel) (u : time) (q : request) (p : principal) : Prop :=
    match q_mode q with
    | MRole => z_role (s_z cf) = true /\ new_role x u q p
    | MAccess => z_access (s_z cf) = true /\ new_access x u q p
    end.

  (** ** Without the clock *)
  (** After a state in which no run is applying an older list of public keys, once a run has received a
      list and ended without error, a key that all lists received since contain is in force, and stays. *)
  Theorem C97_listed_key_in_force lr sr x s1 y s2 z id v : yrun lr sr -> settled K sr z ->
    yrun (lr ++ x) s1 -> refreshed K x s1 z -> yrun ((lr ++ x) ++ y) s2 -> key_listed (x ++ y) z id v ->
    get_pub_key (y_keys K s2) (env_of z) id = Some v.
  Proof.
    intros Hr Hset H1 (i & etag & kl & t & Hz & Hin & Hd) H2 Hl.
    apply run_keys in Hr, H1, H2. rewrite keyls_app, prun_app, Hr in H1. rewrite !keyls_app, !prun_app, Hr, H1 in H2.
    apply (elem_of_keyls K nu calls) in Hin. apply elem_of_list_split in Hin as (a & b & Hab). rewrite Hab in H1.
    rewrite Prop_PubKey.get_pub_key_at. eapply (key_in_force_since parse (s_p cf) id v z a i etag kl t b (keyls K y) _ _ _ Hset H1 Hz Hd H2).
    intros l Hin. rewrite <- Hab, <- keyls_app in Hin. apply (elem_of_keyls K nu calls) in Hin. intros i' etag' kl' now' -> Hz'. by eapply Hl.
  Qed.
  (** The same for the JWK sets, once the set of the URL has been downloaded. *)
  Theorem C97_listed_in_sets_in_force lr x y s2 i set kid jku k : kid <> [] -> YJwk K (JFetch i (effective_url (s_j cf) jku) (Some set)) ∈ x ->
    yrun ((lr ++ x) ++ y) s2 -> set_listed (x ++ y) (effective_url (s_j cf) jku) kid k -> get_key (s_j cf) (y_jwk K s2) kid jku = Some k.
  Proof.
    intros Hk Hin H2 Hl. apply run_jwk in H2. apply (C31_key_iff _ _ _ _ _ _ _ H2). split; [done|].
    assert (JFetch i (effective_url (s_j cf) jku) (Some set) ∈ jwks K ((lr ++ x) ++ y)) as Hin'.
    { apply (elem_of_jwks K nu calls). apply elem_of_app. left. apply elem_of_app. by right. }
    pose proof (state_inv _ _ _ _ H2) as [Hinv _]. specialize (Hinv (effective_url (s_j cf) jku)).
    destruct (j_keys (y_jwk K s2) !! effective_url (s_j cf) jku) as [set'|]; [|exfalso; by apply (Hinv i set)].
    exists set'. split; [done|]. rewrite <- app_assoc, jwks_app in Hinv.
    apply (download_since _ _ _ _ i set) in Hinv; [|rewrite jwks_app; apply elem_of_app; left; by apply (elem_of_jwks K nu calls)].
    destruct Hinv as (a & j & b & Heq & _). apply (Hl j). apply (elem_of_jwks K nu calls). rewrite Heq. apply elem_of_app. right. left.
  Qed.

  Context (on : daemon -> bool) (c : daemon -> timing).
  Notation wsysl := (wsysl K).
  Notation healthy := (healthy K c).
  Notation delay := (delay c).
  Section start.
  Context (ls0 : list ylabel) (sb : sys K) (nx0 : per nat) (Hb : yrun ls0 sb).
  Notation world_run := (world_run K X U parse cf on c (wstart K c sb nx0)).

  Lemma listed_part (x y : list ylabel) b id v : (forall l, l ∈ y -> l ∈ x) -> key_listed x b id v -> key_listed y b id v.
  Proof. intros Hs H i etag kl t Hin. apply (H i etag kl t). by apply Hs. Qed.
  Lemma new_keys_from ws w wr sr x t z id v : on DKeys = true -> keys_ready K sb (pick nx0 DKeys) ->
    world_run ws w -> ws = wr ++ x -> world_run wr sr -> now (w_sys K sr) <= t -> healthy DKeys sb ws t -> renewed K parse (wsysl x) z ->
    t + delay DKeys < now (w_sys K w) -> key_listed (wsysl x) z id v ->
    forall l1 s1, passed (ls0 ++ wsysl ws) l1 s1 -> t + delay DKeys < now s1 -> get_pub_key (y_keys K s1) (env_of z) id = Some v.
  Proof.
    intros Hon H0 Hw Ews Hwr Ht Hh Hren Hlate Hl l1 s1 Hp1 Hlate1.
    destruct (fresh_update K X U parse cf t0 n nk nj nu calls on c ls0 sb nx0 Hb DKeys ws w wr sr x t Hon Hw Ews Hwr Ht Hh Hlate) as (a & b & x' & wa & wv & m & -> & Hwa & Hwv & Hcl & Hnx & Hcur & Hout & Hnv).
    destruct (renewal K X U parse cf t0 n nk nj nu calls on c ls0 sb nx0 Hb _ _ _ _ _ _ _ z H0 Hwa Hwv Hcl Hout Hren) as (y1 & y2 & w1 & Ey & Hw1 & Hset & Href).
    assert (world_run_sys' : forall ws w, world_run ws w -> yrun (ls0 ++ wsysl ws) (w_sys K w)) by (intros; by eapply world_run_sys).
    rewrite (app_assoc a), Ey in Ews, Hl. rewrite Ey in Hwv. clear Ey. apply world_run_sys' in Hw1, Hwv. subst ws.
    assert (passed (ls0 ++ wsysl (wr ++ (y1 ++ y2) ++ x')) (ls0 ++ wsysl (wr ++ y1 ++ y2)) (w_sys K wv)) as Hpv.
    { split; [|done]. exists (wsysl x'). by rewrite !(wsysl_app K), !app_assoc. }
    assert (exists l, l1 = (ls0 ++ wsysl (wr ++ y1 ++ y2)) ++ l) as [l ->].
    { destruct (passed_cases K X U parse cf t0 n nk nj nu calls _ _ _ _ _ Hpv Hp1) as [[l ->]|[l El]]; [by eexists|]. exfalso.
      destruct Hp1 as [_ Hr1]. rewrite El in Hwv. pose proof (yrun_clock K X U parse cf s0 _ _ _ _ Hr1 Hwv). unfold Prop_KeyLatency.delay in *. lia. }
    destruct Hp1 as [[rest Erest] Hr1].
    rewrite (app_assoc wr), (wsysl_app K (wr ++ y1)), app_assoc in Hwv, Hr1.
    eapply (C97_listed_key_in_force _ _ _ _ l _ z id v Hw1 Hset Hwv Href Hr1). eapply listed_part; [|exact Hl].
    rewrite !(wsysl_app K), <- !app_assoc in Erest. do 4 apply app_inv_head in Erest. intros e He.
    rewrite !(wsysl_app K), Erest, !elem_of_app in *. tauto.
  Qed.
  Lemma new_sets_from ws w wr sr x t kid jku k : on DJwks = true -> world_run ws w -> ws = wr ++ x -> world_run wr sr -> now (w_sys K sr) <= t -> healthy DJwks sb ws t ->
    t + delay DJwks < now (w_sys K w) -> kid <> [] -> jku = [] \/ jku = j_athenz (s_j cf) \/ jku ∈ j_urls (s_j cf) ->
    set_listed (wsysl x) (effective_url (s_j cf) jku) kid k ->
    forall l1 s1, passed (ls0 ++ wsysl ws) l1 s1 -> t + delay DJwks < now s1 -> get_key (s_j cf) (y_jwk K s1) kid jku = Some k.
  Proof.
    intros Hon Hw Ews Hwr Ht Hh Hlate Hk Hju Hl l1 s1 Hp1 Hlate1.
    destruct (sets_from K X U parse cf t0 n nk nj nu calls on c ls0 sb nx0 Hb ws w wr sr x t Hon Hw Ews Hwr Ht Hh Hlate) as (y & x' & wv & -> & Hwv & Hnv & Href).
    assert (yrun (ls0 ++ wsysl (wr ++ y)) (w_sys K wv)) as Hyv by (by eapply world_run_sys). subst ws.
    assert (passed (ls0 ++ wsysl (wr ++ y ++ x')) (ls0 ++ wsysl (wr ++ y)) (w_sys K wv)) as Hpv.
    { split; [|done]. exists (wsysl x'). by rewrite !(wsysl_app K), !app_assoc. }
    assert (exists l, l1 = (ls0 ++ wsysl (wr ++ y)) ++ l) as [l ->].
    { destruct (passed_cases K X U parse cf t0 n nk nj nu calls _ _ _ _ _ Hpv Hp1) as [[l ->]|[l El]]; [by eexists|]. exfalso.
      destruct Hp1 as [_ Hr1]. rewrite El in Hyv. pose proof (yrun_clock K X U parse cf s0 _ _ _ _ Hr1 Hyv). lia. }
    destruct Hp1 as [[rest Erest] Hr1].
    destruct (Href (effective_url (s_j cf) jku)) as (i & set & Hin).
    { destruct jku as [|a j']; [by left|]. destruct Hju as [?|Hju]; [done|exact Hju]. }
    rewrite (wsysl_app K), app_assoc in Hr1. eapply (C97_listed_in_sets_in_force _ _ _ _ i set kid jku k Hk Hin Hr1).
    intros i' set' Hin'. apply (Hl i'). rewrite !(wsysl_app K), <- !app_assoc in Erest. do 3 apply app_inv_head in Erest.
    rewrite (wsysl_app K), Erest. rewrite !elem_of_app in *. tauto.
  Qed.

  (** ** C97 *)
  (** The public keys.  [wr]: the state when the list is changed at the server; [t]: any later time from
      which on the Updates succeed.  Later than [t] by a refresh period, a turn of the loop and an Update,
      a key that is in all lists received since [wr] is in force. *)
  Theorem C97_new_key_latency ws w wr sr x t z id v : on DKeys = true -> keys_ready K sb (pick nx0 DKeys) ->
    world_run ws w -> ws = wr ++ x -> world_run wr sr -> now (w_sys K sr) <= t -> healthy DKeys sb ws t -> renewed K parse (wsysl x) z ->
    t + delay DKeys < now (w_sys K w) -> key_listed (wsysl x) z id v -> get_pub_key (y_keys K (w_sys K w)) (env_of z) id = Some v.
  Proof.
    intros Hon H0 Hw Ews Hwr Ht Hh Hren Hlate Hl. eapply (new_keys_from ws w wr sr x t z id v); try done.
    split; [exists []; by rewrite app_nil_r|by eapply world_run_sys].
  Qed.
  (** The JWK sets. *)
  Theorem C97_new_key_set_latency ws w wr sr x t kid jku k : on DJwks = true -> world_run ws w -> ws = wr ++ x -> world_run wr sr ->
    now (w_sys K sr) <= t -> healthy DJwks sb ws t -> t + delay DJwks < now (w_sys K w) -> kid <> [] ->
    jku = [] \/ jku = j_athenz (s_j cf) \/ jku ∈ j_urls (s_j cf) ->
    set_listed (wsysl x) (effective_url (s_j cf) jku) kid k -> get_key (s_j cf) (y_jwk K (w_sys K w)) kid jku = Some k.
  Proof.
    intros Hon Hw Ews Hwr Ht Hh Hlate Hk Hju Hl. eapply (new_sets_from ws w wr sr x t kid jku k); try done.
    split; [exists []; by rewrite app_nil_r|by eapply world_run_sys].
  Qed.
  (** Tokens signed by a new key are valid in every state later than the bound. *)
  Theorem C97_new_tokens_are_valid ws w wr sr x t D q p l1 s1 :
    world_run ws w -> ws = wr ++ x -> world_run wr sr -> now (w_sys K sr) <= t ->
    (z_role (s_z cf) = true -> on DKeys = true /\ keys_ready K sb (pick nx0 DKeys) /\ healthy DKeys sb ws t /\ renewed K parse (wsysl x) true /\ delay DKeys <= D) ->
    (z_access (s_z cf) = true -> on DJwks = true /\ healthy DJwks sb ws t /\ delay DJwks <= D) ->
    passed (ls0 ++ wsysl ws) l1 s1 -> t + D < now s1 -> new_token (wsysl x) (now s1) q p -> valid_token s1 q p.
  Proof.
    intros Hw Ews Hwr Ht Hrole Hacc Hp1 Hlate Hnew.
    assert (now s1 <= now (w_sys K w)) as Hclk by (eapply passed_clock; [exact Hp1|by eapply world_run_sys]).
    unfold new_token in Hnew. unfold Prop_Entitled.valid_token. destruct (q_mode q).
    - destruct Hnew as [Hz (fs & sig & v & A1 & A2 & A3 & A4 & A5 & A6 & A7)]. destruct (Hrole Hz) as (B1 & B2 & B3 & B4 & B5). split; [done|].
      exists fs, sig, v. split_and!; try done. eapply (new_keys_from ws w wr sr x t true); try done; lia.
    - destruct Hnew as [Hz (cl & h & kid & jku & k & A1 & A2 & A3 & A4 & A5 & A6 & A7 & A8 & A9 & A10 & A11 & A12)]. destruct (Hacc Hz) as (B1 & B2 & B3). split; [done|].
      exists cl, h, k. split_and!; try done. exists kid, jku. split_and!; try done. eapply (new_sets_from ws w wr sr x t); try done; lia.
  Qed.
  (** A call made later than the bound with a token signed by a new key, for what the new policies
      grant, is accepted. *)
  Theorem C97_new_tokens_get_in ws w wr sr x t D P i q r lc sc : on DPol = true -> uncalled K sb (pick nx0 DPol) ->
    world_run ws w -> ws = wr ++ x -> world_run wr sr -> 0 < t0 ->
    check_untouched K X U parse cf s0 (ls0 ++ wsysl ws) i -> YChk K i EnvCancel ∉ ls0 ++ wsysl ws -> own_calls (ls0 ++ wsysl ws) ->
    healthy DPol sb ws t -> served_at (ls0 ++ wsysl ws) (ls0 ++ wsysl wr) P -> usable U P (now (w_sys K w)) -> now (w_sys K sr) <= t ->
    delay DPol <= D ->
    (z_role (s_z cf) = true -> on DKeys = true /\ keys_ready K sb (pick nx0 DKeys) /\ healthy DKeys sb ws t /\ renewed K parse (wsysl x) true /\ delay DKeys <= D) ->
    (z_access (s_z cf) = true -> on DJwks = true /\ healthy DJwks sb ws t /\ delay DJwks <= D) ->
    happened (ls0 ++ wsysl ws) (YAuth K (ZCall K i q)) lc sc -> t + D < now sc ->
    q_act q <> [] -> q_res q <> [] -> (forall l1 s1, happened (ls0 ++ wsysl ws) (YAuth K (ZParse K i (keys_now K cf s1))) l1 s1 ->
      exists p, new_token (wsysl x) (now s1) q p) ->
    (forall o l1 s1 p, happened (ls0 ++ wsysl ws) (YAuth K (ZParse K i (keys_now K cf s1))) l1 s1 -> valid_token s1 q p -> exists a b, target (s_z cf) o p q = Ok (a, b)) ->
    (forall l2 s2 p a b, passed (ls0 ++ wsysl ws) l2 s2 -> z_tasks (y_auth K s2) !! i = Some (CCheck q p a b) -> grants U cf P p a b) ->
    z_tasks (y_auth K (w_sys K w)) !! i = Some (CDone q r) -> exists p, r = Ok p.
  Proof.
    intros Hon Hnew Hw Ews Hwr Ht0 Hh Hnc Hown Hhe Hsv Hus Ht HD Hrole Hacc Hcall Hlate Ha Hb' Htok Htr Hgr Hi.
    eapply (C96_grant_latency_with_all_daemons K X U parse cf t0 n nk nj nu calls on c ls0 sb nx0 ws w wr sr x t P i q r lc sc); try done; [lia|].
    split; [done|]. split; [done|]. split; [|done]. intros l1 s1 Hp Htk. destruct (Htok _ _ Hp) as [p Hp1]. exists p.
    pose proof (happened_passed K X U parse cf t0 n nk nj nu calls _ _ _ _ Hp) as Hpp.
    eapply (C97_new_tokens_are_valid ws w wr sr x t D q p l1 s1); try done.
    (* the token is looked at after the call was made *)
    assert (yrun (ls0 ++ wsysl ws) (w_sys K w)) as Hr by (by eapply world_run_sys).
    pose proof (happened_passed K X U parse cf t0 n nk nj nu calls _ _ _ _ Hcall) as Hpc.
    destruct (passed_cases K X U parse cf t0 n nk nj nu calls _ _ _ _ _ Hpc Hpp) as [[y ->]|[y El]].
    - destruct Hpc as [_ H1], Hpp as [_ H2]. pose proof (yrun_clock K X U parse cf s0 _ _ _ _ H1 H2). lia.
    - exfalso. destruct (happened_step K X U parse cf t0 n nk nj nu calls _ _ _ _ _ Hr Hcall) as [s3 Hs]. inversion Hs as [? ? ? Hz _| | | | | | | | | | | |]; subst.
      cbn [zstep] in Hz. destruct Hpc as [_ H1], Hpp as [_ H2]. destruct (task_forward K X U parse cf t0 n nk nj nu calls _ _ _ _ _ _ H2 H1 Htk) as (t' & Ht' & Hn' & _).
      rewrite Ht' in Hz. specialize (Hn' ltac:(done)). by destruct t'.
  Qed.
  End start.
End claims.

(** ** An execution with new keys and a new grant
    Three daemons.  At Init the list has key 0, the key set key 1, and the policy allows the request to
    a role nobody has; requests with a role token and an access token signed by newer keys are refused.
    Then, at 153 s, the server changes the list, the key set and the policy.  At 184 s both are accepted. *)
From Verif Require Import SystemExec PolicyCheckers Prop_Window.
From Verif Require Prop_Fetcher Prop_Authorizer.
From Verif Require Import GoStrings.
Section example.
  Import Prop_Fetcher Prop_Authorizer.
  Definition ntok : str := B "d=dom;r=r1,r2;p=user;t=1;e=900;k=1;s=NEWKEYd=dom;r=r1,r2;p=user;t=1;e=900;k=1".
  Definition nfs : list (str * str) := [(B "d", B "dom"); (B "r", B "r1,r2"); (B "p", B "user"); (B "t", B "1"); (B "e", B "900"); (B "k", B "1")].
  Definition nzts : str := B "https://zts/keys".
  Definition nkl : key_list := [Some (B "0", B "ZTSKEY"); Some (B "1", B "NEWKEY")].
  Definition nset : jwk_set key := [(B "2", Some (KRSA (B "K2")))].
  Definition onN (_ : daemon) : bool := true.
  Definition cN (_ : daemon) : timing := cL.
  Notation ncalls := (fun _ : nat => [false; false; false; false]).
  Definition ninit : sys K1 := yinit K1 rcf t0 4 4 4 4 ncalls.
  Definition nxN : per nat := Per 1%nat 1%nat 1%nat.
  Definition njwk (i : nat) (set : jwk_set key) : list (@cmd unit) := map DJwk [JBegin i; JFetch i nzts (Some set); JEnd i].
  Definition nkeys (i : nat) (t : time) : list (@cmd unit) :=
    map DKey [PBegin i t; PResp i (Response 200 (B "new") (Doc nkl)) t; PPut i (B "1"); PPut i (B "0"); PNext i; PVisit i (B "0"); PVisit i (B "1"); PNext i].
  Definition ncmds0 : list (@cmd unit) := keys_cmds 0 (B "ZTSKEY") ++ keys_cmds 1 (B "ZMSKEY") ++ njwk 0 [(B "1", Some (KRSA (B "K1")))] ++ [DSpawn 0] ++ update_cmds 0 0 gpol ++ [DTick (152 * second)].
  Definition nq : request := vr ntok.
  Definition aq : request := va new_acc.
  Definition ncmdsA : list (@wcmd unit) := map WC ([DCall 0 nq; DLook 0; DParse 0] ++ [DCall 1 aq; DLook 1; DParse 1] ++ [DTick (153 * second)]).
  Definition nturn (m : nat) (t : time) (keys : list (@cmd unit)) : list (@wcmd unit) :=
    [WC (DTick t); WL DPol RTick; WL DKeys RTick; WL DJwks RTick; WL DKeys RFire] ++ map WC (keys ++ same_keys (2 * m + 1) t) ++ [WL DPol RFire] ++ map WC [DSpawn m] ++
    [WL DJwks RFire] ++ map WC (njwk m nset) ++ map WC (update_cmds m m rpol2) ++ [WL DJwks (RUpdated None); WL DKeys (RUpdated None); WL DPol (RUpdated None)].
  Definition ncmdsC : list (@wcmd unit) := nturn 1 (162 * second) (nkeys 2 (162 * second)) ++ nturn 2 (172 * second) (same_keys 4 (172 * second)) ++ nturn 3 (182 * second) (same_keys 6 (182 * second)) ++ [WC (DTick (184 * second))].
  Definition ncmdsD : list (@wcmd unit) := map WC (rcall 2 3 6 3 nq ++ rcall 3 3 6 3 aq).
  Notation driveN := (drive K1 X0 U0 parse1 rcf).
  Notation wdriveN := (wdrive K1 X0 U0 parse1 rcf onN cN).
  Notation wrunN sb := (world_run K1 X0 U0 parse1 rcf onN cN (wstart K1 cN sb nxN)).
  Notation nrun := (System.yrun K1 X0 U0 parse1 rcf ninit).
  Notation npassed := (passed K1 X0 U0 parse1 rcf ninit).
  Notation nhappened := (happened K1 X0 U0 parse1 rcf ninit).
  (** No hook, no cancelled check; calls 2 and 3 are made, and their tokens looked at, at 184 s; what they ask. *)
  Definition calmb (T : list (@ylabel K1 unit * sys K1)) : bool :=
    forallb (fun '(l, s) => match l with
      | YAuth _ (ZParse _ (2 | 3) ks) => now K1 s =? 184 * second
      | YHook _ | YChk _ _ EnvCancel => false
      | _ => true end) T.
  Definition askb (i : nat) (s : sys K1) : bool :=
    match z_tasks (y_auth K1 s) !! i with
    | Some (CCheck _ p a b) => bool_decide (pr_roles p = [B "r1"; B "r2"] /\ pr_domain p = B "dom" /\ a = B "get" /\ b = B "/p/a")
    | _ => true end.
  (** The lists and key sets received. *)
  Definition newb (x : list (@ylabel K1 unit)) : bool :=
    forallb (fun l => match l with
      | YKey _ (PResp i (Response status _ (Doc kl)) _) => negb ((status =? 200) && Nat.even i) || bool_decide (kl = nkl)
      | YJwk _ (JFetch _ u (Some set)) => negb (bool_decide (u = nzts)) || match set with [(k, Some (KRSA r))] => bool_decide (k = B "2" /\ r = B "K2") | _ => false end
      | _ => true end) x.
  Lemma newb_keys x : newb x = true -> key_listed K1 parse1 x true (B "1") (B "NEWKEY").
  Proof.
    intros H i etag kl t Hin Hz. unfold newb in H. rewrite forallb_forall in H. apply elem_of_list_In, H in Hin. cbn in Hin. rewrite Hz in Hin. apply bool_decide_eq_true in Hin as ->.
    exists (B "NEWKEY"). split; [|done]. exists [Some (B "0", B "ZTSKEY")], []. split; [done|]. intros k Hk. by apply elem_of_nil in Hk.
  Qed.
  Lemma newb_sets x : newb x = true -> set_listed K1 x nzts (B "2") (KRSA (B "K2")).
  Proof.
    intros H i set Hin. unfold newb in H. rewrite forallb_forall in H. apply elem_of_list_In, H in Hin. cbn [negb orb] in Hin. rewrite bool_decide_eq_true_2 in Hin by done. cbn [negb orb] in Hin.
    destruct set as [|[k [[]|]] [|]]; try discriminate Hin. apply bool_decide_eq_true in Hin as [-> ->]. exists [], []. split; [done|]. intros y Hy. by apply elem_of_nil in Hy.
  Qed.
  Lemma nq_new x : newb x = true -> exists p, new_token K1 X0 parse1 rcf x (184 * second) nq p.
  Proof.
    intros H. eexists. split; [done|]. exists nfs, (B "NEWKEYd=dom;r=r1,r2;p=user;t=1;e=900;k=1"), (B "NEWKEY").
    split; [vm_compute; reflexivity|]. split; [split; [done|]; split|].
    - intros k v Hk. unfold nfs in Hk. rewrite !elem_of_cons, elem_of_nil in Hk.
      repeat (destruct Hk as [Hk|Hk]; [injection Hk as -> ->; split_and!; apply (bool_decide_unpack _); vm_compute; exact I|]). done.
    - intros k v Hk. unfold nfs in Hk. cbn [tail] in Hk. rewrite !elem_of_cons, elem_of_nil in Hk. repeat (destruct Hk as [Hk|Hk]; [injection Hk as -> _; discriminate|]). done.
    - split.
      + intros k v Hk He. unfold nfs in Hk. rewrite !elem_of_cons, elem_of_nil in Hk.
        repeat (destruct Hk as [Hk|Hk]; [injection Hk as -> ->; first [destruct He as [He|He]; discriminate He|vm_compute; discriminate]|]). done.
      + split; [vm_compute; discriminate|]. split; [by apply newb_keys|]. split; [vm_compute; reflexivity|]. done.
  Qed.
  Lemma aq_new x : newb x = true -> exists p, new_token K1 X0 parse1 rcf x (184 * second) aq p.
  Proof.
    intros H. eexists. split; [done|].
    assert (segments (q_tok aq) (B "RS256,2") (B "A") (B "K2RS256,2A")) as Hseg by (split; [done|]; split_and!; apply (bool_decide_unpack _); vm_compute; exact I).
    eexists _, {[ B "alg" := JStr (B "RS256"); B "kid" := JStr (B "2") ]}, (B "2"), [], (KRSA (B "K2")).
    split; [exists (B "RS256,2"), (B "A"), (B "K2RS256,2A"), (B "A"); split; [exact Hseg|]; split; reflexivity|].
    split; [split; [vm_compute; discriminate|]; split; [vm_compute; reflexivity|]; split; [intros _; vm_compute; discriminate|intros Hx; exfalso; by apply Hx]|].
    split; [exists (B "RS256,2"), (B "A"), (B "K2RS256,2A"), (B "RS256,2"); split; [exact Hseg|]; split; reflexivity|].
    split; [reflexivity|]. split; [discriminate|]. split; [right; split; reflexivity|]. split; [by left|]. split; [by apply newb_sets|].
    split; [|split; [discriminate|split; [discriminate|reflexivity]]].
    exists (B "RS256,2"), (B "A"), (B "K2RS256,2A"), (B "RS256"), (MRSA 256), (B "K2"). split; [exact Hseg|]. split; [reflexivity|].
    split; [apply (reg_rsa (B "256") 256); left; done|]. split; [constructor|vm_compute; reflexivity].
  Qed.
  Definition nrefused : list (option (request * option (list str * list str * str))) := [Some (nq, None); Some (aq, None)].
  Definition naccepted : list (option (request * option (list str * list str * str))) :=
    map (fun q => Some (q, Some ([B "r2"], [B "r1"; B "r2"], B "dom"))) [nq; aq].
  Definition nevents : list ev := lev 3 rdoc2 rpol2 (182 * second) ++ lev 2 rdoc2 rpol2 (172 * second) ++ lev 1 rdoc2 rpol2 (162 * second) ++ lev 0 gdoc gpol (50 * second).
  Lemma the_new_run : exists tr0 sb trA wA trC wC trD wD,
    driveN ncmds0 [] ninit = Some (tr0, sb) /\ wdriveN ncmdsA [] (wstart K1 cN sb nxN) = Some (trA, wA) /\ wdriveN ncmdsC trA wA = Some (trC, wC) /\ wdriveN ncmdsD trC wC = Some (trD, wD) /\
    (readyb sb = true /\ calls_of sb = [(1%nat, false); (0%nat, true); (0%nat, true); (0%nat, true)]) /\
    (tasks (w_sys K1 wA) = nrefused ++ [None; None] /\ tasks (w_sys K1 wD) = nrefused ++ naccepted) /\
    map (fun w => now K1 (w_sys K1 w)) [wA; wD] = [153 * second; 184 * second] /\
    (own_okb (wproj K1 trD ++ tr0) = true /\ renewedb K1 parse1 true false (wsysl K1 (rev (since trA trD).*1)) && newb (wsysl K1 (rev (since trA trD).*1)) = true) /\
    forallb (fun d => loopb K1 d (rev trD.*1) (153 * second)) [DPol; DKeys; DJwks] = true /\
    (events (wproj K1 trD ++ tr0) = nevents /\ calmb (wproj K1 trD ++ tr0) = true) /\
    forallb (fun s => askb 2 s && askb 3 s) (w_sys K1 wD :: map snd (wproj K1 trD ++ tr0)) = true /\
    take 2 (made (wproj K1 trD ++ tr0)) = [(3%nat, aq, 184 * second); (2%nat, nq, 184 * second)].
  Proof.
    assert (
      match driveN ncmds0 [] ninit with None => None | Some (tr0, sb) =>
      match wdriveN ncmdsA [] (wstart K1 cN sb nxN) with None => None | Some (trA, wA) =>
      match wdriveN ncmdsC trA wA with None => None | Some (trC, wC) =>
      match wdriveN ncmdsD trC wC with None => None | Some (trD, wD) =>
        Some ((readyb sb, calls_of sb), (tasks (w_sys K1 wA), tasks (w_sys K1 wD)), map (fun w => now K1 (w_sys K1 w)) [wA; wD],
          (own_okb (wproj K1 trD ++ tr0), renewedb K1 parse1 true false (wsysl K1 (rev (since trA trD).*1)) && newb (wsysl K1 (rev (since trA trD).*1))),
          forallb (fun d => loopb K1 d (rev trD.*1) (153 * second)) [DPol; DKeys; DJwks], (events (wproj K1 trD ++ tr0), calmb (wproj K1 trD ++ tr0)),
          forallb (fun s => askb 2 s && askb 3 s) (w_sys K1 wD :: map snd (wproj K1 trD ++ tr0)), take 2 (made (wproj K1 trD ++ tr0)))
      end end end end =
      Some ((true, [(1%nat, false); (0%nat, true); (0%nat, true); (0%nat, true)]), (nrefused ++ [None; None], nrefused ++ naccepted), [153 * second; 184 * second],
        (true, true), true, (nevents, true), true, [(3%nat, aq, 184 * second); (2%nat, nq, 184 * second)])) as Ho by (vm_compute; reflexivity).
    destruct (driveN ncmds0 [] ninit) as [[tr0 sb]|]; [|discriminate Ho].
    destruct (wdriveN ncmdsA [] (wstart K1 cN sb nxN)) as [[trA wA]|] eqn:EA; [|discriminate Ho].
    destruct (wdriveN ncmdsC trA wA) as [[trC wC]|] eqn:EC; [|discriminate Ho].
    destruct (wdriveN ncmdsD trC wC) as [[trD wD]|] eqn:ED; [|discriminate Ho].
    exists tr0, sb, trA, wA, trC, wC, trD, wD. apply inj8 in Ho as (H1 & H2 & H3 & H4 & H5 & H6 & H7 & H8).
    assert (forall A1 A2 (a1 b1 : A1) (a2 b2 : A2), (a1, a2) = (b1, b2) -> a1 = b1 /\ a2 = b2) as Hp by (intros; by simplify_eq).
    do 4 (split; [first [assumption|reflexivity]|]). split; [apply Hp; exact H1|]. split; [apply Hp; exact H2|]. split; [exact H3|]. split; [apply Hp; exact H4|]. split; [exact H5|].
    split; [apply Hp; exact H6|]. split; [exact H7|exact H8].
  Qed.
  Example C97_nonvacuous : exists ls0 sb ws w wr sr x,
    nrun ls0 sb /\ uncalled K1 sb (pick nxN DPol) /\ wrunN sb ws w /\ ws = wr ++ x /\ wrunN sb wr sr /\ 0 < t0 /\
    (forall i, check_untouched K1 X0 U0 parse1 rcf ninit (ls0 ++ wsysl K1 ws) i) /\ (forall i, YChk K1 i EnvCancel ∉ ls0 ++ wsysl K1 ws) /\ own_calls K1 X0 U0 parse1 rcf t0 4 4 4 4 ncalls (ls0 ++ wsysl K1 ws) /\
    healthy K1 cN DPol sb ws (153 * second) /\ served_at K1 X0 U0 parse1 rcf t0 4 4 4 4 ncalls (ls0 ++ wsysl K1 ws) (ls0 ++ wsysl K1 wr) P2 /\ usable U0 P2 (now K1 (w_sys K1 w)) /\
    now K1 (w_sys K1 sr) <= 153 * second /\
    (keys_ready K1 sb (pick nxN DKeys) /\ healthy K1 cN DKeys sb ws (153 * second) /\ renewed K1 parse1 (wsysl K1 x) true) /\ healthy K1 cN DJwks sb ws (153 * second) /\
    key_listed K1 parse1 (wsysl K1 x) true (B "1") (B "NEWKEY") /\ set_listed K1 (wsysl K1 x) (effective_url (s_j rcf) []) (B "2") (KRSA (B "K2")) /\
    (forall i q, (i, q) ∈ [(2%nat, nq); (3%nat, aq)] -> exists lc sc p,
       nhappened (ls0 ++ wsysl K1 ws) (YAuth K1 (ZCall K1 i q)) lc sc /\ 153 * second + delay cN DPol < now K1 sc /\
       q_act q <> [] /\ q_res q <> [] /\
       (forall l1 s1, nhappened (ls0 ++ wsysl K1 ws) (YAuth K1 (ZParse K1 i (keys_now K1 rcf s1))) l1 s1 -> exists p, new_token K1 X0 parse1 rcf (wsysl K1 x) (now K1 s1) q p) /\
       (forall o l1 s1 p, nhappened (ls0 ++ wsysl K1 ws) (YAuth K1 (ZParse K1 i (keys_now K1 rcf s1))) l1 s1 -> valid_token K1 X0 rcf s1 q p -> exists a b, target (s_z rcf) o p q = Ok (a, b)) /\
       (forall l2 s2 p a b, npassed (ls0 ++ wsysl K1 ws) l2 s2 -> z_tasks (y_auth K1 s2) !! i = Some (CCheck q p a b) -> grants U0 rcf P2 p a b) /\
       z_tasks (y_auth K1 (w_sys K1 w)) !! i = Some (CDone q (Ok p)) /\ pr_auth p = [B "r2"]) /\
    (* the same requests were refused before *)
    (forall i q, (i, q) ∈ [(0%nat, nq); (1%nat, aq)] -> exists r, z_tasks (y_auth K1 (w_sys K1 sr)) !! i = Some (CDone q r) /\ forall p, r <> Ok p).
  Proof.
    destruct the_new_run as (tr0 & sb & trA & wA & trC & wC & trD & wD & E0 & EA & EC & ED & (Hready & Hcalls) & (HtA & HtD) & Hnow & (Hown & Hren) & Hloop & (Hev & Hcalm0) & Hasks & Hmade).
    pose proof (drive_chain K1 X0 U0 parse1 rcf ninit _ _ _ _ _ E0 eq_refl) as C0.
    destruct (wdrive_sound K1 X0 U0 parse1 rcf onN cN ninit (wstart K1 cN sb nxN) _ _ _ _ _ tr0 EA C0 ltac:(constructor)) as (CA & WA & _).
    destruct (wdrive_sound K1 X0 U0 parse1 rcf onN cN ninit (wstart K1 cN sb nxN) _ _ _ _ _ tr0 EC CA WA) as (CC & WC & xC & XC).
    destruct (wdrive_sound K1 X0 U0 parse1 rcf onN cN ninit (wstart K1 cN sb nxN) _ _ _ _ _ tr0 ED CC WC) as (CD & WD & xD & XD).
    clear E0 EA EC ED. assert (trD = (xD ++ xC) ++ trA) as XA by (by rewrite XD, XC, <- !app_assoc).
    assert (now K1 (w_sys K1 wA) = 153 * second /\ now K1 (w_sys K1 wD) = 184 * second) as [NA ND] by (apply list2; exact Hnow). clear Hnow.
    rewrite XA, since_app in Hren. apply andb_true_iff in Hren as [Hren Hnewb].
    assert (forall d, healthy K1 cN d sb (rev trD.*1) (153 * second)) as Hh.
    { intros d. apply (loopb_sound K1 parse1 onN); [exact cL_sensible|]. cbn [forallb] in Hloop. apply andb_true_iff in Hloop as [L1 L2]. apply andb_true_iff in L2 as [L2 L3]. apply andb_true_iff in L3 as [L3 _]. by destruct d. }
    assert (forall tr : list (@world_label K1 unit * world K1), rev (wproj K1 tr ++ tr0).*1 = rev tr0.*1 ++ wsysl K1 (rev tr.*1)) as Hrev by (intros tr; by rewrite fmap_app, rev_app_distr, wproj_sysl).
    exists (rev tr0.*1), sb, (rev trD.*1), wD, (rev trA.*1), wA, (rev (xD ++ xC).*1).
    assert (forall l l1 s1, nhappened (rev tr0.*1 ++ wsysl K1 (rev trD.*1)) l l1 s1 -> (l, s1) ∈ wproj K1 trD ++ tr0) as Hin.
    { intros l l1 s1. rewrite <- Hrev. by apply (chain_happened K1 X0 U0 parse1 rcf ninit _ _ _ _ _ CD). }
    assert (forall l l1 s1, nhappened (rev tr0.*1 ++ wsysl K1 (rev trD.*1)) l l1 s1 -> forall e, e ∈ events [(l, s1)] -> e ∈ nevents) as Hev'.
    { intros l l1 s1 Hhp e He. apply Hin in Hhp. rewrite <- Hev. unfold events in *. apply elem_of_list_omap. exists (l, s1). split; [done|]. apply elem_of_list_omap in He as (y & ->%elem_of_list_singleton & Hy). done. }
    assert (forall l s1, (l, s1) ∈ wproj K1 trD ++ tr0 -> calmb [(l, s1)] = true) as Hcalm1.
    { intros l s1 Hl. unfold calmb in Hcalm0 |- *. rewrite forallb_forall in Hcalm0. apply elem_of_list_In, Hcalm0 in Hl. cbn [forallb]. by rewrite Hl. }
    assert (forall l, l ∈ rev tr0.*1 ++ wsysl K1 (rev trD.*1) -> l <> YHook K1 /\ (forall i, l <> YChk K1 i EnvCancel)) as Hcalm.
    { intros l Hl. rewrite <- Hrev in Hl. apply elem_of_list_In in Hl. apply in_rev in Hl. apply elem_of_list_In, elem_of_list_fmap in Hl as ([l1 s1] & -> & Hl). cbn [fst].
      apply Hcalm1 in Hl. clear -Hl. split; [intros ->|intros i ->]; discriminate Hl. }
    assert (forall la sa, npassed (rev tr0.*1 ++ wsysl K1 (rev trD.*1)) la sa -> askb 2 sa && askb 3 sa = true) as Hasked.
    { intros la sa Hps. rewrite <- Hrev in Hps. rewrite forallb_forall in Hasks. destruct (chain_passed K1 X0 U0 parse1 rcf ninit _ _ _ _ CD Hps) as (T2 & T1 & ET & -> & H1).
      pose proof (chain_run K1 X0 U0 parse1 rcf ninit _ _ H1) as R1. destruct T2 as [|[l3 s3] T3 _] using rev_ind.
      - rewrite ET in CD. apply chain_run in CD. assert (sa = w_sys K1 wD) as -> by (exact (yrun_det K1 X0 U0 parse1 rcf ninit _ _ _ R1 CD)). apply Hasks. by left.
      - pose proof CD as CD'. rewrite ET, <- app_assoc in CD'. apply chain_tail in CD' as (s4 & _ & CD'). apply chain_run in CD'. assert (sa = s3) as -> by (exact (yrun_det K1 X0 U0 parse1 rcf ninit _ _ _ R1 CD')).
        apply Hasks. right. apply in_map_iff. exists (l3, s3). split; [done|]. apply elem_of_list_In. rewrite ET, !elem_of_app, elem_of_list_singleton. auto. }
    assert (forall d i r l1 s1, nhappened (rev tr0.*1 ++ wsysl K1 (rev trD.*1)) (YReply K1 d i r) l1 s1 -> d = 0%nat) as Hd0.
    { intros d i r l1 s1 Hhp. pose proof (chain_run K1 X0 U0 parse1 rcf ninit _ _ CD) as RD. rewrite Hrev in RD. destruct (happened_step K1 X0 U0 parse1 rcf t0 4 4 4 4 ncalls _ _ _ _ _ RD Hhp) as [s3 Hs].
      inversion Hs as [| | | |? ? ? ? fc f f' Hfc| | | | | | | |]; subst. destruct d as [|d]; [done|]. destruct d; discriminate Hfc. }
    split; [by apply chain_run|].
    split. { intros m u Hm Hu. assert (calls_of sb !! m = Some (u_spawned u, match u_ret u with None => true | _ => false end)) as Hx by (unfold calls_of; by rewrite list_lookup_fmap, Hu).
      rewrite Hcalls in Hx. clear -Hm Hx. cbn [pick nxN] in Hm. destruct m as [|[|[|[|m]]]]; [cbn in Hm; lia|cbn in Hx..]; try discriminate Hx; injection Hx as H1 H2; (split; [done|]); by destruct (u_ret u). }
    split; [done|]. split; [by rewrite XA, (fmap_app _ (xD ++ _)), rev_app_distr|]. split; [done|]. split; [done|].
    split; [intros i; eapply (unhooked_checks K1 X0 U0 parse1 rcf); intros Hx; by apply Hcalm in Hx as [? _]|]. split; [intros i Hx; apply Hcalm in Hx as [_ Hx]; by eapply Hx|].
    split. { split.
      + intros m w k script l' s' Hhp. apply Hin in Hhp. unfold own_okb in Hown. rewrite forallb_forall in Hown. apply elem_of_list_In in Hhp. apply Hown in Hhp. cbn beta iota in Hhp.
        apply existsb_exists in Hhp as ([l1 sa] & H1 & H2). apply elem_of_list_In in H1. destruct (chain_in K1 X0 U0 parse1 rcf ninit _ _ _ _ CD H1) as [la Hla].
        unfold idleb in H2. destruct (y_upd K1 sa !! m) as [u|] eqn:Eu; [|discriminate H2]. destruct (y_fetch K1 sa !! w) as [f|] eqn:Ef; [|discriminate H2]. apply andb_true_iff in H2 as [H2 H3].
        exists la, sa, u. rewrite <- Hrev. split; [done|]. split; [done|]. split; [by apply Nat.ltb_lt|]. destruct (fs_calls f !! k) as [[b| | | |]|] eqn:Ek; try discriminate H3. by exists f, b.
      + intros ob w k c script l' s' Hhp. exfalso. apply Hin in Hhp. unfold own_okb in Hown. rewrite forallb_forall in Hown. apply elem_of_list_In in Hhp. apply Hown in Hhp. discriminate Hhp. }
    split; [by apply Hh|].
    split. { (* the server *)
      assert (forall l x s', nhappened (rev tr0.*1 ++ wsysl K1 (rev trD.*1)) l ((rev tr0.*1 ++ wsysl K1 (rev trA.*1)) ++ x) s' -> 153 * second <= now K1 s') as Hclk.
      { intros l x s' [_ Hr]. rewrite <- NA. pose proof (chain_run K1 X0 U0 parse1 rcf ninit _ _ CA) as RB. rewrite Hrev in RB. exact (yrun_clock K1 X0 U0 parse1 rcf ninit _ _ _ _ RB Hr). }
      split; [|split].
      + intros d i etag sp x s' Hhp. split; [by eapply Hd0|]. pose proof (Hclk _ _ _ Hhp) as Hc. pose proof (Hev' _ _ _ Hhp (EReply (now K1 s') 200 (Doc sp)) ltac:(by apply in_events)) as Hi.
        clear -Hc Hi. unfold nevents, lev in Hi. cbn [app] in Hi. set (v := now K1 s') in *. clearbody v. rewrite !elem_of_cons, elem_of_nil in Hi.
        repeat (destruct Hi as [Hi|Hi]; [try discriminate Hi; injection Hi as H1 H2; first [by symmetry|by rewrite H1 in Hc]|]); done.
      + intros d i etag b x s' f rt tp inm t Hhp. pose proof (Hev' _ _ _ Hhp (EReply (now K1 s') 304 b) ltac:(by apply in_events)) as Hi. exfalso.
        clear -Hi. unfold nevents, lev in Hi. cbn [app] in Hi. rewrite !elem_of_cons, elem_of_nil in Hi. repeat (destruct Hi as [Hi|Hi]; [discriminate Hi|]). done.
      + intros d i x s' s'' f sp e Hhp Hs Hf Hc. exfalso.
        pose proof (Hev' _ _ _ Hhp _ ltac:(by apply in_events)) as Hi. clear -Hi Hs Hf Hc.
        inversion Hs as [| | |? ? ? fc f0 f' Hfc Hf0 Hst| | | | | | | | |]; subst. cbn [set_fetch y_fetch] in Hf.
        rewrite list_lookup_insert in Hf by (by eapply lookup_lt_Some). injection Hf as ->.
        unfold fetch_calls in Hi. rewrite list_lookup_fmap, Hf0 in Hi. cbn [fmap option_fmap option_map mbind option_bind] in Hi.
        rewrite list_lookup_fmap in Hi. cbn [fstep] in Hst.
        assert (fs_calls f0 !! i = Some (FIdle false)) as Hi2.
        { clear -Hi. unfold nevents, lev in Hi. cbn [app] in Hi. rewrite !elem_of_cons, elem_of_nil in Hi.
          destruct (fs_calls f0 !! i) as [[[]| | | |]|]; cbn in Hi; [exfalso|done|exfalso..]; repeat (destruct Hi as [Hi|Hi]; [discriminate Hi|]); done. }
        rewrite Hi2 in Hst. injection Hst as <-. cbn [fs_calls] in Hc. rewrite list_lookup_insert in Hc by (by eapply lookup_lt_Some).
        destruct d as [|d]; [|done]. injection Hfc as <-. discriminate Hc. }
    split. { rewrite ND. split.
      + intros w sp exp doc HP Hc. destruct (content_rpol2 _ _ _ _ HP Hc) as [-> ->]. split; [by apply no_commasb_spec|]. split; [by apply no_conflictb_spec|]. split; vm_compute; done.
      + intros w w' sp sp' exp exp' doc doc' pol pol' r r' [-> _] _ [-> _]. done. }
    split; [by rewrite NA|]. split; [split; [by apply readyb_sound|]; split; [by apply Hh|]; by apply renewedb_sound|]. split; [by apply Hh|].
    split; [by apply newb_keys|]. split; [by apply newb_sets|]. split.
    - intros i q Hiq.
      assert (exists lc sc, nhappened (rev tr0.*1 ++ wsysl K1 (rev trD.*1)) (YAuth K1 (ZCall K1 i q)) lc sc /\ now K1 sc = 184 * second) as (lc & sc & Hcall & Hsc).
      { assert ((i, q, 184 * second) ∈ made (wproj K1 trD ++ tr0)) as Hm.
        { rewrite <- (take_drop 2 (made _)), Hmade. apply elem_of_app. left. rewrite !elem_of_cons, elem_of_nil in Hiq. destruct Hiq as [Hiq|[Hiq|[]]]; injection Hiq as -> ->; [right; left|left]. }
        apply made_in in Hm as (sc & Hm & Hsc). rewrite <- Hrev. apply elem_of_list_split in Hm as (T2 & T1 & ET). exists (rev T1.*1), sc. split; [|done]. rewrite ET in *. eapply chain_at. exact CD. }
      assert (i = 2%nat /\ q = nq \/ i = 3%nat /\ q = aq) as Hcase. { rewrite !elem_of_cons, elem_of_nil in Hiq. destruct Hiq as [Hiq|[Hiq|[]]]; [left|right]; by injection Hiq as -> ->. }
      assert (exists p, z_tasks (y_auth K1 (w_sys K1 wD)) !! i = Some (CDone q (Ok p)) /\ pr_auth p = [B "r2"]) as (p & Hp & Hpa).
      { destruct (task_obs (w_sys K1 wD) i q [B "r2"] [B "r1"; B "r2"] (B "dom")) as (p & Hp & Ha & _); [rewrite HtD; by destruct Hcase as [[-> ->]|[-> ->]]|]. by exists p. }
      exists lc, sc, p. split; [done|]. split; [by rewrite Hsc|]. split; [by destruct Hcase as [[_ ->]|[_ ->]]|]. split; [by destruct Hcase as [[_ ->]|[_ ->]]|].
      split. { intros l1 s1 Hhp. apply Hin, Hcalm1 in Hhp. assert (now K1 s1 = 184 * second) as ->.
        { clear -Hhp Hcase. unfold calmb in Hhp. cbn [forallb] in Hhp. destruct Hcase as [[-> _]|[-> _]]; cbn beta iota in Hhp; rewrite andb_true_r in Hhp; by apply Z.eqb_eq in Hhp. }
        destruct Hcase as [[_ ->]|[_ ->]]; [by apply nq_new|by apply aq_new]. }
      split; [intros; by do 2 eexists|]. split; [|done].
      intros l2 s2 p2 a b Hps Hck. apply Hasked in Hps. apply andb_true_iff in Hps as [Hp2 Hp3].
      assert (pr_roles p2 = [B "r1"; B "r2"] /\ pr_domain p2 = B "dom" /\ a = B "get" /\ b = B "/p/a") as (Hro & Hdo & -> & ->).
      { clear -Hp2 Hp3 Hck Hcase. unfold askb in *. destruct Hcase as [[-> ->]|[-> ->]]; rewrite Hck in *; [by apply bool_decide_eq_true in Hp2|by apply bool_decide_eq_true in Hp3]. }
      split.
      + exists (B "r2"), 0%nat. rewrite Hro, Hdo. split; [right; left|]. split; [cbn; lia|]. intros sp exp doc HP Hc. destruct (content_rpol2 _ _ _ _ HP Hc) as [_ ->]. by apply doc_allowsb_spec.
      + intros role w sp exp doc _ HP Hc Hd. destruct (content_rpol2 _ _ _ _ HP Hc) as [_ ->]. destruct Hd as (pol & r & Hpol & Hr & _ & Hd). apply elem_of_list_singleton in Hpol as ->. apply elem_of_list_singleton in Hr as ->. discriminate Hd.
    - intros i q Hiq. assert (i = 0%nat /\ q = nq \/ i = 1%nat /\ q = aq) as Hcase. { rewrite !elem_of_cons, elem_of_nil in Hiq. destruct Hiq as [Hiq|[Hiq|[]]]; [left|right]; by injection Hiq as -> ->. }
      assert (tasks (w_sys K1 wA) !! i = Some (Some (q, None))) as Hti by (rewrite HtA; by destruct Hcase as [[-> ->]|[-> ->]]).
      clear -Hti. unfold tasks in Hti. rewrite list_lookup_fmap in Hti. destruct (z_tasks (y_auth K1 (w_sys K1 wA)) !! i) as [tk|]; [|discriminate Hti]. cbn in Hti.
      destruct tk as [| | | | | |q' r]; try discriminate Hti. destruct r; try discriminate Hti; injection Hti as ->; by eexists.
  Qed.
  (** Without [renewed] it is false: the new list has an entry which cannot be decoded, the fetch fails,
      its ETag has been remembered, from then on the server says "not modified" and every Update succeeds:
      the key that was in every list received is never in force. *)
  Theorem C97_undecodable_list_hides_new_keys : exists ls0 sb ws w wr sr x,
    System.yrun K1 X0 U0 parse1 vcf Prop_KeyLatency.winit ls0 sb /\ keys_ready K1 sb (pick nxV DKeys) /\ world_run K1 X0 U0 parse1 vcf onV cV (wstart K1 cV sb nxV) ws w /\ ws = wr ++ x /\
    world_run K1 X0 U0 parse1 vcf onV cV (wstart K1 cV sb nxV) wr sr /\
    now K1 (w_sys K1 sr) <= 160 * second /\ healthy K1 cV DKeys sb ws (160 * second) /\ 160 * second + delay cV DKeys < now K1 (w_sys K1 w) /\
    key_listed K1 parse1 (wsysl K1 x) true (B "1") (B "NEWKEY") /\ (exists i tag kl t, Nat.even i = true /\ YKey K1 (PResp i (Response 200 tag (Doc kl)) t) ∈ wsysl K1 x) /\
    get_pub_key (y_keys K1 (w_sys K1 w)) (env_of true) (B "1") = None.
  Proof.
    pose (isb := fun kl : key_list => bool_decide (kl = [Some (B "1", B "NEWKEY"); Some (B "2", [])])).
    pose (onlyb := forallb (fun l : @ylabel K1 unit => match l with YKey _ (PResp i (Response status _ (Doc kl)) _) => negb ((status =? 200) && Nat.even i) || isb kl | _ => true end)).
    pose (someb := existsb (fun l : @ylabel K1 unit => match l with YKey _ (PResp i (Response status _ (Doc kl)) _) => (status =? 200) && Nat.even i | _ => false end)).
    assert (
      match drive K1 X0 U0 parse1 vcf ws0 [] Prop_KeyLatency.winit with None => None | Some (tr0, sb) =>
      match wdrive K1 X0 U0 parse1 vcf onV cV wsA [] (wstart K1 cV sb nxV) with None => None | Some (trA, wA) =>
      match wdrive K1 X0 U0 parse1 vcf onV cV wsF trA wA with None => None | Some (trF, wF) =>
        Some (readyb sb, now K1 (w_sys K1 wA), now K1 (w_sys K1 wF), loopb K1 DKeys (rev trF.*1) (160 * second), get_pub_key (y_keys K1 (w_sys K1 wF)) (env_of true) (B "1"),
          onlyb (wsysl K1 (rev (since trA trF).*1)), someb (wsysl K1 (rev (since trA trF).*1)), tt)
      end end end =
      Some (true, 153 * second, 190 * second, true, None, true, true, tt)) as Ho by (vm_compute; reflexivity).
    destruct (drive K1 X0 U0 parse1 vcf ws0 [] Prop_KeyLatency.winit) as [[tr0 sb]|] eqn:E0; [|discriminate Ho].
    destruct (wdrive K1 X0 U0 parse1 vcf onV cV wsA [] (wstart K1 cV sb nxV)) as [[trA wA]|] eqn:EA; [|discriminate Ho].
    destruct (wdrive K1 X0 U0 parse1 vcf onV cV wsF trA wA) as [[trF wF]|] eqn:EF; [|discriminate Ho].
    apply inj8 in Ho as (O1 & O2 & O3 & O4 & O5 & O6 & O7 & _).
    pose proof (drive_chain K1 X0 U0 parse1 vcf Prop_KeyLatency.winit _ _ _ _ _ E0 eq_refl) as C0.
    destruct (wdrive_sound K1 X0 U0 parse1 vcf onV cV Prop_KeyLatency.winit (wstart K1 cV sb nxV) _ _ _ _ _ tr0 EA C0 ltac:(constructor)) as (CA & WA & _).
    destruct (wdrive_sound K1 X0 U0 parse1 vcf onV cV Prop_KeyLatency.winit (wstart K1 cV sb nxV) _ _ _ _ _ tr0 EF CA WA) as (CF & WF & xF & XF).
    clear EA EF E0. rewrite XF, since_app in O6, O7.
    exists (rev tr0.*1), sb, (rev trF.*1), wF, (rev trA.*1), wA, (rev xF.*1).
    split; [by apply chain_run|]. split; [by apply readyb_sound|]. split; [done|]. split; [by rewrite XF, fmap_app, rev_app_distr|]. split; [done|]. split; [by rewrite O2|].
    split; [apply (loopb_sound K1 parse1 onV); [exact cL_sensible|done]|]. split; [by rewrite O3|].
    set (l := wsysl K1 (rev xF.*1)) in *. clearbody l. split; [|split; [|exact O5]].
    - intros i etag kl t Hin Hz. unfold onlyb in O6. rewrite forallb_forall in O6. apply elem_of_list_In, O6 in Hin. cbn in Hin. rewrite Hz in Hin. apply bool_decide_eq_true in Hin as ->.
      exists (B "NEWKEY"). split; [|done]. exists [], [Some (B "2", [])]. split; [done|]. intros k Hk. apply elem_of_list_singleton in Hk. discriminate Hk.
    - unfold someb in O7. apply existsb_exists in O7 as (y & Hy & H0). apply elem_of_list_In in Hy.
      destruct y as [| y | | | | | | | | | |]; try discriminate H0. destruct y as [|i r t| | |]; try discriminate H0. destruct r as [|status tag [| |kl]]; try discriminate H0.
      apply andb_true_iff in H0 as [Es Ei]. apply Z.eqb_eq in Es as ->. by exists i, tag, kl, t.
  Qed.
End example.
Print Assumptions C97_listed_key_in_force.
Print Assumptions C97_listed_in_sets_in_force.
Print Assumptions C97_new_key_latency.
Print Assumptions C97_new_key_set_latency.
Print Assumptions C97_new_tokens_are_valid.
Print Assumptions C97_new_tokens_get_in.
Print Assumptions C97_undecodable_list_hides_new_keys.
