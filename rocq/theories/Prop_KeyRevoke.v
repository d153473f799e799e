(** * Property C87: revocation of keys *)
From Verif Require Import Prop_Jwk Prop_Access Prop_System Prop_Revoke System SystemSpec SystemFacts PubKeyFacts.
From Verif Require Import Prop_PubKey.
From Verif Require Prop_Fetcher Prop_Authorizer.
From Verif Require Import GoStrings.

(** ** The key daemon *)
Section keys.
  Context {V : Type} (parse : str -> option V) (cf : pconf).
  Notation pst := (@pst V). Notation ptask := (@ptask V).

  (** Replies carry keys in [Q] only. *)
  Definition carries_only (z : bool) (Q : str -> V -> Prop) (l : plabel) : Prop :=
    forall i etag kl now id key v, l = PResp i (Response 200 etag (Doc kl)) now -> is_zts i = z ->
      Some (id, key) ∈ kl -> parse key = Some v -> Q id v.
  Lemma moves_phase z Q l s t t' m m' : carries_only z Q l -> is_zts (task_of l) = z -> phase_all Q t -> moves parse cf l s t t' m m' ->
    phase_all Q t' /\ forall id v, m' !! id = Some v -> m !! id = Some v \/ Q id v.
  Proof.
    intros Hin Hz HT Hmv. destruct l as [i now|i r now|i k|i k|i]; cbn [moves task_of] in *.
    - destruct Hmv as (-> & -> & ->). split; [by destruct (pc_url_ok cf)|]. by left.
    - destruct Hmv as (c & -> & Ht' & ->). split; [|by left]. symmetry in Ht'. apply respond_doc in Ht'.
      destruct t' as [| |cm todo| | |]; try done. destruct Ht' as (-> & etag & l & -> & Hd).
      assert (forall id v, cm !! id = Some v -> Q id v) as Hp; [|by split].
      intros id v Hv. apply (decode_keys_spec _ _ _ Hd) in Hv as (key & Hk & Hp). apply last_entry_elem in Hk. by eapply Hin.
    - destruct Hmv as (cm & todo & v & -> & Hk & -> & ->). destruct HT as [H1 H2]. split.
      + split; [done|]. intros id v' Hv. apply lookup_delete_Some in Hv as [_ Hv]. by apply H2.
      + intros id v' Hv. apply lookup_insert_Some in Hv as [[<- <-]|[_ Hv]]; [right; by apply H2|by left].
    - destruct Hmv as (cm & todo & -> & Hk & -> & ->). split; [done|]. destruct (cm !! k); [by left|].
      intros id v Hv. apply lookup_delete_Some in Hv as [_ Hv]. by left.
    - destruct Hmv as (-> & [(cm & -> & ->)|(cm & -> & ->)]); (split; [|by left]); [by destruct HT|done].
  Qed.
  (** What a run that received a list still has to do: every key is in [Q], or will be replaced, or swept. *)
  Definition cleans (Q : str -> V -> Prop) (t : ptask) (m : gmap str V) : Prop :=
    match t with
    | PStore cm todo => forall id v, m !! id = Some v -> Q id v \/ is_Some (todo !! id) \/ cm !! id = None
    | PSweep cm todo => forall id v, m !! id = Some v -> Q id v \/ (id ∈ todo /\ cm !! id = None)
    | PDone None => forall id v, m !! id = Some v -> Q id v
    | _ => True
    end.
  Definition underway (t : ptask) : Prop := match t with PStore _ _ | PSweep _ _ | PDone None => True | _ => False end.
  Lemma cleans_other Q t (m m' : gmap str V) : (forall id v, m' !! id = Some v -> m !! id = Some v \/ Q id v) -> cleans Q t m -> cleans Q t m'.
  Proof.
    intros Hm. destruct t as [| |cm todo|cm todo|[e|]|]; cbn; try done; intros H id v Hv; (destruct (Hm _ _ Hv) as [Hv'|?]; [|auto]); by apply (H _ _ Hv').
  Qed.
  Lemma cleans_moves z Q l s t t' m m' : carries_only z Q l -> is_zts (task_of l) = z -> phase_all Q t -> underway t ->
    moves parse cf l s t t' m m' -> cleans Q t m -> cleans Q t' m' /\ underway t'.
  Proof.
    intros Hin Hz HT Hu Hmv HC. destruct l as [i now|i r now|i k|i k|i]; cbn [moves task_of] in *.
    - by destruct Hmv as (-> & _).
    - by destruct Hmv as (c & -> & _).
    - destruct Hmv as (cm & todo & v & -> & Hk & -> & ->). destruct HT as [H1 H2]. split; [|done]. cbn in HC |- *.
      intros id v' Hv. apply lookup_insert_Some in Hv as [[<- <-]|[Hne Hv]]; [left; by apply H2|].
      rewrite lookup_delete_ne by done. by apply (HC _ v').
    - destruct Hmv as (cm & todo & -> & Hk & -> & ->). split; [|done]. cbn in HC |- *. intros id v Hv.
      assert (m !! id = Some v /\ (id = k -> is_Some (cm !! k))) as [Hm Hne].
      { destruct (cm !! k); [by eauto|]. apply lookup_delete_Some in Hv as [? ?]. split; [done|]. by intros ->. }
      destruct (HC _ _ Hm) as [?|[Ht Hc]]; [by left|]. right. split; [|done]. apply elem_of_difference. split; [done|].
      intros ->%elem_of_singleton. destruct (Hne eq_refl) as [? Hx]. by rewrite Hc in Hx.
    - destruct Hmv as (-> & [(cm & -> & ->)|(cm & -> & ->)]); (split; [|done]); cbn in HC |- *; intros id v Hv.
      + destruct (HC _ _ Hv) as [?|[[x Hx]|?]]; [by left|by rewrite lookup_empty in Hx|]. right. split; [|done]. by apply elem_of_dom.
      + destruct (HC _ _ Hv) as [?|[Hx _]]; [done|]. by apply elem_of_empty in Hx.
  Qed.
  Lemma phases_hold z Q ls (s s' : pst) : prun parse cf ls s = Some s' -> (forall l, l ∈ ls -> carries_only z Q l) ->
    (forall i t, is_zts i = z -> p_tasks s !! i = Some t -> phase_all Q t) ->
    (forall i t, is_zts i = z -> p_tasks s' !! i = Some t -> phase_all Q t).
  Proof.
    intros H HP HT. apply (prun_env_inv parse cf z (phase_all Q) (fun _ => True) (carries_only z Q) ls s s'); try done.
    intros l s0 t t' m m' H1 H2 H3 _ H4. split; [|done]. by eapply moves_phase.
  Qed.
  Lemma clean_stays z Q ls (s s' : pst) : prun parse cf ls s = Some s' -> (forall l, l ∈ ls -> carries_only z Q l) ->
    (forall i t, is_zts i = z -> p_tasks s !! i = Some t -> phase_all Q t) ->
    (forall id v, keys_at z s !! id = Some v -> Q id v) -> (forall id v, keys_at z s' !! id = Some v -> Q id v).
  Proof.
    intros H HP HT HM. apply (prun_env_inv parse cf z (phase_all Q) (fun m => forall id v, m !! id = Some v -> Q id v) (carries_only z Q) ls s s'); try done.
    intros l s0 t t' m m' H1 H2 H3 H4 H5. destruct (moves_phase _ _ _ _ _ _ _ _ H1 H2 H3 H5) as [Hp Hm]. split; [done|].
    intros id v Hv. destruct (Hm _ _ Hv) as [?|?]; [by apply H4|done].
  Qed.
  Lemma cleans_run z Q i ls (s s' : pst) t : prun parse cf ls s = Some s' -> (forall l, l ∈ ls -> carries_only z Q l) ->
    (forall i t, is_zts i = z -> p_tasks s !! i = Some t -> phase_all Q t) ->
    is_zts i = z -> p_tasks s !! i = Some t -> underway t -> cleans Q t (keys_at z s) ->
    exists t', p_tasks s' !! i = Some t' /\ underway t' /\ cleans Q t' (keys_at z s').
  Proof.
    revert s t. induction ls as [|l ls IH]; intros s t H HP HT Hz Ht Hu HC; cbn [prun] in H; [injection H as <-; eauto|].
    destruct (pstep parse cf l s) as [s1|] eqn:E; [|done].
    assert (forall i t, is_zts i = z -> p_tasks s1 !! i = Some t -> phase_all Q t) as HT1.
    { apply (phases_hold z Q [l] s s1); [cbn [prun]; by rewrite E| |done]. intros l' Hl. apply HP. apply elem_of_list_singleton in Hl as ->. left. }
    pose proof E as E0. apply pstep_inv in E as (t0 & t1 & Ht0 & Htasks & Hm & Hother & _).
    assert (forall l', l' ∈ ls -> carries_only z Q l') as HP' by (intros; apply HP; by right).
    assert (carries_only z Q l) as HPl by (apply HP; left).
    destruct (decide (task_of l = i)) as [<-|Hne].
    - rewrite Ht in Ht0. injection Ht0 as <-. rewrite Hz in Hm.
      destruct (cleans_moves z Q l s t t1 _ _ HPl Hz (HT _ _ Hz Ht) Hu Hm HC) as [HC1 Hu1].
      eapply (IH s1 t1); try done. rewrite Htasks. apply list_lookup_insert. by apply lookup_lt_Some in Ht.
    - eapply (IH s1 t); try done; [by rewrite Htasks, list_lookup_insert_ne by done|].
      destruct (decide (is_zts (task_of l) = z)) as [Hzl|Hzl].
      + rewrite Hzl in Hm. eapply cleans_other; [|exact HC]. by apply (moves_phase z Q l s t0 t1 _ _ HPl Hzl (HT _ _ Hzl Ht0) Hm).
      + assert (z = negb (is_zts (task_of l))) as Hz' by (destruct z, (is_zts (task_of l)); done). rewrite Hz', Hother, <- Hz'. done.
  Qed.

  (** After a state in which no run is applying an older list, once some run has received a list and
      ended, every key in force was in a list received since; and so ever after. *)
  Lemma keys_since z ls1 i etag kl now ls2 ls3 (s s2 s3 : pst) :
    (forall i t, is_zts i = z -> p_tasks s !! i = Some t -> applying t = false) ->
    prun parse cf (ls1 ++ PResp i (Response 200 etag (Doc kl)) now :: ls2) s = Some s2 -> is_zts i = z ->
    p_tasks s2 !! i = Some (PDone None) -> prun parse cf ls3 s2 = Some s3 ->
    forall id v, keys_at z s3 !! id = Some v -> published parse z ((ls1 ++ PResp i (Response 200 etag (Doc kl)) now :: ls2) ++ ls3) id v.
  Proof.
    intros Hset H2 Hz Hdone H3. set (ls := (ls1 ++ PResp i (Response 200 etag (Doc kl)) now :: ls2) ++ ls3). set (Q := published parse z ls).
    assert (forall l, l ∈ ls -> carries_only z Q l) as HP.
    { intros l Hl i' etag' kl' now' id key v -> Hz' Hk Hp. by exists i', etag', kl', now', key. }
    assert (forall i t, is_zts i = z -> p_tasks s !! i = Some t -> phase_all Q t) as HT by (intros i' t' Hz' Ht'; specialize (Hset _ _ Hz' Ht'); by destruct t').
    pose proof H2 as H2'. rewrite prun_app in H2'. destruct (prun parse cf ls1 s) as [sa|] eqn:Ea; [|done]. cbn [prun] in H2'.
    destruct (pstep parse cf (PResp i (Response 200 etag (Doc kl)) now) sa) as [sb|] eqn:Eb; [|done].
    assert (forall i t, is_zts i = z -> p_tasks s2 !! i = Some t -> phase_all Q t) as HT2.
    { eapply phases_hold; [exact H2| |done]. intros l Hl. apply HP. apply elem_of_app. by left. }
    assert (forall i t, is_zts i = z -> p_tasks sb !! i = Some t -> phase_all Q t) as HTb.
    { apply (phases_hold z Q (ls1 ++ [PResp i (Response 200 etag (Doc kl)) now]) s sb); [rewrite prun_app, Ea; cbn [prun]; by rewrite Eb| |done].
      intros l Hl. apply HP. unfold ls. rewrite !elem_of_app, elem_of_cons in *. rewrite elem_of_nil in Hl. tauto. }
    pose proof Eb as Eb0. apply pstep_inv in Eb as (t & t' & Ht & Htasks & (c & -> & Ht' & _) & _). cbn [task_of] in *.
    assert (p_tasks sb !! i = Some t') as Hti by (rewrite Htasks; apply list_lookup_insert; by apply lookup_lt_Some in Ht).
    assert (underway t' /\ cleans Q t' (keys_at z sb)) as [Hu HC].
    { destruct t' as [|c'|cm todo|cm todo|[e|]|].
      1,2,4: by symmetry in Ht'; apply respond_doc in Ht'.
      - symmetry in Ht'. apply respond_doc in Ht' as (-> & _). split; [done|]. intros id v _. destruct (cm !! id) eqn:E; [right; left; eauto|by right; right].
      - exfalso. pose proof (failure_is_final parse cf _ _ _ _ _ H2' Hti) as Hx. by rewrite Hdone in Hx.
      - exfalso. cbn in Ht'. by destruct (decode_keys parse kl ∅).
      - exfalso. clear -H2' Hti Hdone. revert sb H2' Hti. induction ls2 as [|l ls2 IH]; intros sb H2' Hti; cbn [prun] in H2'; [injection H2' as ->; by rewrite Hdone in Hti|].
        destruct (pstep parse cf l sb) as [sc|] eqn:E; [|done]. apply (IH sc); [done|]. apply pstep_inv in E as (t & t' & Ht & Htasks & Hm & _). rewrite Htasks.
        rewrite list_lookup_insert_ne; [done|]. intros Heq. rewrite Heq, Hti in Ht. injection Ht as <-.
        destruct l; cbn [moves] in Hm; naive_solver. }
    destruct (cleans_run z Q i ls2 sb s2 t' H2') as (t2 & Ht2 & _ & HC2); try done.
    { intros l Hl. apply HP. unfold ls. rewrite !elem_of_app, elem_of_cons. tauto. }
    rewrite Hdone in Ht2. injection Ht2 as <-. eapply clean_stays; [exact H3| |exact HT2|exact HC2].
    intros l Hl. apply HP. apply elem_of_app. by right.
  Qed.
End keys.

Section claims.
  Context (K : crypto) (X : jwt_ext) {O : Type} (U : unicode) (parse : str -> option (verifier K)).
  Context (cf : @sconf O) (t0 : time) (n nk nj nu : nat) (calls : nat -> list bool).
  Notation s0 := (yinit K cf t0 n nk nj nu calls).
  Notation yrun := (yrun K X U parse cf s0).
  Notation happened := (happened K X U parse cf s0).
  Notation passed := (passed K X U parse cf s0).
  Notation key_published := (key_published K parse).
  Notation properly_signed := (properly_signed K parse).
  Notation genuine := (genuine K X parse cf).
  Notation ylabel := (@ylabel K O).
  Notation now := (now K).
  Notation ystep := (ystep K X U parse cf).

  (** No run of the key daemon is applying a list of the environment. *)
  Definition settled (sr : sys K) (z : bool) : Prop :=
    forall i t, Nat.even i = z -> p_tasks (y_keys K sr) !! i = Some t -> applying t = false.
  (** During [x] a run got a list of the environment, and it has ended without error in [s1]. *)
  Definition refreshed (x : list ylabel) (s1 : sys K) (z : bool) : Prop :=
    exists i etag kl t, Nat.even i = z /\ YKey K (PResp i (Response 200 etag (Doc kl)) t) ∈ x /\ p_tasks (y_keys K s1) !! i = Some (PDone None).
  (** During [x] the key set of every URL that is in use was downloaded. *)
  Definition refetched (x : list ylabel) : Prop :=
    forall u, u = j_athenz (s_j cf) \/ u ∈ j_urls (s_j cf) -> exists i set, YJwk K (JFetch i u (Some set)) ∈ x.

  Lemma keyls_app l1 l2 : keyls K (l1 ++ l2) = keyls (O:=O) K l1 ++ keyls K l2.
  Proof. unfold keyls. by rewrite map_app, concat_app. Qed.
  Lemma jwks_app l1 l2 : jwks K (l1 ++ l2) = jwks (O:=O) K l1 ++ jwks K l2.
  Proof. unfold jwks. by rewrite map_app, concat_app. Qed.
  Lemma elem_of_jwks (ls : list ylabel) l : l ∈ jwks K ls <-> YJwk K l ∈ ls.
  Proof.
    unfold jwks. induction ls as [|x ls IH]; cbn [map concat]; [by rewrite !elem_of_nil|].
    rewrite elem_of_app, elem_of_cons, IH. destruct x; cbn; rewrite ?elem_of_nil, ?elem_of_list_singleton; intuition congruence.
  Qed.

  (** C87, role token and policy keys.  After a state [sr] in which no run is applying an older list, once
      one run has received a list and has ended without error, every key in force was in a list received
      after [sr]; and this is so ever after. *)
  Theorem C87_keys_in_force_are_recent lr sr x s1 y s2 z id v : yrun lr sr -> settled sr z ->
    yrun (lr ++ x) s1 -> refreshed x s1 z -> yrun ((lr ++ x) ++ y) s2 ->
    get_pub_key (y_keys K s2) (env_of z) id = Some v -> key_published (x ++ y) z id v.
  Proof.
    intros Hr Hset H1 (i & etag & kl & t & Hz & Hin & Hd) H2 Hg.
    apply run_keys in Hr, H1, H2. rewrite keyls_app, prun_app, Hr in H1. rewrite !keyls_app, !prun_app, Hr, H1 in H2.
    apply (elem_of_keyls K nu calls) in Hin. apply elem_of_list_split in Hin as (a & b & Hab). rewrite Hab in H1.
    rewrite Prop_PubKey.get_pub_key_at in Hg.
    destruct (keys_since parse (s_p cf) z a i etag kl t b (keyls K y) _ _ _ Hset H1 Hz Hd H2 id v Hg)
      as (i' & etag' & kl' & t' & key & Hin & Hz' & Hk & Hp).
    exists i', etag', kl', t', key. split_and!; try done. apply (elem_of_keyls K nu calls). by rewrite keyls_app, Hab.
  Qed.

  (** C87, access token keys.  A key set that is in force after its URL was fetched again comes from a
      download since. *)
  Lemma download_since (l1 l2 : list (@jlabel key)) u set i set0 : JFetch i u (Some set0) ∈ l2 -> last_download (l1 ++ l2) u set -> last_download l2 u set.
  Proof.
    intros Hin (a & k & b & Heq & Hn). apply app_eq_inv in Heq as [(c & -> & Hc)|(c & -> & ->)].
    - destruct c as [|x c]; cbn in Hc.
      + subst l2. by exists [], k, b.
      + injection Hc as <- ->. exfalso. apply (Hn i set0). apply elem_of_app. by right.
    - by exists c, k, b.
  Qed.
  Theorem C87_key_sets_in_force_are_recent lr x y s2 u kid jku k : refetched x -> yrun ((lr ++ x) ++ y) s2 ->
    u = effective_url (s_j cf) jku -> get_key (s_j cf) (y_jwk K s2) kid jku = Some k ->
    exists set, last_download (jwks K (x ++ y)) u set /\ first_entry set kid k.
  Proof.
    intros Hf H2 -> Hg. apply run_jwk in H2.
    pose proof (C31_only_configured_urls _ _ _ _ _ _ _ H2 Hg) as Hu. apply (C31_key_iff _ _ _ _ _ _ _ H2) in Hg as (_ & set & Hl & Hk).
    exists set. split; [|done]. destruct (Hf _ Hu) as (i & set0 & Hin). rewrite <- app_assoc, jwks_app in Hl. eapply download_since; [|exact Hl].
    rewrite jwks_app. apply elem_of_app. left. by apply elem_of_jwks.
  Qed.
  (** An Update of the JWK daemon that had not begun at [sr] and has returned nil by [s1] fetches them all. *)
  Theorem C87_one_update_fetches_all lr sr x s1 i t : yrun lr sr -> yrun (lr ++ x) s1 ->
    j_tasks (y_jwk K sr) !! i = Some JIdle -> j_tasks (y_jwk K s1) !! i = Some t -> jresult t = Some (Ok tt) -> refetched x.
  Proof.
    intros Hr H1 Hi Ht Hres. apply run_jwk in Hr, H1. pose proof (call_inv _ _ _ _ _ _ Hr Hi) as Hnil. cbn in Hnil.
    destruct (C32_every_target_attempted _ _ _ _ _ _ _ H1 Ht Hres) as [Ht1 Hok]. pose proof (proj1 Hok eq_refl) as Hall. clear Hok.
    rewrite jwks_app in Ht1, Hall. assert (fetches i (jwks K lr ++ jwks K x) = fetches i (jwks K x)) as Hf.
    { unfold fetches in Hnil |- *. by rewrite flat_map_app, Hnil. }
    rewrite Hf in Ht1, Hall. intros u Hu. destruct (C32_targets_cover (s_j cf)) as (Ha & Hb & _).
    assert (u ∈ targets (s_j cf)) as Hin by (destruct Hu as [->|Hu]; [done|by apply Hb]). rewrite <- Ht1 in Hin.
    apply elem_of_list_In, in_map_iff in Hin as ([u' [set|]] & Heq & Hin); cbn in Heq; subst u'; apply elem_of_list_In in Hin; [|by apply Hall in Hin].
    exists i, set. apply elem_of_jwks. unfold fetches in Hin. apply elem_of_list_In, in_flat_map in Hin as (l & Hl & Hin).
    destruct l as [|k u' r|]; try done. destruct (Nat.eqb_spec k i) as [->|]; [|done]. destruct Hin as [[= <- <-]|[]]. by apply elem_of_list_In.
  Qed.

  (** A token validated after that is genuine by what was received since [sr] alone. *)
  Lemma genuine_since lr sr x s1 y s2 q p : yrun lr sr -> yrun (lr ++ x) s1 -> yrun ((lr ++ x) ++ y) s2 ->
    (z_role (s_z cf) = true -> settled sr true /\ refreshed x s1 true) -> (z_access (s_z cf) = true -> refetched x) ->
    process K X (s_z cf) (keys_now K cf s2) (now s2) q = Ok p -> genuine (x ++ y) (now s2) q p.
  Proof.
    intros Hr H1 H2 Hrole Hacc H. unfold process in H. unfold Prop_System.genuine. destruct (q_mode q).
    - destruct (z_role (s_z cf)); [|done]. destruct (Hrole eq_refl) as [Hset Href]. cbn [keys_now ks_pub] in H.
      destruct (parse_and_validate K _ (now s2) (q_tok q)) as [t| |] eqn:E; cbn [obind] in H; try done. injection H as <-.
      apply Prop_Role.C34_accept_iff in E as (fs & sig & v & A1 & A2 & A3 & -> & A5 & A6 & A7). exists fs, sig, v.
      split_and!; try done. by apply (C87_keys_in_force_are_recent lr sr x s1 y s2 true).
    - destruct (z_access (s_z cf)); [|done]. cbn [keys_now ks_jwk] in H.
      destruct (parse_access X _ _ (now s2) (q_tok q) _) as [c| |] eqn:E; cbn [obind] in H; try done. injection H as <-.
      pose proof (C37_accepted_is_signed _ _ _ _ _ _ _ E) as (Hc & Hd & _).
      apply (C42_key_from_configured_set _ _ _ _ _ _ _ _ _ _ (run_jwk K X U parse cf t0 n nk nj nu calls _ _ H2)) in E
        as (h & kid & url & set & k & A1 & A2 & A3 & A4 & A5 & A6 & A7 & A8).
      exists c, h, kid, url, set, k. split_and!; try done. destruct (Hacc eq_refl _ A5) as (i & set0 & Hin).
      rewrite <- app_assoc, jwks_app in A6. eapply download_since; [|exact A6]. rewrite jwks_app. apply elem_of_app. left. by apply elem_of_jwks.
  Qed.

  (** The token of [q'] has been validated and the result not yet stored. *)
  Definition validated_call (q' : request) (t : ctask) : Prop :=
    match t with CTrans q _ | CCheck q _ _ _ | CStore q _ => q = q' | _ => False end.
  Lemma validated_forward l1 l2 s1 s i q t : yrun l1 s1 -> yrun (l1 ++ l2) s -> z_tasks (y_auth K s1) !! i = Some t ->
    (validated_call q t \/ exists q r, t = CDone q r) ->
    exists t', z_tasks (y_auth K s) !! i = Some t' /\ (validated_call q t' \/ exists q r, t' = CDone q r).
  Proof.
    intros H1. revert s. induction l2 as [|l l2 IH] using rev_ind; intros s H Ht Hv.
    - rewrite app_nil_r in H. assert (s1 = s) as -> by (by eapply yrun_det). eauto.
    - rewrite app_assoc in H. apply yrun_snoc in H as (s2 & H2 & Hs). destruct (IH _ H2 Ht Hv) as (t' & Ht' & Hv').
      destruct Hs; try (exists t'; done). cbn [set_auth y_auth]. clear H1 H0.
      assert (forall j u, z_tasks z = <[j := u]> (z_tasks (y_auth K s)) ->
        (j = i -> validated_call q u \/ exists q r, u = CDone q r) ->
        exists t'', z_tasks z !! i = Some t'' /\ (validated_call q t'' \/ exists q r, t'' = CDone q r)) as Hset.
      { intros j u -> Hu. destruct (decide (j = i)) as [->|Hne].
        - rewrite list_lookup_insert by (by eapply lookup_lt_Some). exists u. split; [done|]. by apply Hu.
        - rewrite list_lookup_insert_ne by done. eauto. }
      match goal with Ha : zstep _ _ _ _ _ = Some _ |- _ => rename Ha into Hz end.
      destruct l as [tt|j q0|j|j ks|j o|j r|j|kk|]; cbn [zstep] in Hz.
      + destruct (z_clock _ <=? tt); [|done]. injection Hz as <-. cbn. eauto.
      + destruct (z_tasks (y_auth K s) !! j) as [[]|] eqn:Ej; try done. injection Hz as <-. eapply Hset; [done|]. intros ->. rewrite Ht' in Ej. injection Ej as ->. by destruct Hv' as [[]|(? & ? & ?)].
      + destruct (z_tasks (y_auth K s) !! j) as [[]|] eqn:Ej; try done. injection Hz as <-. eapply Hset; [done|]. intros ->. rewrite Ht' in Ej. injection Ej as ->. by destruct Hv' as [[]|(? & ? & ?)].
      + destruct (z_tasks (y_auth K s) !! j) as [[]|] eqn:Ej; try done. injection Hz as <-. eapply Hset; [done|]. intros ->. rewrite Ht' in Ej. injection Ej as ->. by destruct Hv' as [[]|(? & ? & ?)].
      + destruct (z_tasks (y_auth K s) !! j) as [[]|] eqn:Ej; try done. injection Hz as <-. eapply Hset; [done|]. intros ->. rewrite Ht' in Ej. injection Ej as ->.
        destruct Hv' as [Hv'|(? & ? & ?)]; [|done]. destruct (target _ _ _ _) as [[]| |]; eauto.
      + destruct (z_tasks (y_auth K s) !! j) as [[]|] eqn:Ej; try done. injection Hz as <-. eapply Hset; [done|]. intros ->. rewrite Ht' in Ej. injection Ej as ->.
        destruct Hv' as [Hv'|(? & ? & ?)]; [|done]. destruct r as [| |]; eauto.
      + destruct (z_tasks (y_auth K s) !! j) as [[]|] eqn:Ej; try done. injection Hz as <-. cbn. eapply Hset; [done|]. intros _. eauto.
      + destruct (z_cache (y_auth K s) !! kk) as [e|]; [|done]. destruct (g_valid _ e); [done|]. injection Hz as <-. cbn. eauto.
      + injection Hz as <-. cbn. eauto.
  Qed.

  (** C87, old validations stop counting.  [s1]: any state; [s2]: a later state by which the calls for the
      same cache key whose token had been validated by [s1] have returned.  A call made more than the cache
      time after [s2], if accepted, rests on a validation made after [s1]. *)
  Theorem C87_old_validations_stop_counting ls s l1 s1 l2 s2 i q p lc sc : yrun ls s ->
    0 < z_exp (s_z cf) -> 0 <= t0 -> now s + z_exp (s_z cf) <= max_int64 ->
    passed l2 l1 s1 -> passed ls l2 s2 ->
    (forall j q' t, cache_key (s_z cf) q' = cache_key (s_z cf) q -> z_tasks (y_auth K s1) !! j = Some t ->
       validated_call q' t -> exists q r, z_tasks (y_auth K s2) !! j = Some (CDone q r)) ->
    happened ls (YAuth K (ZCall K i q)) lc sc -> now s2 + z_exp (s_z cf) < now sc ->
    z_tasks (y_auth K s) !! i = Some (CDone q (Ok p)) ->
    exists j q' p0 y s3, cache_key (s_z cf) q' = cache_key (s_z cf) q /\
      happened ls (YAuth K (ZParse K j (keys_now K cf s3))) (l1 ++ y) s3 /\
      process K X (s_z cf) (keys_now K cf s3) (now s3) q' = Ok p0 /\
      pr_domain p = pr_domain p0 /\ pr_roles p = pr_roles p0 /\ pr_name p = pr_name p0.
  Proof.
    intros Hr Hexp Ht0 Hmax Hp1 Hp2 Hfin Hcall Hlate Hi.
    pose proof (run_auth K X U parse cf t0 n nk nj nu calls _ _ Hr) as Hz.
    destruct (machine_inv _ _ _ _ _ Hz) as (_ & Ht & _).
    destruct (Ht _ _ Hi) as (_ & _ & tl & _ & (j & q' & tv & ts & Hkey & (p0 & Hval & Hev) & Hst & Hle & Hbound) & Hans).
    assert (exists la sa t, passed ls la sa /\ z_tasks (y_auth K sa) !! i = Some t /\ t <> Authorizer.CIdle /\ now sa = tl) as (la & sa & ta & Hpa & Hta & Hna & Hnow).
    { destruct Hans as [(ts' & tv' & (z1 & Ho1 & Ht1 & Hc1) & -> & _)|(z1 & Ho1 & Ht1 & Hc1)];
        destruct (occurs_happened K X U parse cf t0 n nk nj nu calls _ _ _ _ Hr Ho1) as (la & sa & Hh & <-);
        exists la, sa; eexists; (split; [by eapply happened_passed|]); (split; [exact Ht1|]); done. }
    assert (now sc <= tl) as Hafter.
    { pose proof (happened_passed _ _ _ _ _ _ _ _ _ _ _ _ _ _ _ Hcall) as Hpc. rewrite <- Hnow.
      destruct (passed_cases _ _ _ _ _ _ _ _ _ _ _ _ _ _ _ _ Hpc Hpa) as [[x ->]|[x Hx]].
      - destruct Hpc as [_ Hc1], Hpa as [_ Ha1]. by eapply yrun_clock.
      - exfalso. destruct (happened_step K X U parse cf t0 n nk nj nu calls _ _ _ _ _ Hr Hcall) as [s' Hs'].
        inversion Hs' as [? ? ? Hzs _| | | | | | | | | | | |]; subst. cbn [zstep] in Hzs.
        destruct Hpc as [_ Hc1], Hpa as [_ Ha1]. destruct (task_forward _ _ _ _ _ _ _ _ _ _ _ _ _ _ _ _ _ Ha1 Hc1 Hta) as (t' & Ht' & Hn' & _).
        rewrite Ht' in Hzs. specialize (Hn' Hna). by destruct t'. }
    destruct Hst as (zs & Hos & Hts & Hcs). destruct (occurs_happened K X U parse cf t0 n nk nj nu calls _ _ _ _ Hr Hos) as (lst & sst_ & Hhs & <-).
    pose proof (happened_passed _ _ _ _ _ _ _ _ _ _ _ _ _ _ _ Hhs) as Hps. pose proof (passed_clock K X U parse cf s0 _ _ _ _ Hps Hr) as Hcl.
    assert (t0 <= ts) as Hts0. { rewrite <- Hcs. destruct Hps as [_ Hq]. by apply (start_clock K X U parse cf t0 n nk nj nu calls) in Hq. }
    assert (ts <= now s) as Htsn by (unfold System.now in *; lia).
    specialize (Hbound Hexp ltac:(lia) ltac:(lia)).
    assert (exists x, lst = l2 ++ x) as [x ->].
    { destruct (passed_cases _ _ _ _ _ _ _ _ _ _ _ _ _ _ _ _ Hp2 Hps) as [Hx|[x Hx]]; [done|]. exfalso. subst l2. destruct Hps as [_ Hq1], Hp2 as [_ Hq2].
      pose proof (yrun_clock K X U parse cf s0 _ _ _ _ Hq1 Hq2) as Hcc. unfold System.now in *. lia. }
    destruct Hval as (ks & z1 & Hocc & Htask & <- & Hproc).
    destruct (occurs_happened K X U parse cf t0 n nk nj nu calls _ _ _ _ Hr Hocc) as (l3 & s3 & Hh & <-).
    destruct (happened_step K X U parse cf t0 n nk nj nu calls _ _ _ _ _ Hr Hh) as [s4 Hs].
    assert (ks = keys_now K cf s3) as -> by (inversion Hs; subst; done).
    assert (passed ls l1 s1) as Hp1'. { destruct Hp2 as [[y ->] _]. by apply passed_mono. }
    assert (exists y, l3 = l1 ++ y) as [y ->].
    { pose proof (happened_passed _ _ _ _ _ _ _ _ _ _ _ _ _ _ _ Hh) as Hpl. destruct (passed_cases _ _ _ _ _ _ _ _ _ _ _ _ _ _ _ _ Hp1' Hpl) as [Hx|[y Hy]]; [done|].
      destruct y as [|y0 y]; [exists []; by rewrite app_nil_r in Hy |- *|]. exfalso.
      assert (y0 = YAuth K (ZParse K j (keys_now K cf s3))) as ->.
      { destruct Hp1' as [[b Hb] _], Hh as [[c Hc] _]. subst l1. rewrite <- app_assoc in Hb. rewrite Hb in Hc. apply app_inv_head in Hc. by injection Hc. }
      destruct Hp1' as [_ Hq1]. subst l1. pose proof (yrun_at K X U parse cf s0 _ _ _ _ Hq1) as (w1 & w2 & Hw1 & Hws & Hw2).
      destruct Hh as [_ Hr3]. assert (w1 = s3) as -> by (by eapply yrun_det).
      assert (exists t, z_tasks (y_auth K w2) !! j = Some t /\ validated_call q' t) as (tw & Htw & Hvw).
      { inversion Hws as [? ? z Hzs| | | | | | | | | | | |]; subst. cbn [zstep] in Hzs. rewrite Htask in Hzs.
        change (z_clock (y_auth K s3)) with (now s3) in Hzs, Hproc. rewrite Hproc in Hzs. injection Hzs as <-. cbn [set_auth y_auth set_task z_tasks].
        rewrite list_lookup_insert by (by eapply lookup_lt_Some). eexists. split; [done|]. by destruct (z_policy (s_z cf)). }
      replace (l3 ++ YAuth K (ZParse K j (keys_now K cf s3)) :: y) with ((l3 ++ [YAuth K (ZParse K j (keys_now K cf s3))]) ++ y) in Hq1 by (by rewrite <- app_assoc).
      destruct (validated_forward _ _ _ _ _ q' _ Hw2 Hq1 Htw (or_introl Hvw)) as (t1 & Ht1 & Hv1).
      assert (exists q r, z_tasks (y_auth K s2) !! j = Some (CDone q r)) as (q1 & r1 & Hdone).
      { destruct Hv1 as [Hv1|(q1 & r1 & ->)]; [by eapply Hfin|]. destruct Hp1 as [[b Hb] _], Hp2 as [_ Hq2].
        rewrite Hb in Hq2. replace (l3 ++ YAuth K (ZParse K j (keys_now K cf s3)) :: y) with ((l3 ++ [YAuth K (ZParse K j (keys_now K cf s3))]) ++ y) in Hq2 by (by rewrite <- app_assoc).
        destruct (task_forward _ _ _ _ _ _ _ _ _ _ _ _ _ _ _ _ _ Hq1 Hq2 Ht1) as (t' & Ht' & _ & Hd'). rewrite (Hd' _ _ eq_refl) in Ht'. eauto. }
      destruct Hp2 as [_ Hq2], Hps as [_ Hq].
      destruct (task_forward _ _ _ _ _ _ _ _ _ _ _ _ _ _ _ _ _ Hq2 Hq Hdone) as (t' & Ht' & _ & Hd'). rewrite (Hd' _ _ eq_refl) in Ht'. rewrite Hts in Ht'. discriminate Ht'. }
    exists j, q', p0, y, s3. split; [done|]. split; [done|]. split; [done|].
    destruct (z_policy (s_z cf)); [destruct Hev as (acc & _ & ->)|subst p]; done.
  Qed.

  (** C87.  [sr]: the keys have been changed at the servers, no run is applying an older list; [s1]: lists
      and key sets have been received since, by runs that have ended; [s2]: the calls for the same cache key
      whose token had been validated by [s1] have returned.  A call made more than the cache time after
      [s2], if accepted, rests on a token that was verified after [s1] with a key received after [sr]. *)
  Theorem C87_revoked_keys_stop_counting ls s lr sr x s1 l2 s2 i q p lc sc : yrun ls s ->
    0 < z_exp (s_z cf) -> 0 <= t0 -> now s + z_exp (s_z cf) <= max_int64 ->
    yrun lr sr -> passed l2 (lr ++ x) s1 -> passed ls l2 s2 ->
    (z_role (s_z cf) = true -> settled sr true /\ refreshed x s1 true) -> (z_access (s_z cf) = true -> refetched x) ->
    (forall j q' t, cache_key (s_z cf) q' = cache_key (s_z cf) q -> z_tasks (y_auth K s1) !! j = Some t ->
       validated_call q' t -> exists q r, z_tasks (y_auth K s2) !! j = Some (CDone q r)) ->
    happened ls (YAuth K (ZCall K i q)) lc sc -> now s2 + z_exp (s_z cf) < now sc ->
    z_tasks (y_auth K s) !! i = Some (CDone q (Ok p)) ->
    exists j q' p0 y s3, cache_key (s_z cf) q' = cache_key (s_z cf) q /\
      happened ls (YAuth K (ZParse K j (keys_now K cf s3))) (lr ++ x ++ y) s3 /\ genuine (x ++ y) (now s3) q' p0 /\
      pr_domain p = pr_domain p0 /\ pr_roles p = pr_roles p0 /\ pr_name p = pr_name p0.
  Proof.
    intros Hr Hexp Ht0 Hmax Hlr Hp1 Hp2 Hrole Hacc Hfin Hcall Hlate Hi.
    destruct (C87_old_validations_stop_counting _ _ _ _ _ _ _ _ _ _ _ Hr Hexp Ht0 Hmax Hp1 Hp2 Hfin Hcall Hlate Hi)
      as (j & q' & p0 & y & s3 & H1 & H2 & H3 & H4). exists j, q', p0, y, s3. rewrite app_assoc. split; [done|]. split; [done|]. split; [|done].
    destruct Hp1 as [_ Hr1], H2 as [_ Hr3]. by eapply (genuine_since lr sr x s1 y s3).
  Qed.

  (** C87, policies.  From [s1] on a policy is accepted only when both its signatures are by keys received
      after [sr]. *)
  Theorem C87_policies_by_recent_keys lr sr x s1 y s2 d i r s3 f sp : yrun lr sr -> settled sr true -> settled sr false ->
    yrun (lr ++ x) s1 -> refreshed x s1 true -> refreshed x s1 false -> yrun ((lr ++ x) ++ y) s2 ->
    ystep (YReply K d i r) s2 s3 -> y_fetch K s3 !! d = Some f -> fs_calls f !! i = Some (FRet (Some sp) None) ->
    (exists etag b, r = Response 304 etag b) \/ properly_signed (x ++ y) (now s2) sp.
  Proof.
    intros Hr St Sf H1 Rt Rf H2 Hs Hf Hc. inversion Hs; subst. cbn [set_fetch y_fetch] in Hf. rewrite list_lookup_insert in Hf by (by eapply lookup_lt_Some).
    injection Hf as ->. match goal with Hx : fstep _ _ _ _ = Some _ |- _ => cbn [fstep] in Hx; rename Hx into Hst end.
    match type of Hst with match ?e with _ => _ end = _ => destruct e as [[| |retry tp inm at_| |]|] eqn:Ei; try done end.
    destruct (fetch_response K fc tp (get_pub_key (y_keys K s2)) (now s2) r) as [res upd] eqn:E. injection Hst as <-. cbn [fs_calls] in Hc.
    rewrite list_lookup_insert in Hc by (by eapply lookup_lt_Some). injection Hc as Hc. destruct res as [sp'|e|]; [|by destruct retry|done]. injection Hc as ->.
    destruct r as [e|status etag b]; [by injection E|]. destruct (Z.eqb_spec status 304) as [->|Hn]; [left; eauto|right].
    cbn [fetch_response] in E. destruct (Z.eqb_spec status 304); [done|]. destruct (Z.eqb_spec status 200) as [->|]; [|done]. cbn [negb] in E. destruct b as [| |sp'']; [done|by destruct (sp_verify _ _ _ _)|].
    destruct (sp_verify _ _ _ _) as [[]| |] eqn:Ev; try done. apply sp_verify_iff in Ev as (sp3 & [= <-] & Hv).
    destruct (sp_data sp'') as [dd|] eqn:Ed; [|done]. destruct (sd_expires dd) eqn:Ee; [|done]. injection E as <- _.
    destruct Hv as (d' & e & v & m & v' & m' & A1 & A2 & A3 & A4 & A5 & A6 & A7 & A8 & A9). exists d', e, v, m, v', m'.
    split_and!; try done; [by apply (C87_keys_in_force_are_recent lr sr x s1 y s2 true)|by apply (C87_keys_in_force_are_recent lr sr x s1 y s2 false)].
  Qed.
End claims.

(** ** An execution with a revocation
    Tokens signed with keys "0" (role token) and "1" (access token) are accepted.  Then both are replaced at
    the servers and fetched again: for the cache time the old tokens are still accepted, then no more; tokens
    signed with the new keys are accepted. *)
From Verif Require Import SystemExec.
From Verif Require Import GoStrings.
Section example.
  Import Prop_Fetcher Prop_Authorizer.
  Definition vcf : @sconf unit :=
    SConf (ZConf false None [] (5 * second) true true (AConf false 0 0 false ∅)) pcf1 (JConf (B "https://zts/keys") [B "https://b"]) [].
  Definition vt : time := 150 * second.
  Definition old_tok : str := B "d=dom;r=r1;p=user;t=1;e=900;k=0;s=ZTSKEYd=dom;r=r1;p=user;t=1;e=900;k=0".
  Definition new_tok : str := B "d=dom;r=r1;p=user;t=1;e=900;k=1;s=NEWKEYd=dom;r=r1;p=user;t=1;e=900;k=1".
  Definition old_acc : str := B "RS256,1.A.K1RS256,1A".
  Definition new_acc : str := B "RS256,2.A.K2RS256,2A".
  Definition vr (tok : str) : request := Req MRole tok (B "get") (B "/a") [] None.
  Definition va (tok : str) : request := Req MAccess tok (B "get") (B "/a") [] None.
  Definition vcall (i : nat) (q : request) : list (@cmd unit) := [DCall i q; DLook i; DParse i; DStore i].
  Definition vlook (i : nat) (q : request) : list (@cmd unit) := [DCall i q; DLook i].
  Definition vjwk (i : nat) (set : jwk_set key) : list (@cmd unit) :=
    map DJwk [JBegin i; JFetch i (B "https://zts/keys") (Some set); JFetch i (B "https://b") (Some []); JEnd i].
  Definition vkeys (i : nat) (t : time) (tag id key : str) (sweep : list str) : list (@cmd unit) :=
    map DKey ([PBegin i t; PResp i (Response 200 tag (Doc [Some (id, key)])) t; PPut i id; PNext i] ++ map (PVisit i) sweep ++ [PNext i]).
  Definition vsA : list (@cmd unit) := vkeys 0 vt (B "a") (B "0") (B "ZTSKEY") [B "0"] ++ vjwk 0 [(B "1", Some (KRSA (B "K1")))] ++
    vcall 0 (vr old_tok) ++ vcall 1 (va old_acc).
  Definition vsB : list (@cmd unit) := vkeys 2 vt (B "b") (B "1") (B "NEWKEY") [B "0"; B "1"] ++ vjwk 1 [(B "2", Some (KRSA (B "K2")))].
  Definition vsC : list (@cmd unit) := [DTick (152 * second)] ++ vlook 2 (vr old_tok) ++ vlook 3 (va old_acc) ++ [DTick (156 * second)].
  Definition vsD : list (@cmd unit) := vcall 4 (vr new_tok).
  Definition vsE : list (@cmd unit) := vcall 5 (va new_acc) ++ [DCall 6 (vr old_tok); DLook 6; DParse 6; DCall 7 (va old_acc); DLook 7; DParse 7].
  Definition vinit : sys K1 := yinit K1 vcf vt 8 2 2 0 (fun _ => []).
  Notation driveV := (drive K1 X0 U0 parse1 vcf).
  Definition verdicts (s : sys K1) : list (option bool) :=
    map (fun t => match t with CDone _ (Ok _) => Some true | CDone _ _ => Some false | _ => None end) (z_tasks (y_auth K1 s)).
  Definition waiting (s : sys K1) : list bool := map (fun t => match t with Authorizer.CIdle | CDone _ _ => true | _ => false end) (z_tasks (y_auth K1 s)).
  Definition asked (s : sys K1) (i : nat) : option request := match z_tasks (y_auth K1 s) !! i with Some (CDone q _) => Some q | _ => None end.
  Definition runs_of (s : sys K1) : list bool := map applying (p_tasks (y_keys K1 s)).
  Definition ended (s : sys K1) (i : nat) : bool := match p_tasks (y_keys K1 s) !! i with Some (PDone None) => true | _ => false end.
  Definition key_events (tr : list (@ylabel K1 unit * sys K1)) : list plabel := omap (fun '(l, _) => match l with YKey _ l => Some l | _ => None end) tr.
  Definition jwk_result (s : sys K1) (i : nat) : option (outcome unit) := match j_tasks (y_jwk K1 s) !! i with Some t => jresult t | None => None end.
  Definition jwk_idle (s : sys K1) (i : nat) : bool := match j_tasks (y_jwk K1 s) !! i with Some JIdle => true | _ => false end.
  Lemma drive_acc cs tr s : driveV cs tr s = match driveV cs [] s with Some (tr', s') => Some (tr' ++ tr, s') | None => None end.
  Proof.
    revert tr s. induction cs as [|c cs IH]; intros tr s; cbn [drive]; [done|]. destruct (yexec _ _ _ _ _ c s) as [[l s']|]; [|done].
    rewrite (IH ((l, s) :: tr)), (IH [(l, s)]). destruct (driveV cs [] s') as [[tr' s'']|]; [|done]. by rewrite <- app_assoc.
  Qed.
  Notation yrunV := (System.yrun K1 X0 U0 parse1 vcf vinit).
  Notation happenedV := (happened K1 X0 U0 parse1 vcf vinit).
  Notation passedV := (passed K1 X0 U0 parse1 vcf vinit).
  Definition vobs (s : sys K1) := (verdicts s, waiting s, runs_of s, now K1 s).
  Definition vtrue (k : nat) : list (option bool) := replicate k (Some true).
  Lemma inj3 A C D (a a' : A) (b b' : C) (c c' : D) : (a, b, c) = (a', b', c') -> a = a' /\ b = b' /\ c = c'.
  Proof. by intros [= -> -> ->]. Qed.
  Lemma inj4 A C D E (a a' : A) (b b' : C) (c c' : D) (d d' : E) : (a, b, c, d) = (a', b', c', d') -> a = a' /\ b = b' /\ c = c' /\ d = d'.
  Proof. by intros [= -> -> -> ->]. Qed.
  Lemma inj8 A1 A2 A3 A4 A5 A6 A7 A8 (a1 b1 : A1) (a2 b2 : A2) (a3 b3 : A3) (a4 b4 : A4) (a5 b5 : A5) (a6 b6 : A6) (a7 b7 : A7) (a8 b8 : A8) :
    Some (a1, a2, a3, a4, a5, a6, a7, a8) = Some (b1, b2, b3, b4, b5, b6, b7, b8) ->
    a1 = b1 /\ a2 = b2 /\ a3 = b3 /\ a4 = b4 /\ a5 = b5 /\ a6 = b6 /\ a7 = b7 /\ a8 = b8.
  Proof. by intros [= -> -> -> -> -> -> -> ->]. Qed.
  Lemma stage cs tr s tr' s' : traced K1 X0 U0 parse1 vcf vinit tr s -> driveV cs [] s = Some (tr', s') -> traced K1 X0 U0 parse1 vcf vinit (tr' ++ tr) s'.
  Proof. intros Ht E. eapply (drive_traced _ _ _ _ _ _ cs tr); [|exact Ht]. by rewrite drive_acc, E. Qed.
  Lemma v_run : exists lA sA xB sB xC sC xD sD xE sE,
    yrunV lA sA /\ yrunV (lA ++ xB) sB /\ yrunV ((lA ++ xB) ++ xC) sC /\
    yrunV (((lA ++ xB) ++ xC) ++ YAuth K1 (ZCall K1 4 (vr new_tok)) :: xD) sD /\
    yrunV ((((lA ++ xB) ++ xC) ++ YAuth K1 (ZCall K1 4 (vr new_tok)) :: xD) ++ YAuth K1 (ZCall K1 5 (va new_acc)) :: xE) sE /\
    vobs sA = (vtrue 2 ++ replicate 6 None, replicate 8 true, replicate 4 false, vt) /\
    vobs sB = (vtrue 2 ++ replicate 6 None, replicate 8 true, replicate 4 false, vt) /\
    vobs sC = (vtrue 4 ++ replicate 4 None, replicate 8 true, replicate 4 false, 156 * second) /\
    vobs sD = (vtrue 5 ++ replicate 3 None, replicate 8 true, replicate 4 false, 156 * second) /\
    vobs sE = (vtrue 6 ++ [Some false; Some false], replicate 8 true, replicate 4 false, 156 * second) /\
    YKey K1 (PResp 2 (Response 200 (B "b") (Doc [Some (B "1", B "NEWKEY")])) vt) ∈ xB /\ ended sB 2 = true /\
    jwk_idle sA 1 = true /\ jwk_result sB 1 = Some (Ok tt) /\ 
    map (asked sE) (seq 0 8) = map Some [vr old_tok; va old_acc; vr old_tok; va old_acc; vr new_tok; va new_acc; vr old_tok; va old_acc].
  Proof.
    assert (
      match driveV vsA [] vinit with None => None | Some (trA, sA) =>
        match driveV vsB [] sA with None => None | Some (trB, sB) =>
          match driveV vsC [] sB with None => None | Some (trC, sC) =>
            match driveV vsD [] sC with None => None | Some (trD, sD) =>
              match driveV vsE [] sD with None => None | Some (trE, sE) =>
      Some (vobs sA, vobs sB, vobs sC, vobs sD, vobs sE, key_events trB, (ended sB 2, jwk_idle sA 1, jwk_result sB 1), map (asked sE) (seq 0 8))
      end end end end end =
      Some ((vtrue 2 ++ replicate 6 None, replicate 8 true, replicate 4 false, vt),
        (vtrue 2 ++ replicate 6 None, replicate 8 true, replicate 4 false, vt),
        (vtrue 4 ++ replicate 4 None, replicate 8 true, replicate 4 false, 156 * second),
        (vtrue 5 ++ replicate 3 None, replicate 8 true, replicate 4 false, 156 * second),
        (vtrue 6 ++ [Some false; Some false], replicate 8 true, replicate 4 false, 156 * second),
        rev (PBegin 2 vt :: PResp 2 (Response 200 (B "b") (Doc [Some (B "1", B "NEWKEY")])) vt :: map (PPut 2) [B "1"] ++ [PNext 2; PVisit 2 (B "0"); PVisit 2 (B "1"); PNext 2]),
        (true, true, Some (Ok tt)), map Some [vr old_tok; va old_acc; vr old_tok; va old_acc; vr new_tok; va new_acc; vr old_tok; va old_acc])) as Ho
      by (vm_compute; reflexivity).
    destruct (driveV vsA [] vinit) as [[trA sA]|] eqn:EA; [|discriminate Ho].
    destruct (driveV vsB [] sA) as [[trB sB]|] eqn:EB; [|discriminate Ho].
    destruct (driveV vsC [] sB) as [[trC sC]|] eqn:EC; [|discriminate Ho].
    destruct (driveV vsD [] sC) as [[trD sD]|] eqn:ED; [|discriminate Ho].
    destruct (driveV vsE [] sD) as [[trE sE]|] eqn:EE; [|discriminate Ho].
    pose proof (drive_run _ _ _ _ _ _ _ _ _ EA) as TA. pose proof (stage _ _ _ _ _ TA EB) as TB. pose proof (stage _ _ _ _ _ TB EC) as TC.
    pose proof (stage _ _ _ _ _ TC ED) as TD. pose proof (stage _ _ _ _ _ TD EE) as TE.
    unfold vsD, vcall in ED. apply drive_first in ED as (dl & ds & dx & Hd & Hdx).
    unfold vsE, vcall in EE. cbn [app] in EE. apply drive_first in EE as (el & es & ex & He & Hex).
    cbn [yexec zexec] in Hd, He. unfold zexec in Hd, He.
    destruct (zstep _ _ _ _ (y_auth K1 sC)); [|discriminate Hd]. destruct (zstep _ _ _ _ (y_auth K1 sD)); [|discriminate He].
    assert (dl = YAuth K1 (ZCall K1 4 (vr new_tok))) as -> by (injection Hd; done). assert (el = YAuth K1 (ZCall K1 5 (va new_acc))) as -> by (injection He; done). clear Hd He.
    apply inj8 in Ho as (OA & OB & OC & OD & OE & OK & OR & OQ).
    cbn [fmap list_fmap rev] in Hdx, Hex.
    exists (rev trA.*1), sA, (rev trB.*1), sB, (rev trC.*1), sC, dx, sD, ex, sE.
    destruct TA as [RA _], TB as [RB _], TC as [RC _], TD as [RD _], TE as [RE _].
    rewrite fmap_app, rev_app_distr in RB. rewrite fmap_app, rev_app_distr, fmap_app, rev_app_distr in RC.
    rewrite fmap_app, rev_app_distr, fmap_app, rev_app_distr, fmap_app, rev_app_distr, Hdx in RD.
    rewrite fmap_app, rev_app_distr, fmap_app, rev_app_distr, fmap_app, rev_app_distr, fmap_app, rev_app_distr, Hdx, Hex in RE.
    cbn [app] in *. do 5 (split; [done|]). do 5 (split; [done|]).
    apply inj3 in OR as (OR1 & OR2 & OR3). split; [|exact (conj OR1 (conj OR2 (conj OR3 OQ)))]. clear OR1 OR2 OR3 OQ OA OB OC OD OE RA RB RC RD RE EA EB EC.
    assert (PResp 2 (Response 200 (B "b") (Doc [Some (B "1", B "NEWKEY")])) vt ∈ key_events trB) as Hin.
    { rewrite OK. apply elem_of_list_In, in_rev. rewrite rev_involutive. right. by left. }
    apply elem_of_list_omap in Hin as ([l sl] & Hin & Hl). destruct l; try discriminate Hl. injection Hl as ->.
    apply elem_of_list_In. rewrite <- in_rev. apply elem_of_list_In, elem_of_list_fmap. by exists (YKey K1 (PResp 2 (Response 200 (B "b") (Doc [Some (B "1", B "NEWKEY")])) vt), sl).
  Qed.
  Lemma asked_done s i q : asked s i = Some q -> verdicts s !! i = Some (Some true) -> exists p, z_tasks (y_auth K1 s) !! i = Some (CDone q (Ok p)).
  Proof.
    unfold asked, verdicts. rewrite list_lookup_fmap. destruct (z_tasks (y_auth K1 s) !! i) as [[| | | | | |q' [p| |]]|]; try done. intros [= ->]. eauto.
  Qed.
  Lemma waiting_done s j t q : waiting s = replicate 8 true -> z_tasks (y_auth K1 s) !! j = Some t -> validated_call q t -> False.
  Proof.
    intros Hw Ht Hv. assert (waiting s !! j = Some (match t with Authorizer.CIdle | CDone _ _ => true | _ => false end)) as Hx by (unfold waiting; by rewrite list_lookup_fmap, Ht).
    rewrite Hw in Hx. apply lookup_replicate in Hx as [Hx _]. by destruct t.
  Qed.
  (** Both calls meet the hypotheses; the same requests with the old tokens were granted before. *)
  Example C87_nonvacuous : exists ls s lr sr x s1,
    yrunV ls s /\ 0 < z_exp (s_z vcf) /\ 0 <= vt /\ now K1 s + z_exp (s_z vcf) <= max_int64 /\ yrunV lr sr /\ passedV ls (lr ++ x) s1 /\
    settled K1 sr true /\ refreshed K1 x s1 true /\ refetched K1 vcf x /\
    (forall j q' t, z_tasks (y_auth K1 s1) !! j = Some t -> ~ validated_call q' t) /\
    (forall i q, (i, q) ∈ [(4%nat, vr new_tok); (5%nat, va new_acc)] -> exists lc sc p,
       happenedV ls (YAuth K1 (ZCall K1 i q)) lc sc /\ now K1 s1 + z_exp (s_z vcf) < now K1 sc /\ z_tasks (y_auth K1 s) !! i = Some (CDone q (Ok p))) /\
    verdicts s = [Some true; Some true; Some true; Some true; Some true; Some true; Some false; Some false] /\
    map (asked s) [0; 1; 2; 3; 6; 7]%nat = map Some [vr old_tok; va old_acc; vr old_tok; va old_acc; vr old_tok; va old_acc].
  Proof.
    destruct v_run as (lA & sA & xB & sB & xC & sC & xD & sD & xE & sE & RA & RB & RC & RD & RE & OA & OB & OC & OD & OE & Hin & He & Hji & Hjr & Hq).
    unfold vobs in OA, OB, OC, OD, OE.
    apply inj4 in OA as (_ & _ & OA3 & OA4), OB as (_ & OB2 & _ & OB4), OC as (_ & _ & _ & OC4), OD as (_ & _ & _ & OD4), OE as (OE1 & _ & _ & OE4).
    eexists _, sE, lA, sA, xB, sB. split; [exact RE|]. split; [done|]. split; [done|]. split; [by rewrite OE4|]. split; [done|].
    split; [split; [rewrite <- !app_assoc; rewrite app_assoc; by eexists|done]|].
    split. { intros i t _ Ht. assert (runs_of sA !! i = Some (applying t)) as Hx by (unfold runs_of; by rewrite list_lookup_fmap, Ht). rewrite OA3 in Hx. by apply lookup_replicate in Hx as [? _]. }
    split. { eexists 2%nat, _, _, _. split; [done|]. split; [exact Hin|]. unfold ended in He. by destruct (p_tasks (y_keys K1 sB) !! 2%nat) as [[| | | |[]|]|]. }
    split. { unfold jwk_idle in Hji. unfold jwk_result in Hjr. destruct (j_tasks (y_jwk K1 sA) !! 1%nat) as [[| |]|] eqn:E1; try discriminate Hji.
      destruct (j_tasks (y_jwk K1 sB) !! 1%nat) as [t|] eqn:E2; [|discriminate Hjr]. by eapply (C87_one_update_fetches_all K1 X0 U0 parse1 vcf vt 8 2 2 0 (fun _ => []) lA sA xB sB 1 t). }
    split. { intros j q' t Ht Hv. by eapply waiting_done. }
    cbn [map seq] in Hq. injection Hq as Q0 Q1 Q2 Q3 Q4 Q5 Q6 Q7.
    split. { intros i q Hiq. rewrite !elem_of_cons, elem_of_nil in Hiq. destruct Hiq as [Hiq|[Hiq|[]]].
      - assert (i = 4%nat /\ q = vr new_tok) as [-> ->] by (injection Hiq; done).
        destruct (asked_done sE 4 (vr new_tok) Q4) as [p Hp]; [by rewrite OE1|]. exists ((lA ++ xB) ++ xC), sC, p. split; [|split; [by rewrite OB4, OC4|done]].
        split; [|done]. exists (xD ++ YAuth K1 (ZCall K1 5 (va new_acc)) :: xE). by rewrite <- app_assoc.
      - assert (i = 5%nat /\ q = va new_acc) as [-> ->] by (injection Hiq; done).
        destruct (asked_done sE 5 (va new_acc) Q5) as [p Hp]; [by rewrite OE1|]. eexists _, sD, p. split; [split; [by eexists|exact RD]|split; [by rewrite OB4, OD4|done]]. }
    split; [exact OE1|]. cbn [map]. by rewrite Q0, Q1, Q2, Q3, Q6, Q7.
  Qed.
End example.

Print Assumptions C87_keys_in_force_are_recent.
Print Assumptions C87_key_sets_in_force_are_recent.
Print Assumptions C87_one_update_fetches_all.
Print Assumptions C87_old_validations_stop_counting.
Print Assumptions C87_revoked_keys_stop_counting.
Print Assumptions C87_policies_by_recent_keys.
