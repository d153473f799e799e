(** * Facts about the public key daemon *)
From Verif Require Export PubKey.

(** [key] is the text of the last entry with this id. *)
Definition last_entry (l : key_list) (id key : str) : Prop :=
  exists l1 l2, l = l1 ++ Some (id, key) :: l2 /\ forall key', Some (id, key') ∉ l2.

Lemma last_entry_nil id key : ~ last_entry [] id key.
Proof. intros ([|] & l2 & H & _); done. Qed.
Lemma last_entry_cons x l id key :
  last_entry (x :: l) id key <-> last_entry l id key \/ (x = Some (id, key) /\ forall key', Some (id, key') ∉ l).
Proof.
  split.
  - intros (l1 & l2 & H & Hn). destruct l1 as [|y l1]; cbn in H; injection H as -> ->; [by right|left].
    by exists l1, l2.
  - intros [(l1 & l2 & -> & Hn)|[-> Hn]]; [by exists (x :: l1), l2|by exists [], l].
Qed.
Lemma last_entry_elem l id key : last_entry l id key -> Some (id, key) ∈ l.
Proof. intros (l1 & l2 & -> & _). apply elem_of_app. right. left. Qed.
Lemma last_entry_exists l id key : Some (id, key) ∈ l -> exists key', last_entry l id key'.
Proof.
  revert key. induction l as [|x l IH] using rev_ind; intros key H; [by apply elem_of_nil in H|].
  destruct (decide (option_map fst x = Some id)) as [E|E].
  - destruct x as [[id' k]|]; [|done]. injection E as ->. exists k, l, []. split; [done|]. intros ? Hx. by apply elem_of_nil in Hx.
  - apply elem_of_app in H as [H|H]; [|apply elem_of_list_singleton in H as <-; done].
    destruct (IH _ H) as (k & l1 & l2 & -> & Hn). exists k, l1, (l2 ++ [x]). split; [by rewrite <- app_assoc|].
    intros k' Hx. apply elem_of_app in Hx as [Hx|Hx]; [by eapply Hn|]. apply elem_of_list_singleton in Hx as <-. done.
Qed.

Section facts.
  Context {V : Type} (parse : str -> option V) (cf : pconf).
  Notation pst := (@pst V). Notation ptask := (@ptask V).

  (** ** The decoding loop *)
  Definition good_list (l : key_list) : Prop :=
    forall x, x ∈ l -> exists id key v, x = Some (id, key) /\ parse key = Some v.

  Lemma decode_keys_gen l acc cm : decode_keys parse l acc = Ok cm ->
    forall id v, cm !! id = Some v <->
      (exists key, last_entry l id key /\ parse key = Some v) \/ ((forall key, Some (id, key) ∉ l) /\ acc !! id = Some v).
  Proof.
    revert acc. induction l as [|[[id0 key0]|] l IH]; intros acc H id v; cbn [decode_keys] in H; [| |done].
    - injection H as <-. split; [intros H; right; split; [|done]; intros k Hk; by apply elem_of_nil in Hk|].
      intros [(k & Hk & _)|[_ H]]; [by apply last_entry_nil in Hk|done].
    - destruct (parse key0) as [v0|] eqn:E; [|done]. rewrite (IH _ H id v). clear IH H. split.
      + intros [(k & Hk & Hv)|[Hn Hv]].
        * left. exists k. split; [|done]. apply last_entry_cons. by left.
        * destruct (decide (id0 = id)) as [->|Hne].
          -- rewrite lookup_insert in Hv. injection Hv as <-. left. exists key0. split; [|done]. apply last_entry_cons. by right.
          -- rewrite lookup_insert_ne in Hv by done. right. split; [|done]. intros k Hk.
             apply elem_of_cons in Hk as [[= ? ?]|Hk]; [by subst|]. by eapply Hn.
      + intros [(k & Hk & Hv)|[Hn Hv]].
        * apply last_entry_cons in Hk as [Hk|[[= <- <-] Hn]]; [left; eauto|]. right. split; [done|].
          rewrite lookup_insert. by rewrite E in Hv.
        * right. split; [intros k Hk; apply (Hn k); by right|]. rewrite lookup_insert_ne; [done|]. intros ->. apply (Hn key0). left.
  Qed.
  Lemma decode_keys_spec l cm : decode_keys parse l ∅ = Ok cm ->
    forall id v, cm !! id = Some v <-> exists key, last_entry l id key /\ parse key = Some v.
  Proof.
    intros H id v. rewrite (decode_keys_gen _ _ _ H). rewrite lookup_empty. split; [intros [?|[_ ?]]; done|by left].
  Qed.
  Lemma decode_keys_ok l acc : (exists cm, decode_keys parse l acc = Ok cm) <-> good_list l.
  Proof.
    revert acc. induction l as [|[[id key]|] l IH]; intros acc; cbn [decode_keys].
    - split; [intros _ x Hx; by apply elem_of_nil in Hx|eauto].
    - destruct (parse key) as [v|] eqn:E.
      + rewrite IH. split.
        * intros H x Hx. apply elem_of_cons in Hx as [->|Hx]; [eauto|by apply H].
        * intros H x Hx. apply H. by right.
      + split; [by intros (? & ?)|]. intros H. destruct (H (Some (id, key))) as (? & ? & ? & [= <- <-] & Hv); [left|]. by rewrite E in Hv.
    - split; [by intros (? & ?)|]. intros H. destruct (H None) as (? & ? & ? & ? & _); [left|done].
  Qed.
  Lemma decode_keys_err l acc e : decode_keys parse l acc = Err e -> exists id key, Some (id, key) ∈ l /\ parse key = None.
  Proof.
    revert acc. induction l as [|[[id key]|] l IH]; intros acc H; cbn [decode_keys] in H; [done| |done].
    destruct (parse key) as [v|] eqn:E.
    - destruct (IH _ H) as (id' & key' & Hin & ?). exists id', key'. split; [by right|done].
    - exists id, key. split; [left|done].
  Qed.
  Lemma decode_keys_panic l acc : decode_keys parse l acc = Panic -> None ∈ l.
  Proof.
    revert acc. induction l as [|[[id key]|] l IH]; intros acc H; cbn [decode_keys] in H; [done| |left].
    destruct (parse key) as [v|] eqn:E; [|done]. right. eauto.
  Qed.

  (** ** Frame lemmas *)
  Lemma keys_with_keys z m (s : pst) : keys_at z (with_keys z m s) = m.
  Proof. by destruct z. Qed.
  Lemma keys_with_keys_ne z z' m (s : pst) : z <> z' -> keys_at z (with_keys z' m s) = keys_at z s.
  Proof. by destruct z, z'. Qed.
  Lemma keys_with_task z i t (s : pst) : keys_at z (with_task i t s) = keys_at z s.
  Proof. by destruct z. Qed.
  Lemma keys_with_etags z g (s : pst) : keys_at z (with_etags g s) = keys_at z s.
  Proof. by destruct z. Qed.
  Lemma tasks_with_keys z m (s : pst) : p_tasks (with_keys z m s) = p_tasks s.
  Proof. by destruct z. Qed.
  Lemma etags_with_keys z m (s : pst) : p_etags (with_keys z m s) = p_etags s.
  Proof. by destruct z. Qed.
  Lemma tasks_with_task i t (s : pst) : p_tasks (with_task i t s) = <[i := t]> (p_tasks s).
  Proof. done. Qed.

  (** What one step of run [i] does: [i]'s phase and the keys of its environment;
      nothing else. *)
  Definition moves (l : plabel) (s : pst) (t t' : ptask) (m m' : gmap str V) : Prop :=
    match l with
    | PBegin i now => t = PIdle /\ m' = m /\
        t' = (if pc_url_ok cf then PSent (g_get now (env_name (is_zts i)) (p_etags s))
              else PDone (Some (ErrMsg "error creating get pubkey request")))
    | PResp i r now => exists c, t = PSent c /\ t' = fst (respond parse c r) /\ m' = m
    | PPut i k => exists cm todo v, t = PStore cm todo /\ todo !! k = Some v /\ t' = PStore cm (delete k todo) /\ m' = <[k := v]> m
    | PVisit i k => exists cm todo, t = PSweep cm todo /\ k ∈ todo /\ t' = PSweep cm (todo ∖ {[k]}) /\
        m' = match cm !! k with Some _ => m | None => delete k m end
    | PNext i => m' = m /\ ((exists cm, t = PStore cm ∅ /\ t' = PSweep cm (dom m)) \/ (exists cm, t = PSweep cm ∅ /\ t' = PDone None))
    end.
  Definition etags_after (l : plabel) (s : pst) (t : ptask) : gache conf_cache :=
    match l, t with
    | PResp i r now, PSent c =>
        match snd (respond parse c r) with
        | Some c' => g_set now (env_name (is_zts i)) c' (pc_etag_expiry cf) (p_etags s)
        | None => p_etags s
        end
    | _, _ => p_etags s
    end.
  Lemma pstep_inv l (s s' : pst) : pstep parse cf l s = Some s' ->
    exists t t', p_tasks s !! task_of l = Some t /\ p_tasks s' = <[task_of l := t']> (p_tasks s) /\
      moves l s t t' (keys_at (is_zts (task_of l)) s) (keys_at (is_zts (task_of l)) s') /\
      keys_at (negb (is_zts (task_of l))) s' = keys_at (negb (is_zts (task_of l))) s /\
      p_etags s' = etags_after l s t.
  Proof.
    assert (forall z : bool, negb z <> z) as Hneg by (by intros []).
    destruct l as [i now|i r now|i k|i k|i]; cbn [pstep task_of]; intros H;
      destruct (p_tasks s !! i) as [t|] eqn:E; try done.
    - destruct t; try done. injection H as <-. eexists _, _. rewrite !keys_with_task. split_and!; done.
    - destruct t as [|c| | | |]; try done. destruct (respond parse c r) as [t' c'] eqn:Er. injection H as <-.
      eexists _, t'. rewrite !keys_with_task, !keys_with_etags. split_and!; try done.
      + exists c. by rewrite Er.
      + cbn [etags_after]. by rewrite Er.
    - destruct t as [| |cm todo| | |]; try done. destruct (todo !! k) as [v|] eqn:Ek; [|done]. injection H as <-.
      eexists _, _. rewrite !keys_with_task, keys_with_keys, keys_with_keys_ne, tasks_with_task, tasks_with_keys by done.
      split_and!; try done; [by exists cm, todo, v|]. cbn [with_task p_etags]. by rewrite etags_with_keys.
    - destruct t as [| | |cm todo| |]; try done. destruct (decide (k ∈ todo)) as [Hk|]; [|done]. injection H as <-.
      eexists _, _. rewrite !keys_with_task, keys_with_keys, keys_with_keys_ne, tasks_with_task, tasks_with_keys by done.
      split_and!; try done; [by exists cm, todo|]. cbn [with_task p_etags]. by rewrite etags_with_keys.
    - destruct t as [| |cm todo|cm todo| |]; try done; destruct (decide (todo = ∅)) as [->|]; try done; injection H as <-;
        eexists _, _; rewrite !keys_with_task, tasks_with_task; (split_and!; try done); (split; [done|]); [left|right]; eauto.
  Qed.

  Lemma prun_app ls1 ls2 (s : pst) :
    prun parse cf (ls1 ++ ls2) s = match prun parse cf ls1 s with Some s1 => prun parse cf ls2 s1 | None => None end.
  Proof. revert s. induction ls1 as [|l ls1 IH]; intros s; cbn [prun app]; [done|]. by destruct (pstep parse cf l s). Qed.
  Lemma prun_length ls (s s' : pst) : prun parse cf ls s = Some s' -> length (p_tasks s') = length (p_tasks s).
  Proof.
    revert s. induction ls as [|l ls IH]; intros s H; cbn [prun] in H; [by injection H as <-|].
    destruct (pstep parse cf l s) as [s1|] eqn:E; [|done]. rewrite (IH _ H).
    apply pstep_inv in E as (t & t' & _ & -> & _). apply insert_length.
  Qed.

  (** ** Invariants that are local to one environment
      A family of phase predicates [T] and a map predicate [M], both stable under the
      steps of that environment. *)
  Lemma prun_env_inv z (T : ptask -> Prop) (M : gmap str V -> Prop) (P : plabel -> Prop) ls (s s' : pst) :
    (forall l s t t' m m', P l -> is_zts (task_of l) = z -> T t -> M m -> moves l s t t' m m' -> T t' /\ M m') ->
    (forall l, l ∈ ls -> P l) ->
    prun parse cf ls s = Some s' ->
    M (keys_at z s) -> (forall i t, is_zts i = z -> p_tasks s !! i = Some t -> T t) ->
    M (keys_at z s') /\ (forall i t, is_zts i = z -> p_tasks s' !! i = Some t -> T t).
  Proof.
    intros Hstep. revert s. induction ls as [|l ls IH]; intros s HP H HM HT; cbn [prun] in H; [by injection H as <-|].
    destruct (pstep parse cf l s) as [s1|] eqn:E; [|done].
    apply pstep_inv in E as (t & t' & Ht & Htasks & Hm & Hother & _).
    apply (IH s1); [intros x Hx; apply HP; by right|done|..].
    - destruct (decide (is_zts (task_of l) = z)) as [<-|Hne].
      + eapply (Hstep l s t t'); [apply HP; left|done|by eapply HT|done|done].
      + assert (z = negb (is_zts (task_of l))) as -> by (destruct z, (is_zts (task_of l)); done). by rewrite Hother.
    - intros i ti Hz Hi. rewrite Htasks in Hi. apply list_lookup_insert_Some in Hi as [(Heq & -> & _)|[_ Hi]]; [|by eapply HT].
      rewrite <- Heq in Hz. subst z. eapply (Hstep l s t ti); [apply HP; left|done|by eapply HT|done|done].
  Qed.

  (** ** Where keys come from *)
  Definition published (z : bool) (ls : list plabel) (id : str) (v : V) : Prop :=
    exists i etag l now key, PResp i (Response 200 etag (Doc l)) now ∈ ls /\ is_zts i = z /\
      Some (id, key) ∈ l /\ parse key = Some v.
  Definition phase_all (Q : str -> V -> Prop) (t : ptask) : Prop :=
    match t with
    | PStore cm todo => (forall id v, cm !! id = Some v -> Q id v) /\ (forall id v, todo !! id = Some v -> Q id v)
    | PSweep cm _ => forall id v, cm !! id = Some v -> Q id v
    | _ => True
    end.
  Lemma respond_doc c r t' : fst (respond parse c r) = t' ->
    match t' with
    | PStore cm todo => todo = cm /\ exists etag l, r = Response 200 etag (Doc l) /\ decode_keys parse l ∅ = Ok cm
    | PSweep _ _ | PIdle | PSent _ => False
    | _ => True
    end.
  Proof.
    intros <-. unfold respond. destruct r as [e|status etag b]; [done|].
    destruct (Z.eqb_spec status 304); [by destruct c|]. destruct (Z.eqb_spec status 200) as [->|]; [|done]. cbn [negb].
    destruct b as [| |l]; [done|done|]. cbn [fst]. destruct (decode_keys parse l ∅) eqn:E; try done. split; [done|]. by exists etag, l.
  Qed.
  Lemma published_inv z ls n (s : pst) : prun parse cf ls (pinit n) = Some s ->
    (forall id v, keys_at z s !! id = Some v -> published z ls id v) /\
    (forall i t, is_zts i = z -> p_tasks s !! i = Some t -> phase_all (published z ls) t).
  Proof.
    intros H.
    apply (prun_env_inv z (phase_all (published z ls)) (fun m => forall id v, m !! id = Some v -> published z ls id v)
             (fun l => l ∈ ls) ls (pinit n)); [|done|done|..].
    - intros l s0 t t' m m' Hin Hz HT HM Hmv. destruct l as [i now|i r now|i k|i k|i]; cbn [moves task_of] in *.
      + destruct Hmv as (-> & -> & ->). by destruct (pc_url_ok cf).
      + destruct Hmv as (c & -> & Ht' & ->). split; [|done]. symmetry in Ht'. apply respond_doc in Ht'.
        destruct t' as [| |cm todo| | |]; try done. destruct Ht' as (-> & etag & l & -> & Hd).
        assert (forall id v, cm !! id = Some v -> published z ls id v) as Hp; [|by split].
        intros id v Hv. apply (decode_keys_spec _ _ Hd) in Hv as (key & Hk & Hp). apply last_entry_elem in Hk.
        by exists i, etag, l, now, key.
      + destruct Hmv as (cm & todo & v & -> & Hk & -> & ->). destruct HT as [H1 H2]. split.
        * split; [done|]. intros id v' Hv. apply lookup_delete_Some in Hv as [_ Hv]. by apply H2.
        * intros id v' Hv. apply lookup_insert_Some in Hv as [[<- <-]|[_ Hv]]; [by apply H2|by apply HM].
      + destruct Hmv as (cm & todo & -> & Hk & -> & ->). split; [done|]. destruct (cm !! k); [done|].
        intros id v Hv. apply lookup_delete_Some in Hv as [_ Hv]. by apply HM.
      + destruct Hmv as (-> & [(cm & -> & ->)|(cm & -> & ->)]); [|done]. split; [|done]. by destruct HT.
    - intros id v Hv. destruct z; cbn [keys_at pinit p_zts p_zms] in Hv; by rewrite lookup_empty in Hv.
    - intros i t Hz Hi. cbn [pinit p_tasks] in Hi. by apply lookup_replicate_1 in Hi as [-> _].
  Qed.

  (** ** Key availability while updates are applied *)
  (** Every list that is applied for the environment contains the id, with a verifier in [Q]. *)
  Definition lists_carry (z : bool) (id : str) (Q : V -> Prop) (l : plabel) : Prop :=
    forall i etag kl now, l = PResp i (Response 200 etag (Doc kl)) now -> is_zts i = z ->
      forall cm, decode_keys parse kl ∅ = Ok cm -> exists v, cm !! id = Some v /\ Q v.
  Definition carries (id : str) (Q : V -> Prop) (t : ptask) : Prop :=
    match t with
    | PStore cm todo => (exists v, cm !! id = Some v /\ Q v) /\ (forall v, todo !! id = Some v -> Q v)
    | PSweep cm _ => exists v, cm !! id = Some v /\ Q v
    | _ => True
    end.
  Lemma key_stays z id (Q : V -> Prop) ls (s s' : pst) : prun parse cf ls s = Some s' ->
    (forall l, l ∈ ls -> lists_carry z id Q l) ->
    (exists v, keys_at z s !! id = Some v /\ Q v) ->
    (forall i t, is_zts i = z -> p_tasks s !! i = Some t -> carries id Q t) ->
    exists v, keys_at z s' !! id = Some v /\ Q v.
  Proof.
    intros H HP HM HT.
    apply (prun_env_inv z (carries id Q) (fun m => exists v, m !! id = Some v /\ Q v) (lists_carry z id Q) ls s s'); [|done..].
    clear. intros l s0 t t' m m' Hin Hz HT HM Hmv. destruct l as [i now|i r now|i k|i k|i]; cbn [moves task_of] in *.
    - destruct Hmv as (-> & -> & ->). by destruct (pc_url_ok cf).
    - destruct Hmv as (c & -> & Ht' & ->). split; [|done]. symmetry in Ht'. apply respond_doc in Ht'.
      destruct t' as [| |cm todo| | |]; try done. destruct Ht' as (-> & etag & l & -> & Hd).
      destruct (Hin _ _ _ _ eq_refl Hz _ Hd) as (v & Hv & Hq). cbn. split; [eauto|]. intros v' Hv'. rewrite Hv in Hv'. by injection Hv' as <-.
    - destruct Hmv as (cm & todo & v & -> & Hk & -> & ->). destruct HT as [H1 H2]. split.
      + split; [done|]. intros v' Hv. apply lookup_delete_Some in Hv as [_ Hv]. by apply H2.
      + destruct (decide (k = id)) as [->|Hne]; [rewrite lookup_insert|by rewrite lookup_insert_ne]. exists v. split; [done|]. by apply H2.
    - destruct Hmv as (cm & todo & -> & Hk & -> & ->). split; [done|]. destruct (cm !! k) eqn:E; [done|].
      cbn in HT. destruct HT as (v & Hv & _). rewrite lookup_delete_ne; [done|]. intros ->. by rewrite E in Hv.
    - destruct Hmv as (-> & [(cm & -> & ->)|(cm & -> & ->)]); [|done]. split; [|done]. by destruct HT.
  Qed.

  (** No list applied for the environment contains the id. *)
  Definition lists_lack (z : bool) (id : str) (l : plabel) : Prop :=
    forall i etag kl now, l = PResp i (Response 200 etag (Doc kl)) now -> is_zts i = z -> forall key, Some (id, key) ∉ kl.
  Definition lacks (id : str) (t : ptask) : Prop :=
    match t with PStore cm todo => cm !! id = None /\ todo !! id = None | PSweep cm _ => cm !! id = None | _ => True end.
  Lemma key_absent z id ls (s s' : pst) : prun parse cf ls s = Some s' ->
    (forall l, l ∈ ls -> lists_lack z id l) ->
    keys_at z s !! id = None -> (forall i t, is_zts i = z -> p_tasks s !! i = Some t -> lacks id t) ->
    keys_at z s' !! id = None.
  Proof.
    intros H HP HM HT.
    apply (prun_env_inv z (lacks id) (fun m => m !! id = None) (lists_lack z id) ls s s'); [|done..].
    clear. intros l s0 t t' m m' Hin Hz HT HM Hmv. destruct l as [i now|i r now|i k|i k|i]; cbn [moves task_of] in *.
    - destruct Hmv as (-> & -> & ->). by destruct (pc_url_ok cf).
    - destruct Hmv as (c & -> & Ht' & ->). split; [|done]. symmetry in Ht'. apply respond_doc in Ht'.
      destruct t' as [| |cm todo| | |]; try done. destruct Ht' as (-> & etag & l & -> & Hd).
      assert (cm !! id = None); [|done]. destruct (cm !! id) eqn:E; [|done].
      apply (decode_keys_spec _ _ Hd) in E as (key & Hk & _). apply last_entry_elem in Hk. by apply (Hin _ _ _ _ eq_refl Hz) in Hk.
    - destruct Hmv as (cm & todo & v & -> & Hk & -> & ->). destruct HT as [H1 H2]. split.
      + split; [done|]. by rewrite lookup_delete_None; right.
      + rewrite lookup_insert_ne; [done|]. intros ->. by rewrite H2 in Hk.
    - destruct Hmv as (cm & todo & -> & Hk & -> & ->). split; [done|]. destruct (cm !! k); [done|].
      rewrite lookup_delete_None. by right.
    - destruct Hmv as (-> & [(cm & -> & ->)|(cm & -> & ->)]); [|done]. split; [|done]. by destruct HT.
  Qed.

  (** ** Failed runs *)
  Definition applying (t : ptask) : bool := match t with PStore _ _ | PSweep _ _ => true | _ => false end.
  Lemma no_late_failure ls (s s' : pst) i t : prun parse cf ls s = Some s' -> p_tasks s !! i = Some t ->
    (applying t = true \/ t = PDone None) ->
    exists t', p_tasks s' !! i = Some t' /\ (applying t' = true \/ t' = PDone None).
  Proof.
    revert s t. induction ls as [|l ls IH]; intros s t H Ht Ha; cbn [prun] in H; [injection H as <-; eauto|].
    destruct (pstep parse cf l s) as [s1|] eqn:E; [|done]. apply pstep_inv in E as (t0 & t' & Ht0 & Htasks & Hm & _).
    destruct (decide (task_of l = i)) as [<-|Hne].
    - rewrite Ht in Ht0. injection Ht0 as <-. eapply (IH s1 t'); [done| |].
      + rewrite Htasks. apply list_lookup_insert. by apply lookup_lt_Some in Ht.
      + destruct l as [i now|i r now|i k|i k|i]; cbn [moves task_of] in *.
        * destruct Hm as (-> & _). by destruct Ha.
        * destruct Hm as (c & -> & _). by destruct Ha.
        * destruct Hm as (? & ? & ? & _ & _ & -> & _). by left.
        * destruct Hm as (? & ? & _ & _ & -> & _). by left.
        * destruct Hm as (_ & [(? & _ & ->)|(? & _ & ->)]); [by left|by right].
    - eapply (IH s1 t); [done| |done]. rewrite Htasks, list_lookup_insert_ne by done. done.
  Qed.
  Lemma failed_touches_nothing l ls (s s1 s' : pst) i e : pstep parse cf l s = Some s1 -> prun parse cf ls s1 = Some s' ->
    task_of l = i -> p_tasks s' !! i = Some (PDone (Some e)) ->
    p_zts s1 = p_zts s /\ p_zms s1 = p_zms s.
  Proof.
    intros E H <- Hf. apply pstep_inv in E as (t & t' & Ht & Htasks & Hm & Hother & _).
    assert (p_tasks s1 !! task_of l = Some t') as Ht'.
    { rewrite Htasks. apply list_lookup_insert. by apply lookup_lt_Some in Ht. }
    assert (~ (applying t' = true \/ t' = PDone None)) as Hna.
    { intros Ha. destruct (no_late_failure _ _ _ _ _ H Ht' Ha) as (t'' & Ht'' & Hx). rewrite Hf in Ht''. injection Ht'' as <-.
      by destruct Hx. }
    assert (keys_at (is_zts (task_of l)) s1 = keys_at (is_zts (task_of l)) s) as Hsame.
    { destruct l as [i now|i r now|i k|i k|i]; cbn [moves task_of] in *.
      - by destruct Hm as (_ & ? & _).
      - by destruct Hm as (? & _ & _ & ?).
      - destruct Hm as (? & ? & ? & _ & _ & -> & _). destruct Hna. by left.
      - destruct Hm as (? & ? & _ & _ & -> & _). destruct Hna. by left.
      - by destruct Hm as (? & _). }
    destruct (is_zts (task_of l)); done.
  Qed.

  Lemma failure_is_final ls (s s' : pst) i e : prun parse cf ls s = Some s' ->
    p_tasks s !! i = Some (PDone (Some e)) -> p_tasks s' !! i = Some (PDone (Some e)).
  Proof.
    revert s. induction ls as [|l ls IH]; intros s H Hi; cbn [prun] in H; [by injection H as <-|].
    destruct (pstep parse cf l s) as [s1|] eqn:E; [|done]. apply (IH s1); [done|].
    apply pstep_inv in E as (t & t' & Ht & Htasks & Hm & _). rewrite Htasks.
    rewrite list_lookup_insert_ne; [done|]. intros <-. rewrite Hi in Ht. injection Ht as <-.
    destruct l as [j now|j r now|j k|j k|j]; cbn [moves] in Hm.
    - by destruct Hm.
    - by destruct Hm as (? & ? & _).
    - by destruct Hm as (? & ? & ? & ? & _).
    - by destruct Hm as (? & ? & ? & _).
    - by destruct Hm as (_ & [(? & ? & _)|(? & ? & _)]).
  Qed.

  (** ** Applying one list *)
  Definition quiet (z : bool) (i : nat) (l : plabel) : Prop :=
    match l with
    | PPut j _ | PVisit j _ => is_zts j = z -> j = i
    | _ => True
    end.
  Definition progress (cm : gmap str V) (t : ptask) (m : gmap str V) : Prop :=
    match t with
    | PStore cm' todo => cm' = cm /\ forall k v, cm !! k = Some v -> todo !! k = Some v \/ m !! k = Some v
    | PSweep cm' todo => cm' = cm /\ (forall k v, cm !! k = Some v -> m !! k = Some v) /\
        (forall k v, m !! k = Some v -> cm !! k = None -> k ∈ todo)
    | PDone None => m = cm
    | _ => False
    end.
  Lemma moves_progress cm l (s : pst) t t' m m' : moves l s t t' m m' -> progress cm t m ->
    (forall k v, match t with PStore _ todo => todo !! k = Some v -> cm !! k = Some v | _ => True end) ->
    progress cm t' m'.
  Proof.
    intros Hm Hp Htodo. destruct l as [i now|i r now|i k|i k|i]; cbn [moves] in Hm.
    - by destruct Hm as (-> & _).
    - by destruct Hm as (c & -> & _).
    - destruct Hm as (cm' & todo & v & -> & Hk & -> & ->). destruct Hp as [-> Hp]. split; [done|].
      intros k' v' Hv. destruct (decide (k' = k)) as [->|Hne].
      + right. rewrite lookup_insert. apply Htodo in Hk. by rewrite Hk in Hv.
      + rewrite lookup_delete_ne, lookup_insert_ne by done. by apply Hp.
    - destruct Hm as (cm' & todo & -> & Hk & -> & ->). destruct Hp as (-> & H1 & H2). split; [done|].
      destruct (cm !! k) as [vk|] eqn:E.
      + split; [done|]. intros k' v' Hv Hn. apply elem_of_difference. split; [by eapply H2|].
        intros ->%elem_of_singleton. by rewrite E in Hn.
      + split.
        * intros k' v' Hv. rewrite lookup_delete_ne; [by apply H1|]. intros ->. by rewrite E in Hv.
        * intros k' v' Hv Hn. apply lookup_delete_Some in Hv as [Hne Hv]. apply elem_of_difference.
          split; [by eapply H2|]. by intros ->%elem_of_singleton.
    - destruct Hm as (-> & [(cm' & -> & ->)|(cm' & -> & ->)]).
      + destruct Hp as [-> Hp]. split; [done|]. split.
        * intros k v Hv. destruct (Hp k v Hv) as [Hx|]; [by rewrite lookup_empty in Hx|done].
        * intros k v Hv _. apply elem_of_dom. eauto.
      + destruct Hp as (-> & H1 & H2). cbn. apply map_eq. intros k. destruct (cm !! k) as [v|] eqn:E; [by apply H1|].
        destruct (m !! k) eqn:E2; [|done]. specialize (H2 _ _ E2 E). by apply elem_of_empty in H2.
  Qed.
  Definition todo_sub (cm : gmap str V) (t : ptask) : Prop :=
    match t with PStore _ todo => forall k v, todo !! k = Some v -> cm !! k = Some v | _ => True end.
  Lemma prun_progress ls (s s' : pst) i t cm : prun parse cf ls s = Some s' -> p_tasks s !! i = Some t ->
    (forall l, l ∈ ls -> quiet (is_zts i) i l) -> progress cm t (keys_at (is_zts i) s) -> todo_sub cm t ->
    exists t', p_tasks s' !! i = Some t' /\ progress cm t' (keys_at (is_zts i) s') /\ todo_sub cm t'.
  Proof.
    revert s t. induction ls as [|l ls IH]; intros s t H Ht Hq Hp Hsub; cbn [prun] in H; [injection H as <-; eauto|].
    destruct (pstep parse cf l s) as [s1|] eqn:E; [|done].
    apply pstep_inv in E as (t0 & t' & Ht0 & Htasks & Hm & Hother & _).
    assert (quiet (is_zts i) i l) as Hql by (apply Hq; left).
    assert (forall x, x ∈ ls -> quiet (is_zts i) i x) as Hq' by (intros x Hx; apply Hq; by right).
    destruct (decide (task_of l = i)) as [<-|Hne].
    - rewrite Ht in Ht0. injection Ht0 as <-. eapply (IH s1 t'); try done.
      + rewrite Htasks. apply list_lookup_insert. by apply lookup_lt_Some in Ht.
      + eapply moves_progress; [done|done|]. intros k v. destruct t; try done. by apply Hsub.
      + destruct l as [i now|i r now|i k|i k|i]; cbn [moves] in Hm.
        * destruct Hm as (-> & _). done.
        * destruct Hm as (c & -> & _). done.
        * destruct Hm as (cm' & todo & v & -> & _ & -> & _). intros k' v' Hv. apply lookup_delete_Some in Hv as [_ Hv]. by apply Hsub.
        * by destruct Hm as (? & ? & _ & _ & -> & _).
        * by destruct Hm as (_ & [(? & _ & ->)|(? & _ & ->)]).
    - eapply (IH s1 t); try done.
      + by rewrite Htasks, list_lookup_insert_ne.
      + assert (keys_at (is_zts i) s1 = keys_at (is_zts i) s) as ->; [|done].
        destruct (decide (is_zts (task_of l) = is_zts i)) as [Heq|Hz].
        * destruct l as [j now|j r now|j k|j k|j]; cbn [moves task_of quiet] in *; rewrite <- Heq.
          -- by destruct Hm as (_ & ? & _).
          -- by destruct Hm as (? & _ & _ & ?).
          -- by destruct (Hne (Hql Heq)).
          -- by destruct (Hne (Hql Heq)).
          -- by destruct Hm as (? & _).
        * assert (is_zts i = negb (is_zts (task_of l))) as -> by (destruct (is_zts i), (is_zts (task_of l)); done). done.
  Qed.

  (** ** Panics *)
  Lemma pstep_panic l (s s' : pst) i : pstep parse cf l s = Some s' -> p_tasks s' !! i = Some PPanic -> p_tasks s !! i <> Some PPanic ->
    exists r now t, l = PResp i r now /\ p_tasks s !! i = Some (PSent t) /\
      ((exists etag b, r = Response 304 etag b /\ t = None) \/ (exists etag, r = Response 200 etag NullBody) \/
       (exists etag kl, r = Response 200 etag (Doc kl) /\ None ∈ kl)).
  Proof.
    intros E Hp Hn. apply pstep_inv in E as (t & t' & Ht & Htasks & Hm & _). rewrite Htasks in Hp.
    apply list_lookup_insert_Some in Hp as [(<- & -> & _)|[_ Hp]]; [|done].
    destruct l as [i now|i r now|i k|i k|i]; cbn [moves task_of] in *.
    - destruct Hm as (_ & _ & Hx). by destruct (pc_url_ok cf).
    - destruct Hm as (c & -> & Hx & _). exists r, now, c. split; [done|]. split; [done|].
      unfold respond in Hx. destruct r as [e|status etag b]; [done|].
      destruct (Z.eqb_spec status 304) as [->|]; [destruct c; [done|]; left; eauto|].
      destruct (Z.eqb_spec status 200) as [->|]; [|done]. cbn [negb] in Hx.
      destruct b as [| |l]; [done|right; left; eauto|]. right; right. exists etag, l. split; [done|]. cbn [fst] in Hx.
      destruct (decode_keys parse l ∅) eqn:E; try done. by apply decode_keys_panic in E.
    - by destruct Hm as (? & ? & ? & _ & _ & ? & _).
    - by destruct Hm as (? & ? & _ & _ & ? & _).
    - by destruct Hm as (_ & [(? & _ & ?)|(? & _ & ?)]).
  Qed.

  (** ** An honest server and non-overlapping updates *)
  Definition active (t : ptask) : bool := match t with PSent _ | PStore _ _ | PSweep _ _ => true | _ => false end.
  (** [P] holds of every step of the run. *)
  Fixpoint along (P : plabel -> pst -> Prop) (ls : list plabel) (s : pst) : Prop :=
    match ls with
    | [] => True
    | l :: ls => P l s /\ match pstep parse cf l s with Some s' => along P ls s' | None => True end
    end.
  (** A run starts only when no other run of its environment is under way. *)
  Definition serial (l : plabel) (s : pst) : Prop :=
    match l with
    | PBegin i _ => forall j t, j <> i -> is_zts j = is_zts i -> p_tasks s !! j = Some t -> active t = false
    | _ => True
    end.
  (** The server names every entity by a non-empty ETag, sends the entity it names, and
      answers 304 only to conditional requests; every entity it sends is decodable. *)
  Definition honest (content : bool -> str -> key_list) (l : plabel) (s : pst) : Prop :=
    match l with
    | PResp i (Response status etag b) _ =>
        (status = 304 -> exists c, p_tasks s !! i = Some (PSent (Some c))) /\
        (status = 200 -> etag <> [] /\ (b = BadBody \/ (b = Doc (content (is_zts i) etag) /\ good_list (content (is_zts i) etag))))
    | _ => True
    end.

  Section honest.
    Context (content : bool -> str -> key_list).
    Definition means (z : bool) (tag : str) (cm : gmap str V) : Prop := decode_keys parse (content z tag) ∅ = Ok cm.
    Definition hinv (z : bool) (s : pst) : Prop :=
      (forall i j t t', is_zts i = z -> is_zts j = z -> p_tasks s !! i = Some t -> p_tasks s !! j = Some t' ->
         active t = true -> active t' = true -> i = j) /\
      (forall tag c x, p_etags s !! env_name z = Some (GEntry (tag, c) x) -> exists cm, means z tag cm /\
         (forall i t, is_zts i = z -> p_tasks s !! i = Some t -> applying t = true -> progress cm t (keys_at z s) /\ todo_sub cm t) /\
         ((forall i t, is_zts i = z -> p_tasks s !! i = Some t -> applying t = false) -> keys_at z s = cm)) /\
      (forall i tag c, is_zts i = z -> p_tasks s !! i = Some (PSent (Some (tag, c))) -> exists cm, means z tag cm /\ keys_at z s = cm).

    Lemma env_name_ne z : env_name z <> env_name (negb z).
    Proof. by destruct z. Qed.
    Lemma respond_etag c r : forall e, snd (respond parse c r) = Some e ->
      exists etag b, r = Response 200 etag b /\ e.1 = etag /\ b <> BadBody.
    Proof.
      intros e. unfold respond. destruct r as [?|status etag b]; [done|].
      destruct (Z.eqb_spec status 304); [done|]. destruct (Z.eqb_spec status 200) as [->|]; [|done]. cbn [negb].
      destruct b as [| |l]; [done|..]; cbn [snd]; case_bool_decide; try done; intros [= <-]; eauto.
    Qed.

    Lemma hinv_other z l (s s' : pst) : pstep parse cf l s = Some s' -> is_zts (task_of l) <> z -> hinv z s -> hinv z s'.
    Proof.
      intros E Hz (H1 & H2 & H3). apply pstep_inv in E as (t & t' & Ht & Htasks & Hm & Hother & Het).
      assert (z = negb (is_zts (task_of l))) as Hzz by (destruct z, (is_zts (task_of l)); done).
      assert (keys_at z s' = keys_at z s) as Hk by (by rewrite Hzz).
      assert (forall i, is_zts i = z -> p_tasks s' !! i = p_tasks s !! i) as Hti.
      { intros i Hi. rewrite Htasks. apply list_lookup_insert_ne. intros <-. done. }
      assert (p_etags s' !! env_name z = p_etags s !! env_name z) as He.
      { rewrite Het. unfold etags_after. destruct l; try done. destruct t; try done. cbn [task_of] in *.
        destruct (snd (respond parse t r)); [|done]. unfold g_set. apply lookup_insert_ne. rewrite Hzz.
        apply env_name_ne. }
      split; [|split].
      - intros i j ti tj Hi Hj. rewrite !Hti by done. by apply H1.
      - intros tag c x. rewrite He. intros Hx. destruct (H2 _ _ _ Hx) as (cm & Hcm & Ha & Hb). exists cm. split; [done|].
        rewrite Hk. split.
        + intros i ti Hi. rewrite Hti by done. by apply Ha.
        + intros Hn. apply Hb. intros i ti Hi Hti'. eapply Hn; [done|]. by rewrite Hti.
      - intros i tag c Hi. rewrite Hti by done. rewrite Hk. by apply H3.
    Qed.

    Lemma applying_active t : applying t = true -> active t = true.
    Proof. by destruct t. Qed.

    Lemma hinv_step z l (s s' : pst) : pstep parse cf l s = Some s' -> serial l s -> honest content l s ->
      hinv z s -> hinv z s'.
    Proof.
      intros E Hser Hhon Hinv. destruct (decide (is_zts (task_of l) = z)) as [Hz|Hz]; [|by eapply hinv_other].
      pose proof E as E0. apply pstep_inv in E as (t & t' & Ht & Htasks & Hm & Hother & Het). destruct Hinv as (H1 & H2 & H3).
      set (i0 := task_of l) in *. rewrite Hz in Hm.
      assert (i0 < length (p_tasks s))%nat as Hlt by (by apply lookup_lt_Some in Ht).
      assert (forall i ti, p_tasks s' !! i = Some ti -> (i = i0 /\ ti = t') \/ (i <> i0 /\ p_tasks s !! i = Some ti)) as Hcase.
      { intros i ti Hi. rewrite Htasks in Hi. apply list_lookup_insert_Some in Hi as [(<- & <- & _)|[? ?]]; [by left|right; done]. }
      assert (p_tasks s' !! i0 = Some t') as Ht0 by (rewrite Htasks; by apply list_lookup_insert).
      (* when the stepping run was already active, no other run of the environment is *)
      assert (active t = true -> forall i ti, i <> i0 -> is_zts i = z -> p_tasks s !! i = Some ti -> active ti = false) as Halone.
      { intros Ha i ti Hne Hi Hti. destruct (active ti) eqn:E; [|done]. destruct Hne. by eapply (H1 i i0). }
      assert ((active t' = true -> forall i ti, i <> i0 -> is_zts i = z -> p_tasks s !! i = Some ti -> active ti = false) ->
        forall i j ti tj, is_zts i = z -> is_zts j = z -> p_tasks s' !! i = Some ti -> p_tasks s' !! j = Some tj ->
         active ti = true -> active tj = true -> i = j) as Huniq.
      { intros Hal i j ti tj Hi Hj Hti Htj Hai Haj.
        destruct (Hcase _ _ Hti) as [[-> ->]|[Hni Hti']]; destruct (Hcase _ _ Htj) as [[-> ->]|[Hnj Htj']]; try done.
        - by rewrite (Hal Hai _ _ Hnj Hj Htj') in Haj.
        - by rewrite (Hal Haj _ _ Hni Hi Hti') in Hai.
        - by eapply (H1 i j). }
      destruct l as [i now|i r now|i k|i k|i]; cbn [moves task_of etags_after serial honest] in *; subst i0.
      - (* PBegin *)
        destruct Hm as (-> & Hkeys & ->).
        split; [|split].
        + apply Huniq. intros _ j tj Hne Hj Htj. apply (Hser j); [done|congruence|done].
        + rewrite Het. intros tag c x Hx. destruct (H2 _ _ _ Hx) as (cm & Hcm & Ha & Hb). exists cm. split; [done|]. rewrite Hkeys. split.
          * intros j tj Hj Htj Hap. destruct (Hcase _ _ Htj) as [[-> ->]|[_ Htj']]; [by destruct (pc_url_ok cf)|]. by eapply Ha.
          * intros Hn. apply Hb. intros j tj Hj Htj. destruct (decide (j = i)) as [->|Hne]; [by rewrite Ht in Htj; injection Htj as <-|].
            eapply (Hn j); [done|]. by rewrite Htasks, list_lookup_insert_ne.
        + intros j tag c Hj Htj. rewrite Hkeys. destruct (Hcase _ _ Htj) as [[-> Heq]|[_ Htj']]; [|by eapply H3].
          destruct (pc_url_ok cf); [|done]. injection Heq as Heq. symmetry in Heq. unfold g_get in Heq. rewrite Hz in Heq.
          destruct (p_etags s !! env_name z) as [[c' x]|] eqn:Ee; [|done]. destruct (g_valid now _); [|done].
          injection Heq as ->. destruct (H2 _ _ _ eq_refl) as (cm & Hcm & _ & Hb). exists cm. split; [done|]. apply Hb.
          intros j tj Hj' Htj'. destruct (decide (j = i)) as [->|Hne]; [by rewrite Ht in Htj'; injection Htj' as <-|].
          destruct (applying tj) eqn:Ea; [|done]. apply applying_active in Ea. rewrite (Hser j tj) in Ea; [done|done|congruence|done].
      - (* PResp *)
        destruct Hm as (c0 & -> & Ht' & Hkeys). specialize (Halone eq_refl).
        assert (forall j tj, is_zts j = z -> p_tasks s !! j = Some tj -> applying tj = false) as Hnoapp.
        { intros j tj Hj Htj. destruct (decide (j = i)) as [->|Hne]; [by rewrite Ht in Htj; injection Htj as <-|].
          destruct (applying tj) eqn:Ea; [|done]. apply applying_active in Ea. by rewrite (Halone j tj) in Ea. }
        split; [|split].
        + apply Huniq. done.
        + intros tag c x Hx. rewrite Het in Hx. destruct (snd (respond parse c0 r)) as [[tag' c']|] eqn:Er.
          * unfold g_set in Hx. rewrite Hz, lookup_insert in Hx. injection Hx as <- <- <-.
            destruct (respond_etag _ _ _ Er) as (etag & b & -> & Heq & Hb). cbn in Heq. subst etag.
            destruct Hhon as [_ Hhon]. destruct (Hhon eq_refl) as [Hne [->|[-> Hgood]]]; [done|]. rewrite Hz in *.
            apply (decode_keys_ok _ ∅) in Hgood as [cm Hcm]. exists cm. split; [done|].
            cbn [respond] in Ht'. change (200 =? 304) with false in Ht'. change (200 =? 200) with true in Ht'. cbn [negb fst] in Ht'.
            rewrite Hcm in Ht'. subst t'. split.
            -- intros j tj Hj Htj Hap. destruct (Hcase _ _ Htj) as [[-> ->]|[Hne' Htj']]; [|by rewrite (Hnoapp j tj) in Hap].
               cbn. split; [|done]. split; [done|]. by left.
            -- intros Hn. by specialize (Hn i _ Hz Ht0).
          * destruct (H2 _ _ _ Hx) as (cm & Hcm & _ & Hb). specialize (Hb Hnoapp). exists cm. split; [done|]. rewrite Hkeys.
            assert (applying t' = false) as Hat.
            { destruct (applying t') eqn:Ea; [|done]. symmetry in Ht'. pose proof (respond_doc _ _ _ Ht') as Hd.
              destruct t' as [| |cm' todo|cm' todo| |]; try done. destruct Hd as (-> & etag & l & -> & Hd). destruct Hhon as [_ Hhon].
              destruct (Hhon eq_refl) as [Hne _]. cbn in Er. by rewrite bool_decide_eq_false_2 in Er. }
            split; [|done]. intros j tj Hj Htj Hap.
            destruct (Hcase _ _ Htj) as [[-> ->]|[Hne' Htj']]; [by rewrite Hat in Hap|by rewrite (Hnoapp j tj) in Hap].
        + intros j tag c Hj Htj. rewrite Hkeys. destruct (Hcase _ _ Htj) as [[-> Heq]|[_ Htj']]; [|by eapply H3].
          symmetry in Ht'. apply respond_doc in Ht'. by rewrite <- Heq in Ht'.
      - (* PPut *)
        pose proof Hm as (cm0 & todo & v & -> & Hk & -> & Hkeys). specialize (Halone eq_refl).
        split; [by apply Huniq|split].
        + rewrite Het. intros tag c x Hx. destruct (H2 _ _ _ Hx) as (cm & Hcm & Ha & Hb). exists cm. split; [done|].
          destruct (Ha i _ Hz Ht eq_refl) as [Hp Hsub]. split.
          * intros j tj Hj Htj Hap. destruct (Hcase _ _ Htj) as [[-> ->]|[Hne' Htj']].
            -- split; [eapply (moves_progress cm (PPut i k) s); [exact Hm|done|exact Hsub]|].
               intros k' v' Hv. apply lookup_delete_Some in Hv as [_ Hv]. by apply Hsub.
            -- apply applying_active in Hap. by rewrite (Halone j tj) in Hap.
          * intros Hn. by specialize (Hn i _ Hz Ht0).
        + intros j tag c Hj Htj. destruct (Hcase _ _ Htj) as [[-> Heq]|[Hne' Htj']]; [done|].
          by specialize (Halone j _ Hne' Hj Htj').
      - (* PVisit *)
        pose proof Hm as (cm0 & todo & -> & Hk & -> & Hkeys). specialize (Halone eq_refl).
        split; [by apply Huniq|split].
        + rewrite Het. intros tag c x Hx. destruct (H2 _ _ _ Hx) as (cm & Hcm & Ha & Hb). exists cm. split; [done|].
          destruct (Ha i _ Hz Ht eq_refl) as [Hp Hsub]. split.
          * intros j tj Hj Htj Hap. destruct (Hcase _ _ Htj) as [[-> ->]|[Hne' Htj']].
            -- split; [eapply (moves_progress cm (PVisit i k) s); [exact Hm|done|done]|done].
            -- apply applying_active in Hap. by rewrite (Halone j tj) in Hap.
          * intros Hn. by specialize (Hn i _ Hz Ht0).
        + intros j tag c Hj Htj. destruct (Hcase _ _ Htj) as [[-> Heq]|[Hne' Htj']]; [done|].
          by specialize (Halone j _ Hne' Hj Htj').
      - (* PNext *)
        assert (active t = true) as Hact by (by destruct Hm as (_ & [(? & -> & _)|(? & -> & _)])).
        assert (applying t = true) as Happ by (by destruct Hm as (_ & [(? & -> & _)|(? & -> & _)])).
        specialize (Halone Hact). split; [apply Huniq; by intros _|split].
        + rewrite Het. intros tag c x Hx. destruct (H2 _ _ _ Hx) as (cm & Hcm & Ha & Hb). exists cm. split; [done|].
          destruct (Ha i _ Hz Ht Happ) as [Hp Hsub].
          assert (progress cm t' (keys_at z s')) as Hp'.
          { eapply (moves_progress cm (PNext i) s); [exact Hm|done|]. intros k v. destruct t; try done. by apply Hsub. }
          split.
          * intros j tj Hj Htj Hap. destruct (Hcase _ _ Htj) as [[-> ->]|[Hne' Htj']].
            -- split; [done|]. by destruct Hm as (_ & [(? & _ & ->)|(? & _ & ->)]).
            -- apply applying_active in Hap. by rewrite (Halone j tj) in Hap.
          * intros Hn. specialize (Hn i _ Hz Ht0). destruct Hm as (_ & [(? & _ & ->)|(? & _ & ->)]); [done|]. done.
        + intros j tag c Hj Htj. destruct (Hcase _ _ Htj) as [[-> Heq]|[Hne' Htj']].
          * by destruct Hm as (_ & [(? & _ & ->)|(? & _ & ->)]).
          * by specialize (Halone j _ Hne' Hj Htj').
    Qed.
    Lemma hinv_init z n : hinv z (pinit n).
    Proof.
      assert (forall i t, p_tasks (@pinit V n) !! i = Some t -> t = PIdle) as Hidle.
      { intros i t H. cbn [pinit p_tasks] in H. by apply lookup_replicate_1 in H as [-> _]. }
      split; [|split].
      - intros i j t t' _ _ Hi _ Ha. apply Hidle in Hi as ->. done.
      - intros tag c x H. cbn [pinit p_etags] in H. by rewrite lookup_empty in H.
      - intros i tag c _ H. by apply Hidle in H.
    Qed.
    Lemma along_app P ls1 ls2 (s : pst) : along P (ls1 ++ ls2) s ->
      along P ls1 s /\ (forall s1, prun parse cf ls1 s = Some s1 -> along P ls2 s1).
    Proof.
      revert s. induction ls1 as [|l ls1 IH]; intros s H; cbn [along app prun] in *.
      - split; [done|]. by intros s1 [= <-].
      - destruct H as [H1 H2]. destruct (pstep parse cf l s) as [s'|]; [|split; [done|]; done].
        destruct (IH _ H2) as [? ?]. done.
    Qed.
    Lemma hinv_run z ls (s s' : pst) : prun parse cf ls s = Some s' -> along serial ls s -> along (honest content) ls s ->
      hinv z s -> hinv z s'.
    Proof.
      revert s. induction ls as [|l ls IH]; intros s H Hs Hh Hi; cbn [prun along] in *; [by injection H as <-|].
      destruct Hs as [Hs1 Hs2]. destruct Hh as [Hh1 Hh2]. destruct (pstep parse cf l s) as [s1|] eqn:E; [|done].
      apply (IH s1); try done. by eapply hinv_step.
    Qed.
    (** Runs that are not under way do not touch the keys until they begin. *)
    Definition no_begin (z : bool) (l : plabel) : Prop := match l with PBegin i _ => is_zts i <> z | _ => True end.
    Lemma inactive_quiet z i ls (s s' : pst) : prun parse cf ls s = Some s' -> (forall l, l ∈ ls -> no_begin z l) ->
      (forall j t, j <> i -> is_zts j = z -> p_tasks s !! j = Some t -> active t = false) ->
      forall l, l ∈ ls -> quiet z i l.
    Proof.
      revert s. induction ls as [|l ls IH]; intros s H Hnb Hin l' Hl'; cbn [prun] in H; [by apply elem_of_nil in Hl'|].
      destruct (pstep parse cf l s) as [s1|] eqn:E; [|done]. apply pstep_inv in E as (t & t' & Ht & Htasks & Hm & _).
      assert (no_begin z l) as Hnl by (apply Hnb; left).
      assert (task_of l <> i -> is_zts (task_of l) = z -> False) as Hx.
      { intros Hne Hz. specialize (Hin _ _ Hne Hz Ht). destruct l as [j now|j r now|j k|j k|j]; cbn [moves task_of no_begin] in *.
        - done.
        - by destruct Hm as (? & -> & _).
        - by destruct Hm as (? & ? & ? & -> & _).
        - by destruct Hm as (? & ? & -> & _).
        - by destruct Hm as (_ & [(? & -> & _)|(? & -> & _)]). }
      apply elem_of_cons in Hl' as [->|Hl'].
      - destruct l as [j now|j r now|j k|j k|j]; try done; cbn [quiet task_of] in *; intros Hz;
          (destruct (decide (j = i)); [done|exfalso; auto]).
      - eapply (IH s1); [done|intros x Hxx; apply Hnb; by right| |done].
        intros j tj Hne Hj Htj. rewrite Htasks in Htj. apply list_lookup_insert_Some in Htj as [(<- & _ & _)|[_ Htj]]; [|by eapply Hin].
        exfalso. eauto.
    Qed.

    (** The ETag the server's answer refers to. *)
    Definition answered (s : pst) (i : nat) (r : response key_list) : option str :=
      match r with
      | Response status etag _ =>
          if status =? 304 then match p_tasks s !! i with Some (PSent (Some (tag, _))) => Some tag | _ => None end
          else if status =? 200 then Some etag else None
      | Failed _ => None
      end.

    Lemma success_is_current n ls1 i r now ls2 (s s1 s2 : pst) :
      prun parse cf ls1 (pinit n) = Some s -> pstep parse cf (PResp i r now) s = Some s1 -> prun parse cf ls2 s1 = Some s2 ->
      along serial (ls1 ++ PResp i r now :: ls2) (pinit n) -> along (honest content) (ls1 ++ PResp i r now :: ls2) (pinit n) ->
      (forall l, l ∈ ls2 -> no_begin (is_zts i) l) ->
      p_tasks s2 !! i = Some (PDone None) ->
      exists tag cm, answered s i r = Some tag /\ means (is_zts i) tag cm /\ keys_at (is_zts i) s2 = cm.
    Proof.
      intros Hr1 Hst Hr2 Hser Hhon Hnb Hdone. set (z := is_zts i) in *.
      apply along_app in Hser as [Hser1 Hser2]. apply along_app in Hhon as [Hhon1 Hhon2].
      specialize (Hser2 _ Hr1). specialize (Hhon2 _ Hr1).
      assert (hinv z s) as Hinv by (eapply hinv_run; [exact Hr1|done|done|apply hinv_init]).
      destruct Hhon2 as [Hhon _]. destruct Hinv as (H1 & H2 & H3).
      pose proof (pstep_inv _ _ _ Hst) as (t & t' & Ht & Htasks & Hm & _ & _). cbn [task_of] in *.
      destruct Hm as (c0 & -> & Ht' & Hkeys). fold z in Hkeys.
      assert (p_tasks s1 !! i = Some t') as Ht1 by (rewrite Htasks; apply list_lookup_insert; by apply lookup_lt_Some in Ht).
      assert (forall j tj, j <> i -> is_zts j = z -> p_tasks s1 !! j = Some tj -> active tj = false) as Hin.
      { intros j tj Hne Hj Htj. rewrite Htasks, list_lookup_insert_ne in Htj by done. destruct (active tj) eqn:E; [|done].
        destruct Hne. by eapply (H1 j i). }
      pose proof (inactive_quiet z i _ _ _ Hr2 Hnb Hin) as Hq.
      assert (forall cm, progress cm t' (keys_at z s1) -> todo_sub cm t' -> keys_at z s2 = cm) as Hfin.
      { intros cm Hp Hsub. destruct (prun_progress _ _ _ _ _ cm Hr2 Ht1 Hq Hp Hsub) as (t2 & Ht2 & Hp2 & _).
        rewrite Hdone in Ht2. by injection Ht2 as <-. }
      assert (forall e, t' <> PDone (Some e)) as Hne.
      { intros e ->. by rewrite (failure_is_final _ _ _ _ _ Hr2 Ht1) in Hdone. }
      destruct r as [e|status etag b]; [by destruct (Hne e)|].
      cbn [honest] in Hhon. destruct Hhon as [Hhon304 Hhon200]. unfold answered. unfold respond in Ht'.
      destruct (Z.eqb_spec status 304) as [->|].
      - destruct (Hhon304 eq_refl) as [[tag c] Hc]. rewrite Hc. rewrite Hc in Ht. injection Ht as <-.
        destruct (H3 _ _ _ eq_refl Hc) as (cm & Hcm & Hk). exists tag, cm. split; [done|]. split; [done|].
        apply Hfin; cbn in Ht'; subst t'; [|done]. cbn. congruence.
      - destruct (Z.eqb_spec status 200) as [->|]; cbn [negb fst] in Ht'; [|by destruct (Hne ErrFetchAthenzPubkey)].
        destruct (Hhon200 eq_refl) as [Htag [->|[-> Hgood]]]; [cbn in Ht'; by eapply Hne in Ht'|].
        fold z in Hgood. apply (decode_keys_ok _ ∅) in Hgood as [cm Hcm]. cbn [fst] in Ht'. fold z in Ht'. rewrite Hcm in Ht'.
        exists etag, cm. split; [done|]. split; [done|]. apply Hfin; subst t'; cbn; [|done]. split; [done|]. by left.
    Qed.
  End honest.
End facts.
