(** * Facts about phase 2: goroutines filling a role cache *)
From Verif Require Export PolicySimplifyProofs.

(** ** Deny-first order *)
Definition gache_deny_first (g : gache (list assertion)) : Prop :=
  forall k e, g !! k = Some e -> deny_first (ge_val e).

Lemma add_deny_first a cur : (forall l, cur = Some l -> deny_first l) -> deny_first (add_assertion a cur).
Proof.
  intros H. unfold add_assertion. destruct cur as [l|].
  - destruct (H l eq_refl) as (d & k & -> & Hd & Hk). destruct (a_effect a) as [e|] eqn:E.
    + exists (a :: d), k. split; [done|]. split; [|done]. constructor; [|done]. unfold is_deny. congruence.
    + exists d, (k ++ [a]). split; [by rewrite app_assoc|]. split; [done|]. apply Forall_app. split; [done|].
      by repeat constructor.
  - destruct (a_effect a) as [e|] eqn:E.
    + exists [a], []. split; [done|]. split; [|done]. repeat constructor. unfold is_deny. congruence.
    + exists [], [a]. split; [done|]. split; [done|]. by repeat constructor.
Qed.

Definition cdf (s : cst) : Prop :=
  gache_deny_first (c_g s) /\
  forall i j role asss rest, c_work s !! i = Some (CSet j role asss rest) -> deny_first asss.

Lemma g_get_Some {V} t k (g : gache V) v : g_get t k g = Some v -> exists e, g !! k = Some (GEntry v e).
Proof.
  unfold g_get. destruct (g !! k) as [[v' e]|]; [|done]. destruct (g_valid t _); [|done]. intros [= <-]. by exists e.
Qed.

Lemma cdf_upd g (ws : list cw) i w : gache_deny_first g ->
  (forall i j role asss rest, ws !! i = Some (CSet j role asss rest) -> deny_first asss) ->
  (forall j role asss rest, w = CSet j role asss rest -> deny_first asss) ->
  cdf (CSt g (<[i := w]> ws)).
Proof.
  intros Hg Hws Hw. split; [done|]. intros k j role asss rest H. cbn [c_work] in H.
  apply list_lookup_insert_Some in H as [(_ & Hx & _)|[_ H]]; eauto.
Qed.

Lemma cstep_df U l s s' : cstep U l s = Some s' -> cdf s -> cdf s'.
Proof.
  intros Hs [Hg Hw]. destruct l as [i inp|key]; cbn [cstep] in Hs.
  2:{ injection Hs as <-. split; [|done]. intros k e H. cbn [c_g] in H.
      apply lookup_delete_Some in H as [_ H]. eauto. }
  destruct (c_work s !! i) as [w|] eqn:Hi; [|done].
  destruct w as [|j [|r rest]|j role asss rest|j e].
  - destruct inp as [[j|e|]|t]; [| |done..]; injection Hs as <-; apply cdf_upd; by eauto.
  - destruct inp as [|t]; [done|]. injection Hs as <-. apply cdf_upd; by eauto.
  - destruct inp as [|t]; [done|]. destruct (new_assertion U _ _ _) as [a|e|]; [| |done]; injection Hs as <-.
    + apply cdf_upd; [done..|]. intros ? ? ? ? [= <- <- <- <-]. apply add_deny_first.
      intros l Hl. apply g_get_Some in Hl as [e He]. apply (Hg _ _ He).
    + apply cdf_upd; by eauto.
  - destruct inp as [|t]; [done|]. injection Hs as <-. apply cdf_upd; [|by eauto..].
    intros k e H. unfold g_set in H. apply lookup_insert_Some in H as [[<- <-]|[_ H]]; [|by eauto].
    cbn [ge_val]. eauto.
  - by destruct inp.
Qed.
Lemma crun_df U ls s s' : crun U ls s = Some s' -> cdf s -> cdf s'.
Proof.
  revert s. induction ls as [|l ls IH]; intros s H Hd; cbn [crun] in H; [by injection H as <-|].
  destruct (cstep U l s) as [s1|] eqn:E; [|done]. eauto using cstep_df.
Qed.
Lemma cinit_df g n : gache_deny_first g -> cdf (cinit g n).
Proof. intros H. split; [done|]. intros i j role asss rest Hl. by apply lookup_replicate in Hl as [? _]. Qed.
Lemma view_deny_first now g : gache_deny_first g -> deny_first_cache (g_view now g).
Proof. intros H k l Hl. rewrite g_view_lookup in Hl. apply g_get_Some in Hl as [e He]. apply (H _ _ He). Qed.

(** ** Where the contents come from *)
Section source.
  Context (U : unicode) (g0 : gache (list assertion)).
  Context (F : nat -> job -> Prop) (T : nat -> time -> Prop).

  Definition permitted (l : clabel) : Prop :=
    match l with
    | CWork i (IFetch (Ok j)) => F i j
    | CWork i (ITime t) => T i t
    | _ => True
    end.

  (** Assertion [a] of the entry [k] was there initially or comes from a fetched document. *)
  Definition src (k : str) (a : assertion) : Prop :=
    (exists e, g0 !! k = Some e /\ a ∈ ge_val e) \/
    exists i j r, F i j /\ r ∈ j_script j /\ r_role r = k /\
      new_assertion U (r_action r) (r_resource r) (r_effect r) = Ok a.

  (** Expiry stored at cache time [t] for the document of job [j]. *)
  Definition stored_exp (t : time) (j : job) : Z :=
    let d := time_sub (j_exp j) (j_now j) in if 0 <? d then wrap64 (t + d) else d.

  Definition entry_ok (k : str) (e : gentry (list assertion)) : Prop :=
    (forall a, a ∈ ge_val e -> src k a) /\
    (g0 !! k = Some e \/
     exists i j r t, F i j /\ r ∈ j_script j /\ r_role r = k /\ T i t /\ ge_exp e = stored_exp t j).

  Definition bw (i : nat) (w : cw) : Prop :=
    match w with
    | CIdle => True
    | CCache j rest => F i j /\ exists dn, j_script j = dn ++ rest
    | CSet j role asss rest => F i j /\ (exists dn r, j_script j = dn ++ r :: rest /\ role = r_role r) /\
        forall a, a ∈ asss -> src role a
    | CEnd (Some j) _ => F i j
    | CEnd None _ => True
    end.
  Definition binv (s : cst) : Prop :=
    (forall i w, c_work s !! i = Some w -> bw i w) /\
    (forall k e, c_g s !! k = Some e -> entry_ok k e).

  Lemma cinit_binv n : binv (cinit g0 n).
  Proof.
    split.
    - intros i w H. by apply lookup_replicate in H as [-> _].
    - intros k e H. split; [|by left]. intros a Ha. left. by exists e.
  Qed.

  Lemma bw_upd (ws : list cw) i w : (forall k w, ws !! k = Some w -> bw k w) -> bw i w ->
    forall k w', <[i := w]> ws !! k = Some w' -> bw k w'.
  Proof. intros Hws Hw k w' H. apply list_lookup_insert_Some in H as [(<- & <- & _)|[_ H]]; eauto. Qed.

  Lemma elem_of_add a a' cur : a' ∈ add_assertion a cur -> a' = a \/ exists l, cur = Some l /\ a' ∈ l.
  Proof.
    unfold add_assertion. destruct cur as [l|].
    - destruct (a_effect a).
      + intros [->|H]%elem_of_cons; [by left|]. right. by exists l.
      + intros [H| ->%elem_of_list_singleton]%elem_of_app; [|by left]. right. by exists l.
    - intros ->%elem_of_list_singleton. by left.
  Qed.

  Lemma cstep_binv l s s' : cstep U l s = Some s' -> permitted l -> binv s -> binv s'.
  Proof.
    intros Hs Hp [Hw Hg]. destruct l as [i inp|key]; cbn [cstep] in Hs.
    2:{ injection Hs as <-. split; [done|]. intros k e H. cbn [c_g] in H.
        apply lookup_delete_Some in H as [_ H]. eauto. }
    destruct (c_work s !! i) as [w|] eqn:Hi; [|done]. pose proof (Hw _ _ Hi) as Hwi.
    destruct w as [|j [|r rest]|j role asss rest|j e].
    - destruct inp as [[j|e|]|t]; [| |done..]; injection Hs as <-; (split; [|done]); apply bw_upd; try done.
      split; [done|]. by exists [].
    - destruct inp as [|t]; [done|]. injection Hs as <-. split; [|done]. apply bw_upd; [done|]. by destruct Hwi.
    - destruct inp as [|t]; [done|]. destruct Hwi as [HF [dn Hdn]].
      destruct (new_assertion U _ _ _) as [a|e|] eqn:Ea; [| |done]; injection Hs as <-; (split; [|done]);
        apply bw_upd; try done.
      split; [done|]. split; [by exists dn, r|].
      intros a' Ha'. apply elem_of_add in Ha' as [->|(l & Hl & Ha')].
      + right. exists i, j, r. split_and!; [done| |done|done]. rewrite Hdn. apply elem_of_app. right. left.
      + apply g_get_Some in Hl as [e He]. by apply (Hg _ _ He).
    - destruct inp as [|t]; [done|]. destruct Hwi as (HF & (dn & r & Hdn & ->) & Hsrc). injection Hs as <-. split.
      + apply bw_upd; [done|]. split; [done|]. exists (dn ++ [r]). by rewrite <- app_assoc.
      + intros k e H. cbn [c_g] in H. unfold g_set in H.
        apply lookup_insert_Some in H as [[<- <-]|[_ H]]; [|by eauto].
        split; [exact Hsrc|]. right. exists i, j, r, t. split_and!; [done| |done|done|done].
        rewrite Hdn. apply elem_of_app. right. left.
    - by destruct inp.
  Qed.
  Lemma crun_binv ls s s' : crun U ls s = Some s' -> Forall permitted ls -> binv s -> binv s'.
  Proof.
    revert s. induction ls as [|l ls IH]; intros s H Hp Hd; cbn [crun] in H; [by injection H as <-|].
    destruct (cstep U l s) as [s1|] eqn:E; [|done]. inversion Hp; subst. eauto using cstep_binv.
  Qed.

  (** Keys that no document mentions are untouched (unless dropped). *)
  Definition mentioned (k : str) : Prop := exists i j r, F i j /\ r ∈ j_script j /\ r_role r = k.
  Lemma cstep_frame l s s' k : cstep U l s = Some s' -> binv s -> ~ mentioned k -> l <> CDrop k ->
    c_g s' !! k = c_g s !! k.
  Proof.
    intros Hs [Hw _] Hk Hl. destruct l as [i inp|key]; cbn [cstep] in Hs.
    2:{ injection Hs as <-. cbn [c_g]. rewrite lookup_delete_ne; [done|]. congruence. }
    destruct (c_work s !! i) as [w|] eqn:Hi; [|done]. pose proof (Hw _ _ Hi) as Hwi.
    destruct w as [|j [|r rest]|j role asss rest|j e].
    - destruct inp as [[j|e|]|t]; [| |done..]; by injection Hs as <-.
    - destruct inp as [|t]; [done|]. by injection Hs as <-.
    - destruct inp as [|t]; [done|]. destruct (new_assertion U _ _ _); [| |done]; by injection Hs as <-.
    - destruct inp as [|t]; [done|]. destruct Hwi as (HF & (dn & r & Hdn & ->) & _). injection Hs as <-. cbn [c_g].
      unfold g_set. rewrite lookup_insert_ne; [done|]. intros <-. apply Hk. exists i, j, r. split_and!; [done| |done].
      rewrite Hdn. apply elem_of_app. right. left.
    - by destruct inp.
  Qed.
  Lemma crun_frame ls s s' k : crun U ls s = Some s' -> Forall permitted ls -> binv s -> ~ mentioned k ->
    CDrop k ∉ ls -> c_g s' !! k = c_g s !! k.
  Proof.
    revert s. induction ls as [|l ls IH]; intros s H Hp Hd Hk Hn; cbn [crun] in H; [by injection H as <-|].
    destruct (cstep U l s) as [s1|] eqn:E; [|done]. inversion Hp; subst. apply not_elem_of_cons in Hn as [Hn1 Hn2].
    rewrite (IH s1); [|eauto using cstep_binv..]. eapply cstep_frame; eauto.
  Qed.
End source.

(** What a run fetched and which clock readings its goroutines used. *)
Definition fetched (ls : list clabel) (i : nat) (j : job) : Prop := CWork i (IFetch (Ok j)) ∈ ls.
Definition ticked (ls : list clabel) (i : nat) (t : time) : Prop := CWork i (ITime t) ∈ ls.
Lemma permitted_self ls : Forall (permitted (fetched ls) (ticked ls)) ls.
Proof. apply Forall_forall. intros [i [[j|e|]|t]|k] H; try done. Qed.

(** ** Completeness when documents do not share roles *)
Section complete.
  Context (U : unicode) (F : nat -> job -> Prop) (T : nat -> time -> Prop).

  Definition has_role (j : job) (k : str) : Prop := exists r, r ∈ j_script j /\ r_role r = k.
  Definition disjoint_jobs : Prop := forall i i' j j' k, F i j -> F i' j' -> has_role j k -> has_role j' k -> i = i'.
  Definition one_fetch : Prop := forall i j j', F i j -> F i j' -> j = j'.
  (** The caching happens while the document is valid, before the year 2116; or the
      document had already expired. *)
  Definition fits (j : job) (t : time) : Prop :=
    j_exp j <= j_now j \/ (0 < j_now j /\ j_now j <= t /\ t <= j_exp j /\ 2 * j_exp j <= max_int64).
  Definition timely : Prop := forall i j t, F i j -> T i t -> fits j t.
  (** The time at which the cache is read is covered by the document. *)
  Definition alive (j : job) (t : time) : Prop := j_exp j <= j_now j \/ t <= j_exp j.

  Definition conv (r : raw) : outcome assertion := new_assertion U (r_action r) (r_resource r) (r_effect r).
  Definition radd (k : str) (acc : list assertion) (r : raw) : list assertion :=
    if decide (r_role r = k) then match conv r with Ok a => add_assertion a (Some acc) | _ => acc end else acc.
  (** The assertions of role [k] in caching order. *)
  Definition rlist (k : str) (l : list raw) : list assertion := fold_left (radd k) l [].

  Definition ent (j : job) (k : str) (dn : list raw) (g : gache (list assertion)) : Prop :=
    match rlist k dn with
    | [] => g !! k = None
    | l => exists e, g !! k = Some (GEntry l e) /\ forall t, alive j t -> g_valid t (GEntry l e) = true
    end.
  Definition okl (l : list raw) : Prop := Forall (fun r => exists a, conv r = Ok a) l.

  Definition kw (g : gache (list assertion)) (i : nat) (w : cw) : Prop :=
    match w with
    | CIdle => forall j k, F i j -> has_role j k -> g !! k = None
    | CCache j rest => F i j /\ exists dn, j_script j = dn ++ rest /\ okl dn /\ forall k, has_role j k -> ent j k dn g
    | CSet j role asss rest => F i j /\ exists dn r, j_script j = dn ++ r :: rest /\ okl (dn ++ [r]) /\
        role = r_role r /\ asss = rlist role (dn ++ [r]) /\ forall k, has_role j k -> ent j k dn g
    | CEnd (Some j) None => F i j /\ okl (j_script j) /\ forall k, has_role j k -> ent j k (j_script j) g
    | CEnd (Some j) _ => F i j
    | CEnd None _ => True
    end.
  Definition kinv (s : cst) : Prop := forall i w, c_work s !! i = Some w -> kw (c_g s) i w.

  Lemma rlist_snoc k l r : rlist k (l ++ [r]) = radd k (rlist k l) r.
  Proof. unfold rlist. by rewrite fold_left_app. Qed.

  Lemma rlist_snoc_ne k l r : r_role r <> k -> rlist k (l ++ [r]) = rlist k l.
  Proof. intros H. rewrite rlist_snoc. unfold radd. by rewrite decide_False. Qed.
  Lemma rlist_snoc_eq l r a : conv r = Ok a -> rlist (r_role r) (l ++ [r]) = add_assertion a (Some (rlist (r_role r) l)).
  Proof. intros H. rewrite rlist_snoc. unfold radd. rewrite decide_True by done. by rewrite H. Qed.
  Lemma add_nonempty a l : add_assertion a (Some l) <> [].
  Proof. cbn. destruct (a_effect a); [done|]. by destruct l. Qed.
  Lemma elem_of_add_iff a l x : x ∈ add_assertion a (Some l) <-> x = a \/ x ∈ l.
  Proof.
    cbn. destruct (a_effect a).
    - by rewrite elem_of_cons.
    - rewrite elem_of_app, elem_of_list_singleton. tauto.
  Qed.

  Lemma elem_of_rlist k l a : a ∈ rlist k l <-> exists r, r ∈ l /\ r_role r = k /\ conv r = Ok a.
  Proof.
    induction l as [|r l IH] using rev_ind.
    - cbn. split; [by intros ?%elem_of_nil|]. intros (r & H & _). by apply elem_of_nil in H.
    - rewrite rlist_snoc. unfold radd.
      assert ((exists r0, r0 ∈ l ++ [r] /\ r_role r0 = k /\ conv r0 = Ok a) <->
              (exists r0, r0 ∈ l /\ r_role r0 = k /\ conv r0 = Ok a) \/ (r_role r = k /\ conv r = Ok a)) as ->.
      { split.
        - intros (r0 & Hin & H). apply elem_of_app in Hin as [Hin|Hin%elem_of_list_singleton]; [left; eauto|subst; by right].
        - intros [(r0 & Hin & H)|H]; [exists r0|exists r]; (split; [|done]); apply elem_of_app; [by left|right; left]. }
      rewrite <- IH. destruct (decide (r_role r = k)) as [Hk|Hk]; [|tauto].
      destruct (conv r) as [b|e|]; [|naive_solver..]. rewrite elem_of_add_iff. naive_solver.
  Qed.

  Lemma ent_frame j k dn g g' : g' !! k = g !! k -> ent j k dn g -> ent j k dn g'.
  Proof. unfold ent. intros ->. done. Qed.

  Lemma stored_alive j t t' : fits j t -> alive j t' -> forall l,
    g_valid t' (GEntry l (let d := time_sub (j_exp j) (j_now j) in if 0 <? d then wrap64 (t + d) else d) : gentry (list assertion)) = true.
  Proof.
    intros Hf Ha l. unfold g_valid. cbn [ge_exp]. unfold time_sub.
    destruct (decide (j_exp j <= j_now j)) as [Hle|Hgt].
    - destruct (Z.ltb_spec 0 (sat64 (j_exp j - j_now j))) as [H|H].
      + exfalso. revert H. unfold sat64, min_int64, max_int64, two63. lia.
      + by destruct (Z.leb_spec (sat64 (j_exp j - j_now j)) 0); [|lia].
    - destruct Hf as [?|(H1 & H2 & H3 & H4)]; [lia|]. destruct Ha as [?|Ha]; [lia|].
      assert (sat64 (j_exp j - j_now j) = j_exp j - j_now j) as ->.
      { revert H4. unfold sat64, min_int64, max_int64, two63. lia. }
      destruct (Z.ltb_spec 0 (j_exp j - j_now j)); [|lia].
      rewrite wrap64_id. 2:{ revert H4. unfold min_int64, max_int64, two63. lia. }
      apply orb_true_iff. right. apply Z.leb_le. lia.
  Qed.

  Lemma get_ent j k dn g t : fits j t -> ent j k dn g ->
    match g_get t k g with Some l => l = rlist k dn | None => rlist k dn = [] end.
  Proof.
    intros Hf He. unfold ent in He. unfold g_get. destruct (rlist k dn) as [|a l] eqn:E; [by rewrite He|].
    destruct He as (e & -> & Hv). rewrite Hv; [done|]. destruct Hf as [?|(?&?&?&?)]; [by left|by right].
  Qed.

  Hypothesis (Hdis : disjoint_jobs) (Hone : one_fetch) (Htime : timely).

  Lemma kw_frame g k v i w : kw g i w -> (forall j, F i j -> ~ has_role j k) -> kw (<[k := v]> g) i w.
  Proof.
    intros H Hn. destruct w as [|j rest|j role asss rest|[j|] [e|]]; cbn [kw] in *; try done.
    - intros j k' HF Hr. rewrite lookup_insert_ne; [by eapply H|]. intros ->. by eapply Hn.
    - destruct H as (HF & dn & H1 & H2 & H3). split; [done|]. exists dn. split; [done|]. split; [done|].
      intros k' Hr. apply (ent_frame _ _ _ g); [|by apply H3]. rewrite lookup_insert_ne; [done|].
      intros ->. by eapply Hn.
    - destruct H as (HF & dn & r & H1 & H2 & H3 & H4 & H5). split; [done|]. exists dn, r.
      split_and!; [done..|].
      intros k' Hr. apply (ent_frame _ _ _ g); [|by apply H5]. rewrite lookup_insert_ne; [done|].
      intros ->. by eapply Hn.
    - destruct H as (HF & H2 & H3). split; [done|]. split; [done|].
      intros k' Hr. apply (ent_frame _ _ _ g); [|by apply H3]. rewrite lookup_insert_ne; [done|].
      intros ->. by eapply Hn.
  Qed.

  Lemma kinv_upd g (ws : list cw) i w : kinv (CSt g ws) -> kw g i w -> kinv (CSt g (<[i := w]> ws)).
  Proof. intros Hk Hw k w' H. cbn [c_work c_g] in *. apply list_lookup_insert_Some in H as [(<- & <- & _)|[_ H]]; [done|]. by apply Hk. Qed.

  Lemma cstep_kinv l s s' : cstep U l s = Some s' -> permitted F T l -> (forall k, l <> CDrop k) -> kinv s -> kinv s'.
  Proof.
    intros Hs Hp Hnd Hk. destruct l as [i inp|key]; cbn [cstep] in Hs; [|by destruct (Hnd key)].
    destruct s as [g ws]. cbn [c_work c_g] in *.
    destruct (ws !! i) as [w|] eqn:Hi; [|done]. pose proof (Hk _ _ Hi) as Hwi. cbn [c_g] in Hwi.
    destruct w as [|j [|r rest]|j role asss rest|j e].
    - destruct inp as [[j|e|]|t]; [| |done..]; injection Hs as <-; apply kinv_upd; try done.
      cbn [kw permitted] in *. split; [done|]. exists []. split; [done|]. split; [constructor|].
      intros k Hr. unfold ent. cbn. by eapply Hwi.
    - destruct inp as [|t]; [done|]. injection Hs as <-. apply kinv_upd; [done|].
      destruct Hwi as (HF & dn & Hdn & Hok & He). rewrite app_nil_r in Hdn. subst dn. done.
    - destruct inp as [|t]; [done|]. destruct Hwi as (HF & dn & Hdn & Hok & He).
      fold (conv r) in Hs. destruct (conv r) as [a|e|] eqn:Ea; [| |done]; injection Hs as <-;
        apply kinv_upd; try done.
      cbn [kw]. split; [done|]. exists dn, r. split; [done|].
      assert (has_role j (r_role r)) as Hr.
      { exists r. split; [|done]. rewrite Hdn. apply elem_of_app. right. left. }
      split_and!; [|done| |done].
      + apply Forall_app. split; [done|]. repeat constructor. by exists a.
      + rewrite (rlist_snoc_eq _ _ a Ea).
        pose proof (get_ent j (r_role r) dn g t (Htime _ _ _ HF Hp) (He _ Hr)) as Hg.
        destruct (g_get t (r_role r) g) as [l|]; [by subst l|]. rewrite Hg. cbn. by destruct (a_effect a).
    - destruct inp as [|t]; [done|]. destruct Hwi as (HF & dn & r & Hdn & Hok & -> & -> & He). injection Hs as <-.
      assert (has_role j (r_role r)) as Hr.
      { exists r. split; [|done]. rewrite Hdn. apply elem_of_app. right. left. }
      intros i' w' Hi'. cbn [c_work c_g] in *. unfold g_set.
      apply list_lookup_insert_Some in Hi' as [(<- & <- & _)|[Hne Hi']].
      + cbn [kw]. split; [done|]. exists (dn ++ [r]). split; [by rewrite <- app_assoc|]. split; [done|].
        intros k Hrk. destruct (decide (r_role r = k)) as [<-|Hk'].
        * unfold ent. apply Forall_app in Hok as [_ Hok]. inversion Hok as [|? ? [a Ha] _]; subst.
          destruct (rlist (r_role r) (dn ++ [r])) as [|b l] eqn:E.
          { exfalso. rewrite (rlist_snoc_eq _ _ a Ha) in E. by apply add_nonempty in E. }
          eexists. rewrite lookup_insert. split; [done|]. intros t' Ht'. apply stored_alive; [|done].
          by eapply Htime.
        * unfold ent. rewrite rlist_snoc_ne by done. rewrite lookup_insert_ne by done. by apply He.
      + apply kw_frame; [by apply Hk|]. intros j' HF' Hr'. apply Hne. by eapply Hdis.
    - by destruct inp.
  Qed.
  Lemma crun_kinv ls s s' : crun U ls s = Some s' -> Forall (permitted F T) ls -> (forall k, CDrop k ∉ ls) -> kinv s -> kinv s'.
  Proof.
    revert s. induction ls as [|l ls IH]; intros s H Hp Hd Hk; cbn [crun] in H; [by injection H as <-|].
    destruct (cstep U l s) as [s1|] eqn:E; [|done]. inversion Hp; subst. apply (IH s1); [done..| |].
    - intros k Hin. by apply (Hd k), elem_of_cons; right.
    - eapply cstep_kinv; eauto. intros k ->. apply (Hd k). left.
  Qed.
End complete.

Lemma cinit_kinv U ls g n :
  (forall i j r, fetched ls i j -> r ∈ j_script j -> g !! r_role r = None) ->
  kinv U (fetched ls) (cinit g n).
Proof.
  intros Hg i w H. apply lookup_replicate in H as [-> _]. cbn [kw cinit c_g].
  intros j k HF (r & Hr & <-). by eapply Hg.
Qed.

(** A goroutine fetches once. *)
Lemma crun_one_fetch U ls s s' i : crun U ls s = Some s' -> c_work s !! i <> Some CIdle -> forall j, ~ fetched ls i j.
Proof.
  revert s. induction ls as [|l ls IH]; intros s H Hw j Hin; [by apply elem_of_nil in Hin|]. cbn [crun] in H.
  destruct (cstep U l s) as [s1|] eqn:E; [|done].
  assert (c_work s1 !! i <> Some CIdle) as Hw1.
  { destruct l as [i' inp|k]; cbn [cstep] in E; [|by injection E as <-].
    assert (forall g w, w <> CIdle -> c_work (CSt g (<[i' := w]> (c_work s))) !! i <> Some CIdle) as Hu.
    { intros g w Hne H'. cbn [c_work] in H'. apply list_lookup_insert_Some in H' as [(_ & -> & _)|[_ H']]; done. }
    destruct (c_work s !! i') as [[|? [|? ?]| |]|]; destruct inp as [[?|?|]|?]; try done;
      repeat match type of E with match ?x with _ => _ end = _ => destruct x; try done end;
      injection E as <-; by apply Hu. }
  apply elem_of_cons in Hin as [<-|Hin]; [|by eapply IH].
  cbn [cstep] in E. destruct (c_work s !! i) as [[|? [|? ?]| |]|]; done.
Qed.
Lemma crun_fetch_unique U ls s s' : crun U ls s = Some s' -> one_fetch (fetched ls).
Proof.
  revert s. induction ls as [|l ls IH]; intros s H i j j' H1 H2; [by apply elem_of_nil in H1|]. cbn [crun] in H.
  destruct (cstep U l s) as [s1|] eqn:E; [|done].
  unfold fetched in H1, H2. rewrite elem_of_cons in H1, H2.
  assert (forall j0, l = CWork i (IFetch (Ok j0)) -> c_work s1 !! i <> Some CIdle) as Hl.
  { intros j0 ->. cbn [cstep] in E. destruct (c_work s !! i) as [w|] eqn:Hi; [|done].
    destruct w as [|? [|? ?]| |]; try done. injection E as <-. cbn [c_work].
    rewrite list_lookup_insert by (by eapply lookup_lt_Some). done. }
  destruct H1 as [<-|H1], H2 as [E2|H2].
  - by injection E2.
  - exfalso. eapply crun_one_fetch; [exact H|by eapply Hl|exact H2].
  - exfalso. eapply crun_one_fetch; [exact H|by eapply Hl|exact H1].
  - eapply IH; eauto.
Qed.
