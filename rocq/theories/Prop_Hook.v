(** * Properties C74, C75: the expired hook refreshes a live cache in place
    (policy/daemon.go:187-192: one fetchAndCachePolicy per expired key, on *(p.rolePolicies)) *)
From Verif Require Import PolicyUpdateFacts PolicyCheckers PolicyCacheProofs PolicySimplifySpec.
From Verif Require Prop_PolicyUpdate.
From Verif Require Import GoStrings.

(** ** A refresh that no other one overlaps *)
Section lone.
  Context (U : unicode).
  (** Only goroutine [w] takes steps. *)
  Definition only (w : nat) (ls : list clabel) : Prop := forall l, l ∈ ls -> exists inp, l = CWork w inp.
  (** No entry of the roles of [j] runs out while it works. *)
  Definition steady (w : nat) (ls : list clabel) (j : job) (g : gache (list assertion)) : Prop :=
    forall k t t', has_role j k -> ticked ls w t -> ticked ls w t' -> g_get t k g = g_get t' k g.

  Section inv.
    Context (g0 : gache (list assertion)) (j : job) (T : time -> Prop) (t1 : time).
    Hypothesis (Hfit : forall t, T t -> fits j t) (Hold : forall t k, T t -> has_role j k -> g_get t k g0 = g_get t1 k g0).
    Definition base (k : str) : list assertion := default [] (g_get t1 k g0).
    Definition blist (k : str) (l : list raw) : list assertion := fold_left (radd U k) l (base k).
    Definition bent (dn : list raw) (g : gache (list assertion)) (k : str) : Prop :=
      if decide (k ∈ map r_role dn) then exists e, g !! k = Some (GEntry (blist k dn) e) /\ forall t, alive j t -> g_valid t (GEntry (blist k dn) e) = true
      else g !! k = g0 !! k.
    Definition lw (g : gache (list assertion)) (x : cw) : Prop :=
      match x with
      | CIdle => g = g0
      | CCache j' rest => j' = j /\ exists dn, j_script j = dn ++ rest /\ okl U dn /\ forall k, bent dn g k
      | CSet j' role asss rest => j' = j /\ exists dn r, j_script j = dn ++ r :: rest /\ okl U (dn ++ [r]) /\
          role = r_role r /\ asss = blist role (dn ++ [r]) /\ forall k, bent dn g k
      | CEnd (Some j') None => j' = j /\ okl U (j_script j) /\ forall k, bent (j_script j) g k
      | CEnd _ _ => True
      end.
    Lemma blist_snoc k l r : blist k (l ++ [r]) = radd U k (blist k l) r.
    Proof. unfold blist. by rewrite fold_left_app. Qed.
    Lemma blist_unmentioned k l : k ∉ map r_role l -> blist k l = base k.
    Proof.
      unfold blist. induction l as [|r l IH] using rev_ind; intros H; [done|]. rewrite map_app, elem_of_app in H. rewrite fold_left_app. cbn [fold_left].
      rewrite IH by tauto. unfold radd. rewrite decide_False; [done|]. intros <-. apply H. right. cbn. left.
    Qed.
    Lemma elem_of_blist k l a : a ∈ blist k l <-> a ∈ base k \/ exists r, r ∈ l /\ r_role r = k /\ conv U r = Ok a.
    Proof.
      induction l as [|r l IH] using rev_ind.
      - cbn. split; [by left|]. intros [?|(r & H & _)]; [done|]. by apply elem_of_nil in H.
      - rewrite blist_snoc. unfold radd. assert (forall P : raw -> Prop, (exists r', r' ∈ l ++ [r] /\ P r') <-> (exists r', r' ∈ l /\ P r') \/ P r) as Hs.
        { intros P. split.
          - intros (r' & [H|H]%elem_of_app & HP); [left; by exists r'|]. apply elem_of_list_singleton in H as ->. by right.
          - intros [(r' & H & HP)|HP]; [exists r'|exists r]; rewrite elem_of_app, elem_of_list_singleton; tauto. }
        rewrite Hs. destruct (decide (r_role r = k)) as [E|E].
        + destruct (conv U r) as [a'| |] eqn:Ec; [rewrite elem_of_add_iff|..]; rewrite IH.
          * split; [intros [->|[?|?]]; tauto|intros [?|[?|[_ [= ->]]]]; tauto].
          * split; [tauto|intros [?|[?|[_ ?]]]; [tauto|tauto|done]].
          * split; [tauto|intros [?|[?|[_ ?]]]; [tauto|tauto|done]].
        + rewrite IH. tauto.
    Qed.

    Lemma bent_get dn g t k : T t -> has_role j k -> bent dn g k ->
      match g_get t k g with Some l => l = blist k dn | None => blist k dn = [] end.
    Proof.
      intros Ht Hr H. unfold bent in H. destruct (decide (k ∈ map r_role dn)) as [Hin|Hin].
      - destruct H as (e & He & Hv). unfold g_get. rewrite He, Hv; [done|]. destruct (Hfit t Ht) as [?|(?&?&?&?)]; [by left|by right].
      - rewrite blist_unmentioned by done. assert (g_get t k g = g_get t1 k g0) as ->.
        { rewrite <- (Hold t k Ht Hr). unfold g_get. by rewrite H. }
        unfold base. by destruct (g_get t1 k g0).
    Qed.
    Lemma cstep_lw w inp g ws s' x : cstep U (CWork w inp) (CSt g ws) = Some s' -> ws !! w = Some x -> lw g x ->
      (forall j', inp = IFetch (Ok j') -> j' = j) -> (forall t, inp = ITime t -> T t) ->
      exists x', c_work s' !! w = Some x' /\ lw (c_g s') x'.
    Proof.
      intros Hs Hx Hl Hj Ht. cbn [cstep c_work c_g] in Hs. rewrite Hx in Hs. pose proof (lookup_lt_Some _ _ _ Hx) as Hlt.
      destruct x as [|j' [|r rest]|j' role asss rest|j' e].
      - destruct inp as [[j'|e|]|t]; [| |done..]; injection Hs as <-; cbn [c_work c_g]; rewrite list_lookup_insert by done; eexists; (split; [done|]).
        + rewrite (Hj j' eq_refl). cbn. split; [done|]. exists []. split; [done|]. split; [constructor|]. intros k. unfold bent. cbn in Hl. subst g.
          rewrite decide_False; [done|]. apply not_elem_of_nil.
        + done.
      - destruct inp as [|t]; [done|]. injection Hs as <-. cbn [c_work c_g]; rewrite list_lookup_insert by done; eexists; (split; [done|]).
        destruct Hl as (-> & dn & Hdn & Hok & Hb). rewrite app_nil_r in Hdn. subst dn. done.
      - destruct inp as [|t]; [done|]. destruct Hl as (-> & dn & Hdn & Hok & Hb). fold (conv U r) in Hs.
        assert (has_role j (r_role r)) as Hr. { exists r. split; [|done]. rewrite Hdn. apply elem_of_app. right. left. }
        destruct (conv U r) as [a|e|] eqn:Ea; [| |done]; injection Hs as <-; cbn [c_work c_g]; rewrite list_lookup_insert by done; eexists; (split; [done|]); try done.
        cbn. split; [done|]. exists dn, r. split; [done|]. split.
        { apply Forall_app. split; [done|]. repeat constructor. by exists a. }
        split; [done|]. split; [|done]. rewrite blist_snoc. unfold radd. rewrite decide_True by done. rewrite Ea.
        pose proof (bent_get dn g t (r_role r) (Ht t eq_refl) Hr (Hb _)) as Hg. destruct (g_get t (r_role r) g) as [l|]; [by subst l|].
        rewrite Hg. cbn. by destruct (a_effect a).
      - destruct inp as [|t]; [done|]. destruct Hl as (-> & dn & r & Hdn & Hok & -> & -> & Hb). injection Hs as <-.
        cbn [c_work c_g]; rewrite list_lookup_insert by done; eexists; (split; [done|]). cbn. split; [done|]. exists (dn ++ [r]).
        split; [by rewrite <- app_assoc|]. split; [done|]. intros k. unfold bent, g_set. rewrite map_app. destruct (decide (r_role r = k)) as [<-|Hk].
        + rewrite decide_True. 2:{ apply elem_of_app. right. cbn. left. }
          eexists. rewrite lookup_insert. split; [done|]. intros t' Ha. exact (stored_alive (fun _ _ => True) (fun _ _ => True) j t t' (Hfit t (Ht t eq_refl)) Ha _).
        + rewrite lookup_insert_ne by done. specialize (Hb k). unfold bent in Hb. rewrite blist_snoc. unfold radd. rewrite (decide_False _ _ Hk).
          assert (k ∈ map r_role dn ++ map r_role [r] <-> k ∈ map r_role dn) as Hi.
          { rewrite elem_of_app. cbn. rewrite elem_of_list_singleton. split; [intros [?|?]; [done|congruence]|tauto]. }
          destruct (decide (k ∈ map r_role dn)) as [Hin|Hin]; [rewrite decide_True by tauto|rewrite decide_False by tauto]; done.
      - by destruct inp.
    Qed.
    Lemma crun_lw w ls g ws s x : crun U ls (CSt g ws) = Some s -> only w ls -> ws !! w = Some x -> lw g x ->
      (forall j', fetched ls w j' -> j' = j) -> (forall t, ticked ls w t -> T t) ->
      exists x', c_work s !! w = Some x' /\ lw (c_g s) x'.
    Proof.
      revert g ws x. induction ls as [|l ls IH]; intros g ws x H Ho Hx Hl Hj Ht; cbn [crun] in H; [injection H as <-; by exists x|].
      destruct (cstep U l (CSt g ws)) as [[g1 ws1]|] eqn:E; [|done]. destruct (Ho l ltac:(left)) as [inp ->].
      destruct (cstep_lw _ _ _ _ _ _ E Hx Hl) as (x1 & Hx1 & Hl1).
      { intros j' ->. apply Hj. left. }
      { intros t ->. apply Ht. left. }
      apply (IH _ _ x1 H); [|done|done|..].
      - intros l Hl'. apply Ho. by right.
      - intros j' Hf. apply Hj. by right.
      - intros t Hf. apply Ht. by right.
    Qed.
  End inv.

  Lemma crun_end_job w ls s s' j : crun U ls s = Some s' -> c_work s !! w = Some CIdle -> c_work s' !! w = Some (CEnd (Some j) None) -> fetched ls w j.
  Proof.
    intros H Hw He. assert (forall ls s x, crun U ls s = Some s' -> c_work s !! w = Some x ->
      match x with CIdle => False | CCache j' _ | CSet j' _ _ _ | CEnd (Some j') _ => j' = j | CEnd None _ => False end \/ fetched ls w j) as Hx.
    { clear H Hw s ls. intros ls. induction ls as [|l ls IH]; intros s x H Hw; cbn [crun] in H.
      - injection H as ->. left. by rewrite He in Hw; injection Hw as <-.
      - destruct (cstep U l s) as [s1|] eqn:E; [|done].
        assert (forall x1, c_work s1 !! w = Some x1 -> fetched (l :: ls) w j \/ match x1 with CIdle => False | CCache j' _ | CSet j' _ _ _ | CEnd (Some j') _ => j' = j | CEnd None _ => False end) as IH1.
        { intros x1 Hx1. destruct (IH _ _ H Hx1); [by right|left; by right]. }
        destruct l as [i inp|k]; cbn [cstep] in E; [|injection E as <-; cbn in IH1; specialize (IH1 x Hw); tauto].
        destruct (decide (i = w)) as [->|Hne].
        + rewrite Hw in E. pose proof (lookup_lt_Some _ _ _ Hw) as Hlt.
          destruct x as [|j' [|r rest]|j' role asss rest|j' e]; destruct inp as [[]|t]; try done;
            try (destruct (new_assertion _ _ _ _); try done); injection E as <-; cbn [c_work] in IH1;
            (destruct (IH1 _ (list_lookup_insert _ _ _ Hlt)) as [?|Hi]; [by right|]); try tauto; subst; right; left.
        + destruct (c_work s !! i) as [y|]; [|done]. assert (c_work s1 !! w = Some x) as Hs1; [|specialize (IH1 x Hs1); tauto].
          destruct y as [|j' [|r rest]|j' role asss rest|j' e]; destruct inp as [[]|t]; try done;
            try (destruct (new_assertion _ _ _ _); try done); injection E as <-; cbn [c_work]; by rewrite list_lookup_insert_ne. }
    by destruct (Hx ls s CIdle H Hw).
  Qed.

  (** What a role holds after a refresh that ran alone: what it held, if not expired, and the
      assertions of the document. *)
  Lemma lone_refresh w ls g ws s j t1 t domain role : crun U ls (CSt g ws) = Some s -> only w ls -> ws !! w = Some CIdle ->
    c_work s !! w = Some (CEnd (Some j) None) -> (forall t, ticked ls w t -> fits j t) -> steady w ls j g ->
    ticked ls w t1 -> alive j t -> has_role j (key_of domain role) ->
    okl U (j_script j) /\ forall a,
    (holds_assertion domain (g_view t (c_g s)) role a <->
     holds_assertion domain (g_view t1 g) role a \/ exists r, r ∈ j_script j /\ r_role r = key_of domain role /\ conv U r = Ok a).
  Proof.
    intros H Ho Hw He Hfit Hst Ht1 Hal Hrole.
    assert (forall j', fetched ls w j' -> j' = j) as Hj.
    { intros j' Hf. apply (crun_fetch_unique _ _ _ _ H w); [done|]. by apply (crun_end_job _ _ _ _ _ H Hw). }
    assert (lw g j t1 g CIdle) as H0 by done.
    destruct (crun_lw g j (ticked ls w) t1 Hfit (fun t k Ht Hr => Hst k t t1 Hr Ht Ht1) w ls g ws s _ H Ho Hw H0 Hj (fun _ x => x)) as (x & Hx & Hl).
    rewrite He in Hx. injection Hx as <-. destruct Hl as (_ & Hok & Hb). split; [done|]. intros a.
    specialize (Hb (key_of domain role)). unfold bent in Hb. rewrite decide_True in Hb.
    2:{ destruct Hrole as (r & Hr & <-). by apply elem_of_list_fmap_1. }
    destruct Hb as (e & Hg & Hv). unfold holds_assertion. rewrite !g_view_lookup. unfold g_get at 1. rewrite Hg, (Hv t Hal). cbn [ge_val].
    split.
    - intros (l & [= <-] & Ha). apply elem_of_blist in Ha as [Ha|Ha]; [left|by right]. unfold base in Ha.
      destruct (g_get t1 (key_of domain role) g) as [l|]; [by exists l|by apply elem_of_nil in Ha].
    - intros Hx. eexists. split; [done|]. apply elem_of_blist. destruct Hx as [(l & Hl & Ha)|Hx]; [left|by right]. unfold base. by rewrite Hl.
  Qed.
End lone.

(** ** C74 *)
(** A hook that no other hook overlaps adds the document of its domain to what the roles still hold;
    if their entries have expired it leaves exactly what the document says. *)
Theorem C74_lone_refresh_adds_document_partial U w ls g ws s j t1 t doc domain action resource role :
  crun U ls (CSt g ws) = Some s -> only w ls -> ws !! w = Some CIdle -> c_work s !! w = Some (CEnd (Some j) None) ->
  no_commas doc -> faithful_script U doc (j_script j) ->
  (forall t, ticked ls w t -> fits j t) -> steady w ls j g -> ticked ls w t1 -> alive j t -> has_role j (key_of domain role) ->
  let before := g_view t1 g in let after := g_view t (c_g s) in
  (role_denies U domain action resource after role <->
     doc_denies U domain action resource doc role \/ role_denies U domain action resource before role) /\
  (~ doc_denies U domain action resource doc role ->
     (role_allows U domain action resource after role <->
        doc_allows U domain action resource doc role \/ role_allows U domain action resource before role)).
Proof.
  intros H Ho Hw He Hnc Hf Hfit Hst Ht1 Hal Hrole before after.
  destruct (lone_refresh U w ls g ws s j t1 t domain role H Ho Hw He Hfit Hst Ht1 Hal Hrole) as [Hok Hh].
  set (c1 := {[key_of domain role := PolicyCacheProofs.rlist U (key_of domain role) (j_script j)]} : cache).
  assert (forall a, holds_assertion domain c1 role a <-> exists r, r ∈ j_script j /\ r_role r = key_of domain role /\ conv U r = Ok a) as H1.
  { intros a. unfold holds_assertion, c1. split.
    - intros (l & Hl & Ha). rewrite lookup_singleton in Hl. injection Hl as <-. by apply PolicyCacheProofs.elem_of_rlist.
    - intros Ha. eexists. rewrite lookup_singleton. split; [done|]. by apply PolicyCacheProofs.elem_of_rlist. }
  destruct (entry_meaning U domain action resource doc (j_script j) c1 role Hnc Hf Hok H1) as [Hd Hall].
  split.
  - rewrite <- Hd. split.
    + intros (a & Ha & Hx). apply Hh in Ha as [Ha|Ha]; [right; by exists a|left]. exists a. split; [by apply H1|done].
    + intros [(a & Ha & Hx)|(a & Ha & Hx)]; exists a; (split; [|done]); apply Hh; [right; by apply H1|by left].
  - intros Hnd. rewrite <- (Hall Hnd). split.
    + intros (a & Ha & Hx). apply Hh in Ha as [Ha|Ha]; [right; by exists a|left]. exists a. split; [by apply H1|done].
    + intros [(a & Ha & Hx)|(a & Ha & Hx)]; exists a; (split; [|done]); apply Hh; [right; by apply H1|by left].
Qed.
(** The roles it does not mention are untouched. *)
Theorem C74_lone_refresh_touches_no_other_role U w ls g ws s j t k :
  crun U ls (CSt g ws) = Some s -> only w ls -> ws !! w = Some CIdle -> c_work s !! w = Some (CEnd (Some j) None) ->
  ~ has_role j k -> g_get t k (c_g s) = g_get t k g.
Proof.
  intros H Ho Hw He Hk.
  assert (forall ls g ws s x, crun U ls (CSt g ws) = Some s -> only w ls -> ws !! w = Some x -> (forall j', fetched ls w j' -> j' = j) ->
     match x with CIdle => True | CCache _ rest => k ∉ map r_role rest | CSet _ r _ rest => r <> k /\ k ∉ map r_role rest | CEnd _ _ => True end ->
     c_g s !! k = g !! k) as Hx.
  { clear - Hk. intros ls. induction ls as [|l ls IH]; intros g ws s x H Ho Hw Hj Hl; cbn [crun] in H; [by injection H as <-|].
    destruct (cstep U l (CSt g ws)) as [[g1 ws1]|] eqn:E; [|done]. destruct (Ho l ltac:(left)) as [inp ->].
    assert (exists x1, ws1 !! w = Some x1 /\ g1 !! k = g !! k /\
      match x1 with CIdle => True | CCache _ rest => k ∉ map r_role rest | CSet _ r _ rest => r <> k /\ k ∉ map r_role rest | CEnd _ _ => True end) as (x1 & Hx1 & Hg & Hl1).
    { cbn [cstep c_work c_g] in E. rewrite Hw in E. pose proof (lookup_lt_Some _ _ _ Hw) as Hlt.
      destruct x as [|j' [|r rest]|j' role asss rest|j' e]; destruct inp as [[j1| |]|t1]; try done;
        try (destruct (new_assertion _ _ _ _); try done); injection E as <- <-; rewrite list_lookup_insert by done; eexists; (split; [done|]); try done.
      - split; [done|]. rewrite (Hj j1 ltac:(left)). intros Hin. apply Hk. apply elem_of_list_fmap in Hin as (r & -> & Hr). by exists r.
      - split; [done|]. cbn in Hl. rewrite elem_of_cons in Hl. split; [intros Heq; apply Hl; by left|tauto].
      - destruct Hl as [Hl1 Hl2]. split; [|done]. unfold g_set. by rewrite lookup_insert_ne. }
    rewrite <- Hg. apply (IH _ _ _ x1 H); [|done| |done].
    - intros l Hl'. apply Ho. by right.
    - intros j' Hf. apply Hj. by right. }
  unfold g_get. rewrite (Hx ls g ws s CIdle H Ho Hw); [done| |done].
  intros j' Hf. apply (crun_fetch_unique _ _ _ _ H w); [done|]. by apply (crun_end_job _ _ _ _ _ _ H Hw).
Qed.
(** However many hooks overlap, the cache holds nothing but what it held and what the documents say. *)
Theorem C74_refresh_invents_nothing U ls g n s k e a : crun U ls (cinit g n) = Some s -> c_g s !! k = Some e -> a ∈ ge_val e ->
  (exists e0, g !! k = Some e0 /\ a ∈ ge_val e0) \/
  exists i j r, fetched ls i j /\ r ∈ j_script j /\ r_role r = k /\ new_assertion U (r_action r) (r_resource r) (r_effect r) = Ok a.
Proof.
  intros H Hk Ha. pose proof (crun_binv U g (fetched ls) (ticked ls) _ _ _ H (permitted_self ls) (cinit_binv _ _ _ _ n)) as [_ Hb].
  destruct (Hb _ _ Hk) as [Hs _]. exact (Hs _ Ha).
Qed.

(** Two keys of a domain expire together, so two hooks run; both succeed with the same document, in
    which role r is denied x.  Afterwards the denial is gone and r is allowed x. *)
Definition hdoc : document :=
  [[Prop_PolicyUpdate.rw "d:role.r" "read" "d:x" "deny"; Prop_PolicyUpdate.rw "d:role.r" "read" "d:*" "allow"; Prop_PolicyUpdate.rw "d:role.q" "read" "d:y" "allow"]].
Definition hx := Prop_PolicyUpdate.rw "d:role.r" "read" "d:x" "deny".
Definition hy := Prop_PolicyUpdate.rw "d:role.r" "read" "d:*" "allow".
Definition hz := Prop_PolicyUpdate.rw "d:role.q" "read" "d:y" "allow".
Definition hjob (l : list raw) : job := Job (1000 * second) (10 * second) l.
Definition htick (w : nat) : clabel := CWork w (ITime (12 * second)).
Definition hrace : list clabel :=
  [CWork 0 (IFetch (Ok (hjob [hy; hx; hz]))); CWork 1 (IFetch (Ok (hjob [hx; hy; hz])));
   htick 0; htick 1; htick 1; htick 0; htick 1; htick 0; htick 0; htick 1; (* the denial is lost here *)
   htick 0; htick 0; htick 0; htick 1; htick 1; htick 1]%nat.
Lemma hscripts l : l ∈ [[hy; hx; hz]; [hx; hy; hz]] -> faithful_script U0 hdoc l.
Proof.
  rewrite !elem_of_cons, elem_of_nil. intros [->|[->|[]]]; apply (scriptb_faithful _ _ (replicate 7 (SWork 0))); vm_compute; reflexivity.
Qed.
Theorem C74_overlapping_refreshes_lose_denial_refuted :
  exists s, crun U0 hrace (cinit ∅ 2) = Some s /\
    (forall i w, c_work s !! i = Some w -> exists j, w = CEnd (Some j) None /\ faithful_script U0 hdoc (j_script j)) /\
    no_commas hdoc /\ no_cross_conflict U0 hdoc /\
    (forall i j t, fetched hrace i j -> ticked hrace i t -> fits j t /\ alive j (20 * second)) /\
    doc_denies U0 (B "d") (B "read") (B "x") hdoc (B "r") /\
    ~ role_denies U0 (B "d") (B "read") (B "x") (g_view (20 * second) (c_g s)) (B "r") /\
    role_allows U0 (B "d") (B "read") (B "x") (g_view (20 * second) (c_g s)) (B "r").
Proof.
  assert (option_map (fun s => (map (fun w => match w with CEnd (Some j) None => Some (j_script j) | _ => None end) (c_work s),
     option_map (map (fun a => (a_effect a, a_matches U0 a (B "d") (B "read") (B "x")))) (g_get (20 * second) (B "d:role.r") (c_g s))))
     (crun U0 hrace (cinit ∅ 2)) = Some ([Some [hy; hx; hz]; Some [hx; hy; hz]], Some [(None, true); (None, true)])) as Ho by (vm_compute; reflexivity).
  destruct (crun U0 hrace (cinit ∅ 2)) as [s|] eqn:E; [|discriminate]. clear E. cbn [option_map] in Ho. injection Ho as Hw Hg.
  exists s. split; [done|].
  split. { intros i w Hi. assert ((fun w => match w with CEnd (Some j) None => Some (j_script j) | _ => None end) <$> c_work s = [Some [hy; hx; hz]; Some [hx; hy; hz]]) as Hm by exact Hw.
    apply (f_equal (fun l => l !! i)) in Hm. rewrite list_lookup_fmap, Hi in Hm. cbn in Hm.
    assert (forall o, [Some [hy; hx; hz]; Some [hx; hy; hz]] !! i = Some o -> exists l, o = Some l /\ faithful_script U0 hdoc l) as Hf.
    { intros o Hl. apply elem_of_list_lookup_2 in Hl. rewrite !elem_of_cons, elem_of_nil in Hl.
      destruct Hl as [->|[->|[]]]; eexists; (split; [done|]); apply hscripts; rewrite !elem_of_cons; tauto. }
    destruct (Hf _ (eq_sym Hm)) as (l & Hl & Hfs). destruct w as [| | |[j|] [e|]]; try discriminate. injection Hl as <-. by exists j. }
  split. { apply no_commasb_spec. vm_compute. reflexivity. }
  split. { apply no_conflictb_spec. vm_compute. reflexivity. }
  split. { intros i j t Hf Ht. unfold ticked, hrace in Ht. unfold fetched, hrace in Hf.
    assert (t = 12 * second) as ->.
    { clear Hf. unfold htick in Ht. repeat (apply elem_of_cons in Ht as [Ht|Ht]; [try discriminate Ht; by injection Ht|]). by apply elem_of_nil in Ht. }
    assert (exists l, j = hjob l) as [l ->].
    { clear Ht. unfold htick in Hf. repeat (apply elem_of_cons in Hf as [Hf|Hf]; [try discriminate Hf; injection Hf; intros; subst; by eexists|]). by apply elem_of_nil in Hf. }
    split; [right|right]; vm_compute; done. }
  split. { apply doc_deniesb_spec. vm_compute. reflexivity. }
  assert (exists l, g_view (20 * second) (c_g s) !! key_of (B "d") (B "r") = Some l /\ map (fun a => (a_effect a, a_matches U0 a (B "d") (B "read") (B "x"))) l = [(None, true); (None, true)]) as (l & Hl & Hm).
  { rewrite g_view_lookup. match type of Hg with context [g_get ?t ?k ?g] => change (key_of (B "d") (B "r")) with k; destruct (g_get t k g) as [l|]; [|discriminate Hg] end.
    exists l. split; [done|]. exact (f_equal (default []) Hg). }
  destruct l as [|a1 [|a2 [|]]]; try discriminate Hm. cbn [map] in Hm. injection Hm as E1 M1 E2 M2. split.
  - intros (a & (l' & Hl' & Ha) & _ & Hd). rewrite Hl in Hl'. injection Hl' as <-. rewrite !elem_of_cons, elem_of_nil in Ha.
    destruct Ha as [->|[->|[]]]; done.
  - exists a1. split; [|done]. eexists. split; [exact Hl|left].
Qed.
(** A lone hook on a cache whose entries have expired. *)
Definition hold : gache (list assertion) := {[B "d:role.r" := GEntry [] (5 * second)]}.
Definition hlone : list clabel := CWork 0 (IFetch (Ok (hjob [hy; hx; hz]))) :: replicate 7 (htick 0).
Example C74_nonvacuous : exists s, crun U0 hlone (cinit hold 1) = Some s /\ only 0 hlone /\
  c_work s !! 0%nat = Some (CEnd (Some (hjob [hy; hx; hz])) None) /\ no_commas hdoc /\ faithful_script U0 hdoc [hy; hx; hz] /\
  (forall t, ticked hlone 0 t -> fits (hjob [hy; hx; hz]) t) /\ steady 0 hlone (hjob [hy; hx; hz]) hold /\ ticked hlone 0 (12 * second) /\
  alive (hjob [hy; hx; hz]) (20 * second) /\ has_role (hjob [hy; hx; hz]) (key_of (B "d") (B "r")) /\
  role_denies U0 (B "d") (B "read") (B "x") (g_view (20 * second) (c_g s)) (B "r") /\
  role_allows U0 (B "d") (B "read") (B "z") (g_view (20 * second) (c_g s)) (B "r").
Proof.
  destruct (crun U0 hlone (cinit hold 1)) as [s|] eqn:E; [|vm_compute in E; discriminate E].
  assert (only 0 hlone) as Ho.
  { intros l Hl. unfold hlone, htick in Hl. apply elem_of_cons in Hl as [->|Hl]; [by eexists|]. apply elem_of_replicate in Hl as [-> _]. by eexists. }
  assert (forall t, ticked hlone 0 t -> t = 12 * second) as Ht.
  { intros t Ht. unfold ticked, hlone, htick in Ht. apply elem_of_cons in Ht as [Ht|Ht]; [discriminate Ht|]. apply elem_of_replicate in Ht as [Ht _]. by injection Ht. }
  assert (c_work s !! 0%nat = Some (CEnd (Some (hjob [hy; hx; hz])) None)) as Hw.
  { assert (option_map (fun s => c_work s !! 0%nat) (crun U0 hlone (cinit hold 1)) = Some (Some (CEnd (Some (hjob [hy; hx; hz])) None))) as Hx by (vm_compute; reflexivity).
    rewrite E in Hx. exact (f_equal (default None) Hx). }
  assert (no_commas hdoc) as Hnc by (apply no_commasb_spec; vm_compute; reflexivity).
  assert (faithful_script U0 hdoc [hy; hx; hz]) as Hf by (apply hscripts; left).
  assert (forall t, ticked hlone 0 t -> fits (hjob [hy; hx; hz]) t) as Hfit by (intros t ->%Ht; right; vm_compute; done).
  assert (steady 0 hlone (hjob [hy; hx; hz]) hold) as Hst by (by intros k t t' _ ->%Ht ->%Ht).
  assert (ticked hlone 0 (12 * second)) as Ht1 by (right; left).
  assert (alive (hjob [hy; hx; hz]) (20 * second)) as Ha by (right; vm_compute; done).
  assert (has_role (hjob [hy; hx; hz]) (key_of (B "d") (B "r"))) as Hr by (exists hy; split; [left|reflexivity]).
  exists s. split; [done|]. split; [done|]. split; [done|]. split; [done|]. split; [done|]. split; [done|]. split; [done|]. split; [done|]. split; [done|]. split; [done|].
  pose proof (fun res => C74_lone_refresh_adds_document_partial U0 0 hlone hold [CIdle] s _ (12 * second) (20 * second) hdoc (B "d") (B "read") res (B "r")
    E Ho eq_refl Hw Hnc Hf Hfit Hst Ht1 Ha Hr) as Hm. cbn zeta in Hm.
  split.
  - apply Hm. left. apply doc_deniesb_spec. vm_compute. reflexivity.
  - apply Hm; [|left; apply doc_allowsb_spec; vm_compute; reflexivity]. intros Hx%doc_deniesb_spec. vm_compute in Hx. discriminate Hx.
Qed.
Print Assumptions C74_lone_refresh_adds_document_partial.
Print Assumptions C74_lone_refresh_touches_no_other_role.
Print Assumptions C74_refresh_invents_nothing.
Print Assumptions C74_overlapping_refreshes_lose_denial_refuted.
