(** * Facts about phase 1 of simplifyAndCachePolicy *)
From Verif Require Export PolicySimplifySpec AssertionProofs.

Lemma km_inj a b :
  ","%char ∉ r_role a -> ","%char ∉ r_action a -> ","%char ∉ r_role b -> ","%char ∉ r_action b ->
  km a = km b -> same_target a b.
Proof.
  assert (forall (x y u v : str), ","%char ∉ x -> ","%char ∉ y ->
    x ++ B "," ++ u = y ++ B "," ++ v -> x = y /\ u = v) as Haux.
  { induction x as [|c x IH]; intros [|d y] u v Hx Hy; cbn.
    - by intros [= ->].
    - intros [= <- _]. destruct Hy. left.
    - intros [= -> _]. destruct Hx. left.
    - intros [= -> H]. apply not_elem_of_cons in Hx as [_ Hx], Hy as [_ Hy].
      by destruct (IH y u v Hx Hy H) as [-> ->]. }
  intros H1 H2 H3 H4 H. unfold km in H. apply Haux in H as [Hr H]; [|done..].
  apply Haux in H as [Ha Hs]; [|done..]. done.
Qed.

Section phase1.
  Context (U : unicode) (doc : document).

  Definition wok (M : gmap str raw) (pol : policy) (dn : list raw) (w : sw) : Prop :=
    match w with
    | SLoop rest => pol = dn ++ rest
    | SStore a f rest => pol = dn ++ a :: rest /\ (f = false -> forall b, b ∈ dn -> km b <> km a)
                         /\ (f = true -> is_Some (M !! km a))
    | SDone None => pol = dn
    | SDone (Some _) => exists rest, pol = dn ++ rest
    end /\
    forall a, a ∈ dn -> exists b, M !! km a = Some b /\ km b = km a.

  Definition sinv (s : sst) (dns : list (list raw)) : Prop :=
    length (ss_work s) = length doc /\ length dns = length doc /\
    (forall i pol w dn, doc !! i = Some pol -> ss_work s !! i = Some w -> dns !! i = Some dn ->
       wok (ss_map s) pol dn w) /\
    (forall k a, ss_map s !! k = Some a -> km a = k /\ exists i dn, dns !! i = Some dn /\ a ∈ dn).

  Definition denies_kept (s : sst) (dns : list (list raw)) : Prop :=
    forall i dn a, dns !! i = Some dn -> a ∈ dn -> raw_denyb U a = true ->
      exists b, ss_map s !! km a = Some b /\ raw_denyb U b = true.

  (** The store about to happen does not replace a deny by an allow. *)
  Definition safe_store (l : slabel) (s : sst) : Prop :=
    forall i a rest b, l = SWork i -> ss_work s !! i = Some (SStore a false rest) ->
      raw_denyb U a = false -> ss_map s !! km a = Some b -> raw_denyb U b = false.

  Lemma sinit_inv c : sinv (sinit doc c) (replicate (length doc) []).
  Proof.
    split; [apply map_length|]. split; [apply replicate_length|]. split.
    - intros i pol w dn Hp Hw Hd. apply lookup_replicate in Hd as [-> _]. cbn [sinit ss_work ss_map] in *.
      change (map SLoop doc) with (SLoop <$> doc) in Hw. rewrite list_lookup_fmap, Hp in Hw.
      injection Hw as <-. split; [done|]. intros a Ha. by apply elem_of_nil in Ha.
    - intros k a H. cbn [sinit ss_map] in H. by rewrite lookup_empty in H.
  Qed.
  Lemma sinit_kept c : denies_kept (sinit doc c) (replicate (length doc) []).
  Proof. intros i dn a Hd Ha. apply lookup_replicate in Hd as [-> _]. by apply elem_of_nil in Ha. Qed.

  Lemma keys_kept (M : gmap str raw) (a : raw) (f : bool) k b :
    M !! k = Some b -> km b = k ->
    exists b', (if negb f || raw_denyb U a then <[km a := a]> M else M) !! k = Some b' /\ km b' = k.
  Proof.
    intros HM Hb. destruct (negb f || raw_denyb U a); [|by exists b].
    destruct (decide (km a = k)) as [<-|Hne].
    - exists a. by rewrite lookup_insert.
    - exists b. by rewrite lookup_insert_ne.
  Qed.

  Lemma sstep_inv l s s' dns : sstep U l s = Some s' -> sinv s dns ->
    exists dns', sinv s' dns' /\ (safe_store l s -> denies_kept s dns -> denies_kept s' dns').
  Proof.
    intros Hs (Hlw & Hld & Hw & Hm). destruct l as [i|].
    2:{ injection Hs as <-. exists dns. split; [by split_and!|]. by intros _. }
    cbn [sstep] in Hs. destruct (ss_work s !! i) as [w|] eqn:Hi; [|done].
    pose proof (lookup_lt_Some _ _ _ Hi) as Hlt.
    destruct (lookup_lt_is_Some_2 doc i ltac:(lia)) as [pol Hp].
    destruct (lookup_lt_is_Some_2 dns i ltac:(lia)) as [dn Hd].
    pose proof (Hw i pol w dn Hp Hi Hd) as [Hwi Hdn].
    assert (forall w', match w' with
            | SLoop rest => pol = dn ++ rest
            | SStore a f rest => pol = dn ++ a :: rest /\ (f = false -> forall b, b ∈ dn -> km b <> km a)
                         /\ (f = true -> is_Some (ss_map s !! km a))
            | SDone None => pol = dn
            | SDone (Some _) => exists rest, pol = dn ++ rest end ->
            sinv (SSt (ss_map s) (ss_cancel s) (<[i:=w']> (ss_work s))) dns) as Hkeep.
    { intros w' Hw'. split; [by cbn; rewrite insert_length|]. split; [done|]. split; [|done].
      cbn [ss_work ss_map]. intros j pj wj dj Hpj Hwj Hdj. destruct (decide (i = j)) as [<-|Hne].
      - rewrite list_lookup_insert in Hwj by done. injection Hwj as <-.
        rewrite Hp in Hpj. injection Hpj as <-. rewrite Hd in Hdj. injection Hdj as <-. by split.
      - rewrite list_lookup_insert_ne in Hwj by done. eauto. }
    destruct w as [rest|a f rest|e]; [|clear Hkeep|done].
    - destruct rest as [|a rest].
      + injection Hs as <-. exists dns. split; [apply Hkeep; by rewrite app_nil_r in Hwi|]. by intros _.
      + destruct (ss_cancel s) eqn:Hc.
        { injection Hs as <-. exists dns. split; [apply Hkeep; by eexists|]. by intros _. }
        injection Hs as <-. exists dns. split; [|by intros _].
        apply Hkeep. split; [done|]. destruct (ss_map s !! km a) as [b|] eqn:Hk; [by split; [|eauto]|].
        split; [|done]. intros _ b Hb Hkm. destruct (Hdn b Hb) as (b' & Hb' & _). by rewrite Hkm, Hk in Hb'.
    - injection Hs as <-. destruct Hwi as (Hpol & Hff & Hft). exists (<[i := dn ++ [a]]> dns).
      set (M' := if negb f || raw_denyb U a then _ else _).
      assert (forall k b, ss_map s !! k = Some b -> km b = k -> exists b', M' !! k = Some b' /\ km b' = k) as Hkk
        by (intros; by eapply keys_kept).
      assert (exists b, M' !! km a = Some b /\ km b = km a) as Hself.
      { destruct f.
        - destruct Hft as [b Hb]; [done|]. apply (Hkk _ b); [done|]. by apply Hm in Hb as [? _].
        - subst M'. cbn [negb orb]. exists a. by rewrite lookup_insert. }
      split.
      + split; [by cbn; rewrite insert_length|]. split; [by rewrite insert_length|]. cbn [ss_work ss_map]. split.
        * intros j pj wj dj Hpj Hwj Hdj. destruct (decide (i = j)) as [<-|Hne].
          -- rewrite list_lookup_insert in Hwj by done. injection Hwj as <-.
             rewrite Hp in Hpj. injection Hpj as <-.
             rewrite list_lookup_insert in Hdj by (apply lookup_lt_Some in Hd; done). injection Hdj as <-.
             split; [by rewrite <- app_assoc|].
             intros b Hb. apply elem_of_app in Hb as [Hb|Hb%elem_of_list_singleton]; [|by subst b].
             destruct (Hdn b Hb) as (b' & ? & ?). by eapply Hkk.
          -- rewrite list_lookup_insert_ne in Hwj by done. rewrite list_lookup_insert_ne in Hdj by done.
             destruct (Hw j pj wj dj Hpj Hwj Hdj) as [H1 H2]. split.
             ++ destruct wj as [|a' f' rest'|]; [done| |done]. destruct H1 as (? & ? & Hf'). split; [done|].
                split; [done|]. intros Hf. destruct (Hf' Hf) as [b Hb].
                destruct (Hkk _ _ Hb (proj1 (Hm _ _ Hb))) as (b' & ? & _). by eexists.
             ++ intros b Hb. destruct (H2 b Hb) as (b' & ? & ?). by eapply Hkk.
        * intros k b Hb.
          assert (ss_map s !! k = Some b \/ (k = km a /\ b = a)) as [Hb'|[-> ->]].
          { subst M'. destruct (negb f || raw_denyb U a); [|by left].
            apply lookup_insert_Some in Hb as [[<- <-]|[_ ?]]; [by right|by left]. }
          -- apply Hm in Hb' as (Hk & j & dj & Hdj & Hbj). split; [done|].
             destruct (decide (i = j)) as [<-|Hne].
             ++ exists i, (dn ++ [a]). rewrite list_lookup_insert by (apply lookup_lt_Some in Hd; done).
                rewrite Hd in Hdj. injection Hdj as <-. split; [done|]. apply elem_of_app. by left.
             ++ exists j, dj. by rewrite list_lookup_insert_ne.
          -- split; [done|]. exists i, (dn ++ [a]).
             rewrite list_lookup_insert by (apply lookup_lt_Some in Hd; done). split; [done|].
             apply elem_of_app. right. by apply elem_of_list_singleton.
      + intros Hsafe Hkept j dj b Hdj Hb Hdb. cbn [ss_map].
        assert (ss_map s !! km b = None -> b = a) as Hnew.
        { intros Hnone. destruct (decide (i = j)) as [<-|Hne].
          - rewrite list_lookup_insert in Hdj by (apply lookup_lt_Some in Hd; done). injection Hdj as <-.
            apply elem_of_app in Hb as [Hb|Hb%elem_of_list_singleton]; [|done].
            destruct (Hkept i dn b Hd Hb Hdb) as (c & Hc & _). congruence.
          - rewrite list_lookup_insert_ne in Hdj by done.
            destruct (Hkept j dj b Hdj Hb Hdb) as (c & Hc & _). congruence. }
        assert (b = a \/ exists c, ss_map s !! km b = Some c /\ raw_denyb U c = true) as [->|(c & Hc & Hdc)].
        { destruct (decide (i = j)) as [<-|Hne].
          - rewrite list_lookup_insert in Hdj by (apply lookup_lt_Some in Hd; done). injection Hdj as <-.
            apply elem_of_app in Hb as [Hb|Hb%elem_of_list_singleton]; [|by left]. right. by eapply Hkept.
          - rewrite list_lookup_insert_ne in Hdj by done. right. by eapply Hkept. }
        * exists a. subst M'. rewrite Hdb, orb_true_r, lookup_insert. done.
        * subst M'. destruct (raw_denyb U a) eqn:Hda.
          -- rewrite orb_true_r. destruct (decide (km a = km b)) as [Heq|Hne].
             ++ exists a. by rewrite Heq, lookup_insert.
             ++ exists c. by rewrite lookup_insert_ne.
          -- rewrite orb_false_r. destruct f; cbn [negb]; [by exists c|].
             destruct (decide (km a = km b)) as [Heq|Hne].
             ++ exfalso. rewrite <- Heq in Hc. pose proof (Hsafe i a rest c eq_refl Hi Hda Hc). congruence.
             ++ exists c. by rewrite lookup_insert_ne.
  Qed.

  (** Safe stores throughout. *)
  Fixpoint all_safe (ls : list slabel) (s : sst) : Prop :=
    match ls with
    | [] => True
    | l :: ls => safe_store l s /\ match sstep U l s with Some s' => all_safe ls s' | None => True end
    end.

  Lemma srun_inv ls s s' dns : srun U ls s = Some s' -> sinv s dns ->
    exists dns', sinv s' dns' /\ (all_safe ls s -> denies_kept s dns -> denies_kept s' dns').
  Proof.
    revert s dns. induction ls as [|l ls IH]; intros s dns H Hi; cbn [srun all_safe] in *.
    - injection H as <-. exists dns. by split.
    - destruct (sstep U l s) as [s1|] eqn:E; [|done].
      destruct (sstep_inv _ _ _ _ E Hi) as (d1 & H1 & K1). destruct (IH _ _ H H1) as (d2 & H2 & K2).
      exists d2. split; [done|]. intros [Ha Hb] Hk. apply K2; [done|]. by apply K1.
  Qed.

  Lemma simplified_done s dns : sinv s dns -> simplified s -> forall i pol, doc !! i = Some pol -> dns !! i = Some pol.
  Proof.
    intros (Hlw & Hld & Hw & _) Hsi i pol Hp. pose proof (lookup_lt_Some _ _ _ Hp) as Hlt.
    destruct (lookup_lt_is_Some_2 (ss_work s) i ltac:(lia)) as [w Hwi].
    destruct (lookup_lt_is_Some_2 dns i ltac:(lia)) as [dn Hd].
    destruct (Hw i pol w dn Hp Hwi Hd) as [H _]. unfold simplified in Hsi. rewrite Forall_lookup in Hsi.
    rewrite (Hsi _ _ Hwi) in H. by subst.
  Qed.

  Lemma elem_of_doc pol : pol ∈ doc -> exists i, doc !! i = Some pol.
  Proof. apply elem_of_list_lookup_1. Qed.

  Lemma dns_sub s dns i dn a : sinv s dns -> dns !! i = Some dn -> a ∈ dn -> exists pol, doc !! i = Some pol /\ a ∈ pol.
  Proof.
    intros (Hlw & Hld & Hw & _) Hd Ha. pose proof (lookup_lt_Some _ _ _ Hd) as Hlt.
    destruct (lookup_lt_is_Some_2 (ss_work s) i ltac:(lia)) as [w Hwi].
    destruct (lookup_lt_is_Some_2 doc i ltac:(lia)) as [pol Hp]. exists pol. split; [done|].
    destruct (Hw i pol w dn Hp Hwi Hd) as [H _].
    destruct w as [rest|b f rest|[e|]].
    - subst. apply elem_of_app. by left.
    - destruct H as [-> _]. apply elem_of_app. by left.
    - destruct H as [rest ->]. apply elem_of_app. by left.
    - by subst.
  Qed.

  (** Every value of the map is an assertion of the document, and every assertion
      has its key in the map, whatever the schedule. *)
  Lemma script_sound script : script_of U doc script ->
    forall r, r ∈ script -> exists pol, pol ∈ doc /\ r ∈ pol.
  Proof.
    intros (ls & s & Hr & Hs & Hp) r Hin. destruct (srun_inv _ _ _ _ Hr (sinit_inv _)) as (dns & Hi & _).
    rewrite Hp in Hin. apply elem_of_list_fmap in Hin as ([k a] & -> & Hin). apply elem_of_map_to_list in Hin.
    destruct Hi as (H1 & H2 & H3 & H4). pose proof (H4 _ _ Hin) as (_ & i & dn & Hd & Ha).
    destruct (dns_sub s dns i dn a) as (pol & Hpol & Hapol); [by split_and!|done..|].
    exists pol. split; [by eapply elem_of_list_lookup_2|done].
  Qed.
  Lemma script_complete script : script_of U doc script ->
    forall pol r, pol ∈ doc -> r ∈ pol -> exists r', r' ∈ script /\ km r' = km r.
  Proof.
    intros (ls & s & Hr & Hs & Hp) pol r [i Hpol]%elem_of_list_lookup_1 Hin.
    destruct (srun_inv _ _ _ _ Hr (sinit_inv _)) as (dns & Hi & _).
    pose proof (simplified_done _ _ Hi Hs _ _ Hpol) as Hd.
    destruct Hi as (H1 & H2 & H3 & H4). pose proof (lookup_lt_Some _ _ _ Hd) as Hlt.
    destruct (lookup_lt_is_Some_2 (ss_work s) i ltac:(lia)) as [w Hwi].
    destruct (H3 _ _ _ _ Hpol Hwi Hd) as [_ H]. destruct (H r Hin) as (b & Hb & Hk).
    exists b. split; [|done]. rewrite Hp. apply elem_of_list_fmap. exists (km r, b). split; [done|].
    by apply elem_of_map_to_list.
  Qed.
  (** The map has one value per key. *)
  Lemma script_nodup script : script_of U doc script -> NoDup (map km script).
  Proof.
    intros (ls & s & Hr & Hs & Hp). destruct (srun_inv _ _ _ _ Hr (sinit_inv _)) as (dns & Hi & _).
    change (map km script) with (km <$> script). rewrite Hp.
    assert (km <$> (map_to_list (ss_map s)).*2 = (map_to_list (ss_map s)).*1) as ->.
    { rewrite <- list_fmap_compose. apply list_fmap_ext. intros i [k a] Hin. cbn.
      apply elem_of_list_lookup_2, elem_of_map_to_list in Hin. destruct Hi as (_ & _ & _ & H). by apply H in Hin as [? _]. }
    apply NoDup_fst_map_to_list.
  Qed.

  (** A deny survives if no unsafe store happens. *)
  Lemma script_deny ls s script : srun U ls (sinit doc false) = Some s -> simplified s ->
    script ≡ₚ (map_to_list (ss_map s)).*2 -> all_safe ls (sinit doc false) ->
    forall pol r, pol ∈ doc -> r ∈ pol -> raw_denyb U r = true ->
    exists r', r' ∈ script /\ km r' = km r /\ raw_denyb U r' = true.
  Proof.
    intros Hr Hs Hp Hsafe pol r [i Hpol]%elem_of_list_lookup_1 Hin Hdeny.
    destruct (srun_inv _ _ _ _ Hr (sinit_inv _)) as (dns & Hi & Hk).
    pose proof (simplified_done _ _ Hi Hs _ _ Hpol) as Hd.
    destruct (Hk Hsafe (sinit_kept _) i pol r Hd Hin Hdeny) as (b & Hb & Hbd).
    exists b. destruct Hi as (_ & _ & _ & Hm). split; [|by split; [apply Hm in Hb as [? _]|]].
    rewrite Hp. apply elem_of_list_fmap. exists (km r, b). split; [done|]. by apply elem_of_map_to_list.
  Qed.

  (** Condition 1: no conflicting duplicates across policies. *)
  Lemma no_conflict_safe ls s dns : no_commas doc -> no_cross_conflict U doc -> sinv s dns -> all_safe ls s.
  Proof.
    intros Hc Hn. revert s dns. induction ls as [|l ls IH]; intros s dns Hi; [done|]. cbn [all_safe]. split.
    2:{ destruct (sstep U l s) as [s'|] eqn:E; [|done]. destruct (sstep_inv _ _ _ _ E Hi) as (d' & Hi' & _). eauto. }
    intros i a rest b _ Hw Ha Hb.
    destruct Hi as (Hlw & Hld & Hok & Hm). pose proof (lookup_lt_Some _ _ _ Hw) as Hlt.
    destruct (lookup_lt_is_Some_2 doc i ltac:(lia)) as [pol Hp].
    destruct (lookup_lt_is_Some_2 dns i ltac:(lia)) as [dn Hd].
    destruct (Hok i pol _ dn Hp Hw Hd) as [(Hpol & Hff & _) _].
    pose proof (Hm _ _ Hb) as (Hk & j & dj & Hdj & Hbj).
    destruct (raw_denyb U b) eqn:Hdb; [|done]. exfalso.
    destruct (decide (i = j)) as [<-|Hne].
    - rewrite Hd in Hdj. injection Hdj as <-. by apply (Hff eq_refl b Hbj).
    - destruct (dns_sub s dns j dj b) as (polj & Hpj & Hbp); [by split_and!|done..|].
      assert (a ∈ pol) as Hap by (subst pol; apply elem_of_app; right; left).
      assert (same_target b a) as Hst.
      { pose proof (Hc pol a ltac:(by eapply elem_of_list_lookup_2) Hap) as [? ?].
        pose proof (Hc polj b ltac:(by eapply elem_of_list_lookup_2) Hbp) as [? ?]. by apply km_inj. }
      assert (raw_deny U a) as Hx by (eapply (Hn j i); try done; congruence).
      unfold raw_deny in Hx. unfold raw_denyb in Ha. congruence.
  Qed.

  (** Condition 2: no instant with two goroutines inside the same Load/Store pair. *)
  Definition found_exact (s : sst) : Prop :=
    forall i a rest, ss_work s !! i = Some (SStore a false rest) -> ss_map s !! km a = None.

  Lemma race_free_safe ls s : race_free U ls s -> found_exact s -> all_safe ls s.
  Proof.
    revert s. induction ls as [|l ls IH]; intros s Hr Hf; [done|]. cbn [all_safe]. split.
    { intros i a rest b _ Hw _ Hb. apply Hf in Hw. congruence. }
    destruct (sstep U l s) as [s'|] eqn:E; [|done]. apply IH.
    { intros ls1 ls2 s1 i j a f rest b f' rest' Hl Hrun. apply (Hr (l :: ls1) ls2); [by rewrite Hl|].
      cbn [srun]. by rewrite E. }
    intros j a rest Hj. destruct l as [i|].
    2:{ injection E as <-. by apply Hf in Hj. }
    cbn [sstep] in E. destruct (ss_work s !! i) as [w|] eqn:Hi; [|done].
    pose proof (lookup_lt_Some _ _ _ Hi) as Hlt.
    destruct w as [[|c rest']|c f rest'|e]; [|destruct (ss_cancel s)| |done].
    - injection E as <-. cbn [ss_work ss_map] in *.
      destruct (decide (i = j)) as [<-|Hne]; [by rewrite list_lookup_insert in Hj|].
      rewrite list_lookup_insert_ne in Hj by done. by eapply Hf.
    - injection E as <-. cbn [ss_work ss_map] in *.
      destruct (decide (i = j)) as [<-|Hne]; [by rewrite list_lookup_insert in Hj|].
      rewrite list_lookup_insert_ne in Hj by done. by eapply Hf.
    - injection E as <-. cbn [ss_work ss_map] in *.
      destruct (decide (i = j)) as [<-|Hne].
      + rewrite list_lookup_insert in Hj by done. injection Hj as <- Hfo <-. by destruct (ss_map s !! km c).
      + rewrite list_lookup_insert_ne in Hj by done. by eapply Hf.
    - injection E as <-. cbn [ss_work ss_map] in *.
      destruct (decide (i = j)) as [<-|Hne]; [by rewrite list_lookup_insert in Hj|].
      rewrite list_lookup_insert_ne in Hj by done. pose proof (Hf _ _ _ Hj) as Hnone.
      destruct (negb f || raw_denyb U c); [|done].
      destruct (decide (km c = km a)) as [Heq|Hk]; [|by rewrite lookup_insert_ne].
      exfalso. apply Hne. by eapply (Hr [] _ s).
  Qed.
  Lemma sinit_found c : found_exact (sinit doc c).
  Proof.
    intros i a rest H. cbn [sinit ss_work] in H. change (map SLoop doc) with (SLoop <$> doc) in H.
    rewrite list_lookup_fmap in H. by destruct (doc !! i).
  Qed.
End phase1.
