(** * Property C90: what happens when a policy expires *)
From Verif Require Import Hooked SystemFacts SystemExec PolicyCheckers Prop_System Prop_Window GoStringsFacts.
From Verif Require PolicySimplifyProofs Prop_PubKey Prop_Fetcher Prop_Authorizer.
From Verif Require Import GoStrings.

(** ** Specification *)
(** The domain a role name [key] begins with: the text before the first [:role.], or all of it. *)
Definition begins_with (key d : str) : Prop :=
  (exists rest, key = d ++ B ":role." ++ rest /\ forall a b, key = a ++ B ":role." ++ b -> (length d <= length a)%nat) \/
  (key = d /\ forall a b, key <> a ++ B ":role." ++ b).
Lemma hook_domain_spec key d : hook_domain key = d <-> begins_with key d.
Proof.
  unfold hook_domain, split_n2. destruct (cut (B ":role.") key) as [[a b]|] eqn:E.
  - apply cut_some in E as [E1 E2]. split.
    + intros <-. left. by exists b.
    + intros [(rest & H1 & H2)|[_ H]]; [|by destruct (H a b)]. rewrite H1 in E1. apply app_inj_1 in E1 as [-> _]; [done|]. apply Nat.le_antisymm; [by eapply H2; rewrite H1|by eapply E2].
  - split; [intros <-; right; split; [done|by apply cut_none]|]. intros [(rest & H1 & _)|[-> _]]; [|done]. by destruct (proj1 (cut_none _ _) E d rest).
Qed.
Lemma fetcher_of_some doms d i : fetcher_of doms d = Some i -> doms !! i = Some d.
Proof.
  revert i. induction doms as [|x doms IH]; intros i H; [done|]. cbn [fetcher_of] in H. case_bool_decide as E; [injection H as <-; by rewrite E|].
  destruct (fetcher_of doms d) as [j|]; [|done]. injection H as <-. by apply IH.
Qed.
Lemma fetcher_of_none doms d : fetcher_of doms d = None <-> d ∉ doms.
Proof.
  induction doms as [|x doms IH]; cbn [fetcher_of]; [split; [intros _; apply not_elem_of_nil|done]|]. rewrite elem_of_cons. case_bool_decide as E.
  - split; [done|]. intros H. destruct H. left. done.
  - destruct (fetcher_of doms d) as [j|]; cbn; split; try done; [|intros _ [?|?]; [done|by destruct (proj1 IH eq_refl)]]. intros H. exfalso. assert (Some j = None) as Hx by (apply IH; tauto). done.
Qed.

Section claims.
  Context (K : crypto) (X : jwt_ext) {O : Type} (U : unicode) (parse : str -> option (verifier K)).
  Context (cf : @sconf O) (doms : list str) (t0 : time) (n nk nj nu : nat) (calls : nat -> list bool).
  Notation s0 := (yinit K cf t0 n nk nj nu calls).
  Notation hrun := (hrun K X U parse cf doms (hinit K s0)).
  Notation hstep := (hstep K X U parse cf doms).
  Notation yrun := (yrun K X U parse cf s0).
  Notation downloaded := (downloaded K X U parse cf s0).
  Notation took := (took K X U parse cf s0).
  Notation published_by := (published_by K X U parse cf s0).
  Notation untouched := (untouched K X U parse cf s0).
  Notation hlabel := (@hlabel K O).
  Notation ylabel := (@ylabel K O).
  Notation hsys := (hsys K).
  Notation now := (now K).

  (** The entry [k] of cache [o] was found expired: at that time it was there, and not valid any more. *)
  Definition expired_entry (ls : list hlabel) (o : nat) (k : str) : Prop :=
    exists l1 l2 s1 c e, ls = l1 ++ HFind K o k :: l2 /\ hrun l1 s1 /\ y_objs K (h_sys K s1) !! o = Some c /\ c_g c !! k = Some e /\
      0 < ge_exp e < now (h_sys K s1).
  (** [k] is the role of an assertion of a properly signed document that was downloaded. *)
  Definition role_of_policy (ls : list ylabel) (k : str) : Prop :=
    exists d sp exp doc pol r, downloaded ls d sp /\ content sp exp doc /\ pol ∈ doc /\ r ∈ pol /\ r_role r = k.

  (** ** Facts *)
  Lemma hrun_snoc ls l s' : hrun (ls ++ [l]) s' -> exists s, hrun ls s /\ hstep l s s'.
  Proof. intros H. inversion H as [Hx|? ? ? ? ? ? Hx]; [by destruct ls|]. apply app_inj_tail in Hx as [-> ->]. eauto. Qed.
  Lemma hsys_snoc (ls : list hlabel) (l : hlabel) : hsys (ls ++ [l]) = hsys ls ++ match hsys1 K l with Some x => [x] | None => [] end.
  Proof. unfold Hooked.hsys. rewrite omap_app. cbn. by destruct (hsys1 K l). Qed.
  (** The system with the expired hook is an execution of the system of C71 to C88. *)
  Theorem C90_is_the_system ls s : hrun ls s -> yrun (hsys ls) (h_sys K s).
  Proof.
    induction 1 as [|ls l s s' _ IH Hs]; [constructor|]. rewrite hsys_snoc.
    destruct Hs; cbn [hsys1 h_sys]; rewrite ?app_nil_r; try done; (eapply Y_snoc; [exact IH|done]).
  Qed.
  Lemma expired_mono ls x o k : expired_entry ls o k -> expired_entry (ls ++ x) o k.
  Proof. intros (l1 & l2 & s1 & c & e & -> & H). exists l1, (l2 ++ x), s1, c, e. split; [by rewrite <- app_assoc|done]. Qed.
  Lemma reasons ls s : hrun ls s ->
    (forall o x k, h_exp K s !! o = Some x -> k ∈ e_queue x -> expired_entry ls o k) /\
    (forall k, k ∈ h_pend K s -> exists o, expired_entry ls o k) /\
    (forall o w d, (o, w, d) ∈ h_jobs K s -> exists k o', expired_entry ls o' k /\ doms !! d = Some (hook_domain k)) /\
    (h_down K s = true -> exists k o, expired_entry ls o k /\ hook_domain k ∉ doms).
  Proof.
    induction 1 as [|ls l s s' Hr (IH1 & IH2 & IH3 & IH4) Hs].
    { cbn. split_and!; [|intros k Hk; by apply elem_of_nil in Hk|intros o w d Hj; by apply elem_of_nil in Hj|done].
      intros o x k Ho Hk. destruct o; [|done]. injection Ho as <-. by apply elem_of_nil in Hk. }
    assert (forall o x k, h_exp K s !! o = Some x -> k ∈ e_queue x -> expired_entry (ls ++ [l]) o k) as M1 by (intros; eapply expired_mono; eauto).
    assert (forall k, k ∈ h_pend K s -> exists o, expired_entry (ls ++ [l]) o k) as M2 by (intros k Hk; destruct (IH2 k Hk) as [o Ho]; exists o; by apply expired_mono).
    assert (forall o w d, (o, w, d) ∈ h_jobs K s -> exists k o', expired_entry (ls ++ [l]) o' k /\ doms !! d = Some (hook_domain k)) as M3.
    { intros o w d Hj. destruct (IH3 _ _ _ Hj) as (k & o' & H1 & H2). exists k, o'. split; [by apply expired_mono|done]. }
    clear IH1 IH2 IH3 IH4. destruct Hs as [s l y Hd Ho Hy Hl|s m y Hd Hy Hl|s o k c e x y Hd Hc He Hv Hx Hy|s o k q1 q2 Hd Hx|s o q Hd Hx|s k p1 p2 d c y Hd Hp Hf Hc Hy|s k p1 p2 Hd Hp Hf];
      cbn [h_exp h_pend h_jobs h_down h_sys].
    - done.
    - split_and!; try done. intros o x k Ho Hk. apply lookup_app_Some in Ho as [Ho|[_ Ho]]; [eauto|]. apply list_lookup_singleton_Some in Ho as [_ <-]. by apply elem_of_nil in Hk.
    - split_and!; try done. intros o' x' k' Ho Hk. apply list_lookup_insert_Some in Ho as [(<- & <- & _)|[_ Ho]]; [|eauto]. cbn [e_queue] in Hk. apply elem_of_app in Hk as [Hk|Hk]; [eauto|].
      apply elem_of_list_singleton in Hk as ->. exists ls, [], s, c, e. split_and!; try done; unfold g_valid in Hv; apply orb_false_iff in Hv as [H1 H2]; [by apply Z.leb_gt|by apply Z.leb_gt in H2].
    - split_and!; try done.
      + intros o' x' k' Ho Hk. apply list_lookup_insert_Some in Ho as [(<- & <- & _)|[_ Ho]]; [|eauto]. cbn [e_queue] in Hk. eapply M1; [exact Hx|]. cbn. rewrite elem_of_app, elem_of_cons. apply elem_of_app in Hk. tauto.
      + intros k' Hk. apply elem_of_app in Hk as [Hk|Hk]; [eauto|]. apply elem_of_list_singleton in Hk as ->. exists o. eapply M1; [exact Hx|]. cbn. rewrite elem_of_app, elem_of_cons. tauto.
    - split_and!; try done. intros o' x' k' Ho Hk. apply list_lookup_insert_Some in Ho as [(<- & <- & _)|[_ Ho]]; [|eauto]. by eapply M1.
    - split_and!; try done.
      + intros k' Hk. apply M2. rewrite Hp, elem_of_app, elem_of_cons. apply elem_of_app in Hk. tauto.
      + intros o w d' Hj. apply elem_of_cons in Hj as [[= -> -> ->]|Hj]; [|eauto]. destruct (M2 k) as [o' Ho']; [rewrite Hp, elem_of_app, elem_of_cons; tauto|]. exists k, o'. split; [done|]. by apply fetcher_of_some.
    - assert (exists o, expired_entry (ls ++ [HCrash K k]) o k) as [o Ho] by (apply M2; rewrite Hp, elem_of_app, elem_of_cons; tauto). split_and!; try done.
      + intros k' Hk. apply M2. rewrite Hp, elem_of_app, elem_of_cons. apply elem_of_app in Hk. tauto.
      + intros _. exists k, o. split; [done|by apply fetcher_of_none].
  Qed.
  Lemma expired_role ls s o k : hrun ls s -> expired_entry ls o k -> role_of_policy (hsys ls) k.
  Proof.
    intros Hr (l1 & l2 & s1 & c & e & -> & Hr1 & Hc & He & _). pose proof (C90_is_the_system _ _ Hr1) as Hy.
    destruct (caches_ok K X U parse cf t0 n nk nj nu calls _ _ Hy) as [_ Hok]. destruct (Hok _ _ Hc) as [[_ Hg] _]. destruct (Hg _ _ He) as [_ [Hx|(i & j & r & t & Hs & Hin & Hk & _)]]; [by rewrite lookup_empty in Hx|].
    destruct Hs as (d & sp & doc & Hd & Hcon & ls' & ss & Hrun & Hsim & Hperm).
    assert (exists pol, pol ∈ doc /\ r ∈ pol) as (pol & Hpol & Hrp) by (eapply (PolicySimplifyProofs.script_sound U doc (j_script j)); [by exists ls', ss|exact Hin]).
    unfold Hooked.hsys. rewrite omap_app. exists d, sp, (j_exp j), doc, pol, r. split; [|done]. by apply downloaded_mono.
  Qed.

  (** ** Theorems *)
  (** A hook works for the fetcher of the domain that the role of an expired entry begins with. *)
  Theorem C90_hook_has_a_reason ls s : hrun ls s -> YHook K ∈ hsys ls -> exists o k, expired_entry ls o k /\ role_of_policy (hsys ls) k.
  Proof.
    intros Hr Hin. assert (exists o k, expired_entry ls o k) as (o & k & He); [|exists o, k; split; [done|by eapply expired_role]].
    induction Hr as [|ls l s s' Hr IH Hs]; [by apply elem_of_nil in Hin|]. rewrite hsys_snoc in Hin. apply elem_of_app in Hin as [Hin|Hin].
    - destruct (IH Hin) as (o & k & He). exists o, k. by apply expired_mono.
    - destruct Hs; cbn [hsys1] in Hin; try (by apply elem_of_nil in Hin); apply elem_of_list_singleton in Hin; try done; [by subst l|].
      destruct (reasons _ _ Hr) as (_ & R2 & _). destruct (R2 k) as [o Ho]; [rewrite H0, elem_of_app, elem_of_cons; tauto|]. exists o, k. by apply expired_mono.
  Qed.
  Theorem C90_own_fetcher ls s o w d c script : hrun ls s -> YObjTake K o w d c script ∈ hsys ls ->
    exists o' k dom, expired_entry ls o' k /\ role_of_policy (hsys ls) k /\ begins_with k dom /\ doms !! d = Some dom.
  Proof.
    intros Hr Hin. assert (exists o' k, expired_entry ls o' k /\ doms !! d = Some (hook_domain k)) as (o' & k & He & Hd).
    { induction Hr as [|ls l s s' Hr IH Hs]; [by apply elem_of_nil in Hin|]. rewrite hsys_snoc in Hin. apply elem_of_app in Hin as [Hin|Hin].
      - destruct (IH Hin) as (o' & k & He & Hd). exists o', k. split; [by apply expired_mono|done].
      - destruct Hs; cbn [hsys1] in Hin; try (by apply elem_of_nil in Hin); apply elem_of_list_singleton in Hin; try done. subst l.
        cbn [ordinary] in H0. destruct (reasons _ _ Hr) as (_ & _ & R3 & _). destruct (R3 _ _ _ H0) as (k & o' & He & Hd). exists o', k. split; [by apply expired_mono|done]. }
    exists o', k, (hook_domain k). split_and!; [done|by eapply expired_role|by apply hook_domain_spec|done].
  Qed.
  (** The process crashes only if a role in a policy begins with a domain that is not configured, and its entry has
      expired. *)
  Theorem C90_crash_reason ls s : hrun ls s -> h_down K s = true ->
    exists o k dom, expired_entry ls o k /\ role_of_policy (hsys ls) k /\ begins_with k dom /\ dom ∉ doms.
  Proof.
    intros Hr Hd. destruct (reasons _ _ Hr) as (_ & _ & _ & R4). destruct (R4 Hd) as (k & o & He & Hn). exists o, k, (hook_domain k).
    split_and!; [done|by eapply expired_role|by apply hook_domain_spec|done].
  Qed.
  (** So it does not if all roles begin with configured domains.  Missing: other documents, which pass all checks
      (C19) and crash the process (below). *)
  Theorem C90_no_crash_partial ls s : hrun ls s ->
    (forall k dom, role_of_policy (hsys ls) k -> begins_with k dom -> dom ∈ doms) -> h_down K s = false.
  Proof.
    intros Hr H. destruct (h_down K s) eqn:E; [|done]. destruct (C90_crash_reason _ _ Hr E) as (o & k & dom & _ & Hp & Hb & Hn). by destruct Hn; eapply H.
  Qed.
  (** Whenever an entry is found expired whose role begins with an unconfigured domain, and the goroutine of its
      cache runs, the process can crash in two steps, whatever else is going on. *)
  Theorem C90_crash_follows s o k q1 q2 : h_down K s = false -> h_exp K s !! o = Some (Expirer EOn (q1 ++ k :: q2)) -> hook_domain k ∉ doms ->
    exists s1 s2, hstep (HTake K o k) s s1 /\ hstep (HCrash K k) s1 s2 /\ h_down K s2 = true.
  Proof.
    intros Hd Hx Hn. eexists _, _. split; [by eapply H_take|]. split; [eapply (H_crash _ _ _ _ _ _ _ k (h_pend K s) []); [done|done|by apply fetcher_of_none]|done].
  Qed.
  Fixpoint waiting (l : list expirer) : nat := match l with [] => 0 | x :: l => length (e_queue x) + waiting l end.
  (** Each entry found expired starts at most one hook. *)
  Definition is_find (l : hlabel) : bool := match l with HFind _ _ _ => true | _ => false end.
  Definition is_hook (l : hlabel) : bool := match l with HRun _ _ | HCrash _ _ => true | _ => false end.
  Theorem C90_one_hook_each ls s : hrun ls s -> (length (List.filter is_hook ls) <= length (List.filter is_find ls))%nat.
  Proof.
    intros Hr. enough (length (List.filter is_hook ls) + length (h_pend K s) + waiting (h_exp K s) = length (List.filter is_find ls))%nat by lia.
    assert (forall (l : list expirer) o x x', l !! o = Some x -> waiting (<[o := x']> l) + length (e_queue x) = waiting l + length (e_queue x'))%nat as Hsum.
    { clear. induction l as [|y l IH]; intros o x x' H; [done|]. destruct o; [injection H as ->; change (<[0%nat := x']> (x :: l)) with (x' :: l); cbn [waiting]; lia|]. specialize (IH o x x' H). change (<[S o := x']> (y :: l)) with (y :: <[o := x']> l). cbn [waiting]. lia. }
    assert (forall a b, waiting (a ++ b) = waiting a + waiting b)%nat as Happ by (clear; induction a as [|y a IH]; intros b; cbn [waiting app]; [done|rewrite IH; lia]).
    induction Hr as [|ls l s s' Hr IH Hs]; [done|]. rewrite !List.filter_app, !app_length.
    destruct Hs as [s l y Hd Ho Hy Hl|s m y Hd Hy Hl|s o k c e x y Hd Hc He Hv Hx Hy|s o k q1 q2 Hd Hx|s o q Hd Hx|s k p1 p2 d c y Hd Hp Hf Hc Hy|s k p1 p2 Hd Hp Hf];
      cbn [h_exp h_pend List.filter is_hook is_find length] in *.
    - lia.
    - rewrite Happ. cbn [waiting e_queue length]. lia.
    - pose proof (Hsum _ _ _ (Expirer (e_phase x) (e_queue x ++ [k])) Hx) as H. cbn [e_queue] in H. rewrite app_length in H. cbn in H. lia.
    - pose proof (Hsum _ _ _ (Expirer EOn (q1 ++ q2)) Hx) as H. cbn [e_queue] in H. rewrite !app_length in *. cbn in *. lia.
    - pose proof (Hsum _ _ _ (Expirer EEnd q) Hx) as H. cbn [e_queue] in H. lia.
    - rewrite Hp in IH. rewrite !app_length in *. cbn in *. lia.
    - rewrite Hp in IH. rewrite !app_length in *. cbn in *. lia.
  Qed.

  (** After a crash nothing happens any more: no request is answered, nothing is updated. *)
  Theorem C90_crash_is_final ls s l s' : hrun ls s -> h_down K s = true -> ~ hstep l s s'.
  Proof. intros _ Hd Hs. destruct Hs; congruence. Qed.
  Lemma ystep_work l s s' o c' : ystep K X U parse cf l s s' -> l <> YHook K -> y_objs K s' !! o = Some c' ->
    (exists c, y_objs K s !! o = Some c /\ length (c_work c) = length (c_work c')) \/
    (o = length (y_objs K s) /\ c_work c' = [] /\ length (y_objs K s') <> length (y_objs K s)).
  Proof.
    intros Hs Hl Ho.
    assert (forall l0 o0 c c1, y_objs K s !! o0 = Some c -> cstep U l0 c = Some c1 -> <[o0 := c1]> (y_objs K s) !! o = Some c' ->
      exists c, y_objs K s !! o = Some c /\ length (c_work c) = length (c_work c')) as Hset.
    { clear. intros l0 o0 c c1 H1 H2 H3. apply list_lookup_insert_Some in H3 as [(-> & <- & _)|[_ H3]]; [|by exists c'].
      exists c. split; [done|]. destruct l0; cbn [cstep] in H2; repeat case_match; try done; injection H2 as <-; cbn [c_work]; by rewrite ?insert_length. }
    destruct Hs; cbn [set_auth set_keys set_jwk set_fetch set_upd set_obj publish set_chk y_objs] in Ho |- *; try (left; by exists c'); try done.
    - apply lookup_app_Some in Ho as [Ho|[Hge Ho]]; [left; by exists c'|right]. apply list_lookup_singleton_Some in Ho as [Hz <-]. rewrite app_length. cbn. split; [lia|]. split; [done|lia].
    - left. by eapply Hset.
    - left. by eapply Hset.
  Qed.
  (** Every cache has its own expiration goroutine, and every goroutine filling a cache in place is the hook of exactly one
      domain. *)
  Theorem C90_one_goroutine_each ls s : hrun ls s -> length (h_exp K s) = length (y_objs K (h_sys K s)) /\
    forall o c w, y_objs K (h_sys K s) !! o = Some c -> ((w < length (c_work c))%nat <-> exists d, (o, w, d) ∈ h_jobs K s) /\
      forall d d', (o, w, d) ∈ h_jobs K s -> (o, w, d') ∈ h_jobs K s -> d = d'.
  Proof.
    intros Hr. enough (length (h_exp K s) = length (y_objs K (h_sys K s)) /\
      (forall o w d, (o, w, d) ∈ h_jobs K s -> exists c, y_objs K (h_sys K s) !! o = Some c /\ (w < length (c_work c))%nat) /\
      forall o c w, y_objs K (h_sys K s) !! o = Some c -> ((w < length (c_work c))%nat -> exists d, (o, w, d) ∈ h_jobs K s) /\
      forall d d', (o, w, d) ∈ h_jobs K s -> (o, w, d') ∈ h_jobs K s -> d = d') as (H1 & H2 & H3).
    { split; [done|]. intros o c w Ho. destruct (H3 _ _ w Ho) as [H4 H5]. split; [|done]. split; [done|].
      intros [d Hd]. destruct (H2 _ _ _ Hd) as (c' & Hc' & ?). by assert (c = c') as -> by congruence. }
    induction Hr as [|ls l s s' Hr IH Hs].
    - cbn. split; [done|]. split; [by intros o w d ?%elem_of_nil|]. intros o c w Ho. apply list_lookup_singleton_Some in Ho as [-> <-]. cbn. split; [lia|]. by intros d d' ?%elem_of_nil.
    - destruct IH as (H1 & H2 & H3).
      assert (forall l y, ystep K X U parse cf l (h_sys K s) y -> l <> YHook K -> 
        (forall o w d, (o, w, d) ∈ h_jobs K s -> exists c, y_objs K y !! o = Some c /\ (w < length (c_work c))%nat) /\
        forall o c w, y_objs K y !! o = Some c -> ((w < length (c_work c))%nat -> exists d, (o, w, d) ∈ h_jobs K s) /\
        forall d d', (o, w, d) ∈ h_jobs K s -> (o, w, d') ∈ h_jobs K s -> d = d') as Hstep.
      { clear Hs Hr. intros l0 y Hy Hl. assert (length (y_objs K (h_sys K s)) <= length (y_objs K y))%nat as Hgrow by (by eapply (objs_grow K X U parse cf t0 n)). split.
        - intros o w d Hd. destruct (H2 _ _ _ Hd) as (c & Hc & Hw). apply lookup_lt_Some in Hc as Hlt.
          destruct (lookup_lt_is_Some_2 (y_objs K y) o ltac:(lia)) as [c' Hc']. exists c'. split; [done|].
          destruct (ystep_work _ _ _ _ _ Hy Hl Hc') as [(c1 & Hc1 & He)|(-> & _)]; [|lia]. assert (c1 = c) as -> by congruence. lia.
        - intros o c w Ho. destruct (ystep_work _ _ _ _ _ Hy Hl Ho) as [(c1 & Hc1 & He)|(-> & He & _)].
          + destruct (H3 _ _ w Hc1) as [H4 H5]. split; [rewrite <- He; done|done].
          + rewrite He. cbn. split; [lia|]. intros d d' Hd. destruct (H2 _ _ _ Hd) as (c1 & Hc1 & _). apply lookup_lt_Some in Hc1. lia. }
      destruct Hs as [s l y Hd Ho Hy Hl|s m y Hd Hy Hl|s o k c e x y Hd Hc He Hv Hx Hy|s o k q1 q2 Hd Hx|s o q Hd Hx|s k p1 p2 d c y Hd Hp Hf Hc Hy|s k p1 p2 Hd Hp Hf];
        cbn [h_exp h_jobs h_sys]; rewrite ?insert_length.
      + split; [congruence|]. apply (Hstep _ _ Hy). by intros ->.
      + split; [|by apply (Hstep _ _ Hy)]. rewrite app_length. cbn [length]. inversion Hy; subst; cbn [set_upd publish y_objs] in *; [done|]. rewrite app_length. cbn. lia.
      + split; [|by apply (Hstep _ _ Hy)]. inversion Hy; subst. cbn [set_obj y_objs]. by rewrite insert_length.
      + by split.
      + by split.
      + inversion Hy; subst. assert (c0 = c) as -> by congruence. cbn [set_obj y_objs]. rewrite insert_length. split; [done|]. split.
        * intros o w d0 Hin. apply elem_of_cons in Hin as [[= -> -> ->]|Hin].
          -- eexists. rewrite list_lookup_insert by (by eapply lookup_lt_Some). split; [done|]. cbn. rewrite app_length. cbn. lia.
          -- destruct (H2 _ _ _ Hin) as (c1 & Hc1 & Hw). destruct (decide (o = y_cur K (h_sys K s))) as [->|Hne].
             ++ assert (c1 = c) as -> by congruence. eexists. rewrite list_lookup_insert by (by eapply lookup_lt_Some). split; [done|]. cbn. rewrite app_length. lia.
             ++ exists c1. by rewrite list_lookup_insert_ne.
        * intros o c1 w Ho. apply list_lookup_insert_Some in Ho as [(<- & <- & _)|[Hne Ho]].
          -- cbn [c_work]. rewrite app_length. cbn [length]. destruct (H3 _ _ w Hc) as [H4 H5]. split.
             ++ intros Hw. destruct (decide (w < length (c_work c))%nat) as [Hlt|Hge]; [destruct (H4 Hlt) as [d0 ?]; exists d0; by right|].
                exists d. assert (w = length (c_work c)) as -> by lia. left.
             ++ intros d1 d2 Hi1 Hi2. apply elem_of_cons in Hi1 as [Hi1|Hi1], Hi2 as [Hi2|Hi2]; [congruence| | |by apply H5].
                ** exfalso. injection Hi1 as -> ->. destruct (H2 _ _ _ Hi2) as (c2 & Hc2 & ?). assert (c2 = c) as -> by congruence. lia.
                ** exfalso. injection Hi2 as -> ->. destruct (H2 _ _ _ Hi1) as (c2 & Hc2 & ?). assert (c2 = c) as -> by congruence. lia.
          -- destruct (H3 _ _ w Ho) as [H4 H5]. split; [intros Hw; destruct (H4 Hw) as [d0 ?]; exists d0; by right|].
             intros d1 d2 Hi1 Hi2. apply elem_of_cons in Hi1 as [Hi1|Hi1], Hi2 as [Hi2|Hi2]; [congruence| | |by apply H5]; congruence.
      + by split.
  Qed.

  (** ** As long as no policy in use expires *)
  (** A published cache holds no more than the Update stored. *)
  Definition within (s : sys K) (m : nat) (c : cst) : Prop :=
    exists u, y_upd K s !! m = Some u /\ u_ret u = Some (Ok tt) /\ c_g c ⊆ u_cur u.
  Lemma objects_within ls s o : yrun ls s -> untouched ls o -> forall c m, y_objs K s !! o = Some c -> published_by ls m o -> within s m c.
  Proof.
    intros H. induction H as [|ls l s s' H IH Hs]; intros Hh.
    - intros c m Ho (l1 & s1 & s2 & [[l2 Hl] _] & _). by destruct l1.
    - pose proof (untouched_prefix K X U parse cf t0 n nk nj nu calls _ _ _ Hh) as Hh1. specialize (IH Hh1).
      destruct (objects_ok K X U parse cf t0 n nk nj nu calls _ _ _ H Hh1) as [IHw _].
      assert (forall c m, y_objs K s !! o = Some c -> published_by (ls ++ [l]) m o -> within s m c) as Hold.
      { intros c m Ho Hp. destruct (published_snoc K X U parse cf t0 n nk nj nu calls _ _ _ _ _ _ H Hs Hp) as [Hp'|(_ & Hn & _)]; [by eapply IH|congruence]. }
      assert (forall m c k u u' l0, y_upd K s !! k = Some u -> ustep U l0 u = Some u' -> within s m c -> within (set_upd K k u' s) m c) as Hupd.
      { intros m c k u u' l0 Hk Hst (u0 & H1 & H2 & H3). destruct (decide (k = m)) as [->|Hne].
        - assert (u0 = u) as -> by congruence. destruct (ustep_returned U _ _ _ Hst H2) as [Hr Hc]. exists u'. cbn.
          rewrite list_lookup_insert by (by eapply lookup_lt_Some). split_and!; try done. by rewrite Hc.
        - exists u0. cbn. rewrite list_lookup_insert_ne by done. done. }
      destruct Hs; cbn [set_auth set_keys set_jwk set_fetch set_chk y_objs] in *;
        try (intros c0 m' Ho Hp; exact (Hold _ _ Ho Hp)).
      + intros c m Ho Hp. eapply Hupd; [eassumption|eassumption|]. by eapply Hold.
      + intros c0 m Ho Hp. eapply Hupd; [eassumption|eassumption|]. by eapply Hold.
      + intros c m Ho Hp. cbn [publish y_objs set_upd] in Ho. apply lookup_app_Some in Ho as [Ho|[Hge Ho]].
        * pose proof (Hold _ _ Ho Hp) as Hpl. eapply Hupd in Hpl; [|exact H0|exact H1]. exact Hpl.
        * apply list_lookup_singleton_Some in Ho as [Hz <-].
          destruct (published_snoc K X U parse cf t0 n nk nj nu calls _ _ _ _ _ _ H (S_publish _ _ _ _ _ _ _ _ _ H0 H1 H2) Hp) as [Hp'|(Heq & _)].
          { apply (published_exists K X U parse cf t0 n nk nj nu calls _ _ _ _ H) in Hp'. lia. }
          injection Heq as ->. exists u'. cbn [publish set_upd y_upd]. rewrite list_lookup_insert by (by eapply lookup_lt_Some). done.
      + intros c0 m Ho Hp. cbn [set_obj y_objs] in Ho. rewrite list_lookup_insert_ne in Ho by (by eapply (untouched_last K X U parse cf t0 n nk nj nu calls)). exact (Hold _ _ Ho Hp).
      + intros c0 m Ho Hp. apply list_lookup_insert_Some in Ho as [(-> & <- & _)|[_ Ho]]; [|by eapply Hold].
        destruct l as [i inp|k]; cbn [cstep] in H1; [by rewrite (IHw _ H0) in H1|]. injection H1 as <-.
        destruct (Hold _ _ H0 Hp) as (u & Hu1 & Hu2 & Hu3). exists u. split_and!; try done. cbn. transitivity (c_g c); [apply delete_subseteq|done].
      + intros c0 m Ho Hp. apply list_lookup_insert_Some in Ho as [(-> & <- & _)|[_ Ho]]; [|by eapply Hold].
        cbn [cstep] in H3. by rewrite (IHw _ H0) in H3.
  Qed.
  (** No document an Update took has expired by [t] (or it had expired already when taken, and is cached for ever, C16). *)
  Definition unexpired (ls : list ylabel) (t : time) : Prop :=
    forall m w exp doc u, took ls m w exp doc u -> exp <= u \/ t <= exp /\ 2 * exp <= max_int64.
  (** An entry of a published cache comes from a document its Update took, and is valid as long as that is. *)
  Lemma entry_origin ls s o c k e : yrun ls s -> 0 < t0 -> untouched ls o -> y_objs K s !! o = Some c -> c_g c !! k = Some e ->
    exists m w exp doc u, published_by ls m o /\ took ls m w exp doc u /\
      (exp <= u \/ now s <= exp /\ 2 * exp <= max_int64 -> g_valid (now s) e = true).
  Proof.
    intros Hr Ht Hh Ho Hk. destruct (object_origin K X U parse cf t0 n nk nj nu calls _ _ _ _ Hr Hh Ho) as [[_ Hem]|[m Hm]]; [by rewrite Hem, lookup_empty in Hk|].
    destruct (objects_within _ _ _ Hr Hh _ _ Ho Hm) as (u & Hu1 & Hu2 & Hu3). pose proof (lookup_weaken _ _ _ _ Hk Hu3) as Hk'.
    destruct (updates_ok K X U parse cf t0 n nk nj nu calls _ _ Hr _ _ Hu1) as (uls & H1 & H2 & _ & H4 & _).
    pose proof (urun_inv _ (length (s_f cf)) ∅ _ _ _ H1 (uinit_inv _ _ _)) as (_ & _ & _ & _ & _ & H6). destruct (H6 Hu2) as [Hcur _]. rewrite Hcur in Hk'.
    pose proof (update_binv _ _ _ _ _ _ H1) as [_ Hg]. destruct (Hg _ _ Hk') as [_ [H0|(i & j & r & t & HF & _ & _ & HT & He)]]; [by rewrite lookup_empty in H0|].
    destruct (H2 _ _ HF) as (doc & Htk & _). destruct (H4 _ _ HT) as [Hle Hj]. specialize (Hj _ HF).
    destruct (took_clock K X U parse cf t0 n nk nj nu calls _ _ _ _ _ _ _ Hr Htk) as [Hlo Hhi].
    exists m, i, (j_exp j), doc, (j_now j). split; [done|]. split; [done|]. intros Hx.
    unfold g_valid. rewrite He. unfold PolicyCacheProofs.stored_exp. destruct Hx as [Hx|[Hx1 Hx2]].
    - assert (time_sub (j_exp j) (j_now j) <= 0) as Hd by (unfold time_sub, sat64; unfold max_int64, min_int64, two63 in *; lia).
      destruct (Z.ltb_spec 0 (time_sub (j_exp j) (j_now j))); [lia|]. by apply orb_true_iff; left; apply Z.leb_le.
    - destruct (Z.ltb_spec 0 (time_sub (j_exp j) (j_now j))) as [Hp|Hp]; [|by apply orb_true_iff; left; apply Z.leb_le].
      unfold time_sub, sat64 in *. rewrite wrap64_id by (unfold max_int64, min_int64, two63 in *; lia). apply orb_true_iff; right. apply Z.leb_le. unfold max_int64, min_int64, two63 in *. lia.
  Qed.
  Lemma entries_valid ls s o c k e : yrun ls s -> 0 < t0 -> YHook K ∉ ls -> unexpired ls (now s) -> y_objs K s !! o = Some c -> c_g c !! k = Some e ->
    g_valid (now s) e = true.
  Proof.
    intros Hr Ht Hh Hu Ho Hk. destruct (entry_origin _ _ _ _ _ _ Hr Ht (SystemFacts.unhooked K X U parse cf t0 n nk nj nu calls _ _ Hh) Ho Hk) as (m & w & exp & doc & u & _ & Htk & Hv). apply Hv. by eapply Hu.
  Qed.
  Lemma unexpired_before ls l1 l2 s s1 : yrun ls s -> ls = l1 ++ l2 -> yrun l1 s1 -> unexpired ls (now s) -> unexpired l1 (now s1).
  Proof.
    intros Hr -> Hr1 Hu m w exp doc u Htk. pose proof (yrun_clock K X U parse cf s0 _ _ _ _ Hr1 Hr). destruct (Hu m w exp doc u) as [?|[? ?]]; [by apply took_mono|by left|right; lia].
  Qed.
  (** Then nothing is found expired, and no hook runs. *)
  Theorem C90_no_hook_before_expiry ls s : hrun ls s -> 0 < t0 -> unexpired (hsys ls) (now (h_sys K s)) ->
    (forall o k, HFind K o k ∉ ls) /\ YHook K ∉ hsys ls /\ h_down K s = false.
  Proof.
    intros Hr Ht Hu.
    assert (forall ls s, hrun ls s -> (forall o k, HFind K o k ∉ ls) -> YHook K ∉ hsys ls /\ h_down K s = false) as Hno.
    { intros ls' s' Hr' Hn. split.
      - intros Hin. destruct (C90_hook_has_a_reason _ _ Hr' Hin) as (o & k & (l1 & l2 & s1 & c & e & -> & _) & _). apply (Hn o k). rewrite elem_of_app, elem_of_cons. tauto.
      - destruct (h_down K s') eqn:E; [|done]. destruct (C90_crash_reason _ _ Hr' E) as (o & k & dom & (l1 & l2 & s1 & c & e & -> & _) & _). exfalso. apply (Hn o k). rewrite elem_of_app, elem_of_cons. tauto. }
    enough (forall o k, HFind K o k ∉ ls) as Hn by (split; [done|by apply Hno]).
    induction Hr as [|ls l s s' Hr IH Hs]; [intros o k; apply not_elem_of_nil|].
    pose proof (C90_is_the_system _ _ Hr) as Hy. pose proof (C90_is_the_system _ _ (HR_snoc _ _ _ _ _ _ _ _ _ _ _ Hr Hs)) as Hy'.
    assert (unexpired (hsys ls) (now (h_sys K s))) as Hu' by (eapply unexpired_before; [exact Hy'|apply hsys_snoc|exact Hy|exact Hu]).
    specialize (IH Hu'). intros o k Hin. apply elem_of_app in Hin as [Hin|Hin]; [by eapply IH|]. apply elem_of_list_singleton in Hin as <-.
    inversion Hs; subst. destruct (Hno _ _ Hr IH) as [Hh _].
    match goal with Hv : g_valid _ _ = false |- _ => rewrite (entries_valid _ _ _ _ _ _ Hy Ht Hh Hu' ltac:(eassumption) ltac:(eassumption)) in Hv; done end.
  Qed.
  (** The usual case: each cache is replaced before its policies expire, that is, its goroutine has ended by then (or
      they have not expired yet). *)
  Definition ended_by (ls : list hlabel) (o : nat) (t : time) : Prop :=
    exists l1 l2 s1, ls = l1 ++ HEnd K o :: l2 /\ hrun l1 s1 /\ now (h_sys K s1) <= t.
  Definition replaced (ls : list hlabel) (t : time) : Prop :=
    forall m o w exp doc u, published_by (hsys ls) m o -> took (hsys ls) m w exp doc u ->
      exp <= u \/ 2 * exp <= max_int64 /\ (t <= exp \/ ended_by ls o exp).
  Lemma phase_ended ls s o x : hrun ls s -> h_exp K s !! o = Some x -> HEnd K o ∈ ls -> e_phase x = EEnd.
  Proof.
    intros Hr. revert x. induction Hr as [|ls l s s' Hr IH Hs]; intros x Hx Hin; [by apply elem_of_nil in Hin|].
    assert (forall o', HEnd K o' ∈ ls -> (o' < length (h_exp K s))%nat) as Hlt.
    { clear -Hr. induction Hr as [|ls l s s' Hr IH Hs]; intros o' Hin; [by apply elem_of_nil in Hin|]. apply elem_of_app in Hin as [Hin|Hin].
      - specialize (IH _ Hin). destruct Hs; cbn [h_exp]; rewrite ?app_length, ?insert_length; lia.
      - apply elem_of_list_singleton in Hin as <-. inversion Hs; subst. cbn [h_exp]. rewrite insert_length. by eapply lookup_lt_Some. }
    apply elem_of_app in Hin as [Hin|Hin].
    - pose proof (Hlt _ Hin) as Hl. destruct Hs; cbn [h_exp] in Hx; try (by eapply IH).
      + rewrite lookup_app_l in Hx by done. by eapply IH.
      + apply list_lookup_insert_Some in Hx as [(<- & <- & _)|[_ Hx]]; [|by eapply IH]. cbn [e_phase]. by eapply IH.
      + apply list_lookup_insert_Some in Hx as [(<- & <- & _)|[_ Hx]]; [|by eapply IH]. cbn [e_phase]. exact (IH _ H0 Hin).
      + apply list_lookup_insert_Some in Hx as [(<- & <- & _)|[_ Hx]]; [|by eapply IH]. done.
    - apply elem_of_list_singleton in Hin as <-. inversion Hs; subst. cbn [h_exp] in Hx. apply list_lookup_insert_Some in Hx as [(_ & <- & _)|[Hne _]]; done.
  Qed.
  Lemma untaken ls s : hrun ls s -> (forall o k, HTake K o k ∉ ls) -> h_pend K s = [] /\ YHook K ∉ hsys ls /\ h_down K s = false.
  Proof.
    intros Hr. induction Hr as [|ls l s s' Hr IH Hs]; intros Hn; [split_and!; [done|apply not_elem_of_nil|done]|].
    destruct IH as (I1 & I2 & I3); [intros o k Hin; apply (Hn o k); rewrite elem_of_app; tauto|].
    assert (forall o k, l <> HTake K o k) as Hl by (intros o k ->; apply (Hn o k); rewrite elem_of_app, elem_of_list_singleton; tauto).
    rewrite hsys_snoc, elem_of_app. destruct Hs; cbn [hsys1 h_pend h_down]; rewrite ?elem_of_list_singleton, ?elem_of_nil; try (split_and!; try done; intros [?|?]; done).
    - split_and!; try done. intros [?|<-]; done.
    - by destruct (Hl o k).
    - rewrite I1 in H0. by destruct p1.
    - rewrite I1 in H0. by destruct p1.
  Qed.
  (** Then no hook runs. *)
  Theorem C90_no_hook_if_replaced ls s : hrun ls s -> 0 < t0 -> replaced ls (now (h_sys K s)) ->
    (forall o k, HTake K o k ∉ ls) /\ YHook K ∉ hsys ls /\ h_down K s = false.
  Proof.
    intros Hr Ht Hu. enough (forall o k, HTake K o k ∉ ls) as Hn by (split; [done|by apply (untaken _ _ Hr Hn)]).
    induction Hr as [|ls l s s' Hr IH Hs]; [intros o k; apply not_elem_of_nil|].
    pose proof (HR_snoc _ _ _ _ _ _ _ _ _ _ _ Hr Hs) as Hr'. pose proof (C90_is_the_system _ _ Hr) as Hy. pose proof (C90_is_the_system _ _ Hr') as Hy'.
    assert (now (h_sys K s) <= now (h_sys K s')) as Hclk.
    { rewrite hsys_snoc in Hy'. by apply (yrun_clock K X U parse cf s0 _ _ _ _ Hy Hy'). }
    assert (replaced ls (now (h_sys K s))) as Hu'.
    { intros m o w exp doc u Hp Htk. destruct (Hu m o w exp doc u) as [?|[Hx He]]; [rewrite hsys_snoc; by apply published_mono|rewrite hsys_snoc; by apply took_mono|by left|].
      right. split; [done|]. destruct He as [He|(l1 & l2 & s1 & Hl & Hr1 & He)]; [left; lia|]. destruct l2 as [|y l2 _] using rev_ind.
      - left. apply app_inj_tail in Hl as [-> ->]. pose proof (C90_is_the_system _ _ Hr1) as Hy1. rewrite <- (app_nil_r (hsys l1)) in Hy1.
        pose proof (yrun_clock K X U parse cf s0 _ _ _ _ Hy Hy1). lia.
      - right. rewrite app_comm_cons, app_assoc in Hl. apply app_inj_tail in Hl as [-> _]. by exists l1, l2, s1. }
    specialize (IH Hu'). intros o k Hin. apply elem_of_app in Hin as [Hin|Hin]; [by eapply IH|]. apply elem_of_list_singleton in Hin as <-.
    inversion Hs as [| | |s1 o1 k1 q1 q2 Hd Hx| | |]; subst. destruct (untaken _ _ Hr IH) as (_ & Hh & _).
    destruct (reasons _ _ Hr) as (R1 & _). destruct (R1 _ _ k Hx) as (l1 & l2 & s1 & c & e & -> & Hr1 & Hc & He & Hexp); [cbn [e_queue]; rewrite elem_of_app, elem_of_cons; tauto|].
    pose proof (C90_is_the_system _ _ Hr1) as Hy1. assert (YHook K ∉ hsys l1) as Hh1 by (unfold Hooked.hsys in Hh |- *; rewrite omap_app, elem_of_app in Hh; tauto).
    assert (now (h_sys K s1) <= now (h_sys K s)) as Hc1.
    { unfold Hooked.hsys in Hy. rewrite omap_app in Hy. by apply (yrun_clock K X U parse cf s0 _ _ _ _ Hy1 Hy). }
    destruct (entry_origin _ _ _ _ _ _ Hy1 Ht (SystemFacts.unhooked K X U parse cf t0 n nk nj nu calls _ _ Hh1) Hc He) as (m & w & exp & doc & u & Hpub & Htk & Hv).
    assert (exp <= u \/ now (h_sys K s1) <= exp /\ 2 * exp <= max_int64) as Hx1.
    { destruct (Hu' m o w exp doc u) as [?|[Hm [Hle|(la & lb & sa & Hl & _)]]]; [unfold Hooked.hsys; rewrite omap_app; by apply published_mono|unfold Hooked.hsys; rewrite omap_app; by apply took_mono|by left|right; lia|].
      exfalso. rewrite Hl in Hr. pose proof (phase_ended _ _ _ _ Hr Hx) as Hp. cbn [e_phase] in Hp. rewrite elem_of_app, elem_of_cons in Hp. specialize (Hp ltac:(tauto)). done. }
    specialize (Hv Hx1). unfold g_valid in Hv. apply orb_true_iff in Hv as [Hv|Hv]; apply Z.leb_le in Hv; lia.
  Qed.
  (** And behind every accepted call stands a check against the policies of one Update, one properly signed document for
      each domain; if they are tame at that moment, none denies the request to any role of the token. *)
  Theorem C90_accepted_by_one_update ls s i q p : hrun ls s -> 0 < t0 -> z_policy (s_z cf) = true -> replaced ls (now (h_sys K s)) ->
    z_tasks (y_auth K (h_sys K s)) !! i = Some (CDone q (Ok p)) ->
    exists q' p0 o a r l2 s2 m ob, cache_key (s_z cf) q' = cache_key (s_z cf) q /\ target (s_z cf) o p0 q' = Ok (a, r) /\
      pr_domain p = pr_domain p0 /\ pr_roles p = pr_roles p0 /\ passed K X U parse cf s0 (hsys ls) l2 s2 /\ published_by l2 m ob /\
      (forall w, (w < length (s_f cf))%nat -> exists exp doc u sp, took l2 m w exp doc u /\ downloaded l2 w sp /\ content sp exp doc) /\
      (tame K X U parse cf t0 n nk nj nu calls l2 (now s2) m -> forall w exp doc u role, took l2 m w exp doc u -> role ∈ pr_roles p -> ~ doc_denies U (pr_domain p) a r doc role).
  Proof.
    intros Hr Ht Hz Hrep Hi. destruct (C90_no_hook_if_replaced _ _ Hr Ht Hrep) as (_ & Hh & _). pose proof (C90_is_the_system _ _ Hr) as Hy.
    pose proof (C71_accepted_is_authorized K X U parse cf t0 n nk nj nu calls _ _ i q p Hy Hi) as (j & q' & p0 & l1 & s1 & Hkey & _ & _ & H).
    rewrite Hz in H. destruct H as (l2 & s2 & o & a & r & acc & Hh2 & Hc & Htg & -> & _ & _).
    destruct (check_of K X U parse cf t0 n nk nj nu calls _ _ _ _ _ _ Hy Hh2) as [k Hk].
    assert (untouched l2 (k_obj k)) as Hun.
    { apply (SystemFacts.unhooked K X U parse cf t0 n nk nj nu calls). destruct Hh2 as [[l3 Hl] _]. rewrite Hl, elem_of_app in Hh. tauto. }
    destruct (C71_no_role_denied_partial K X U parse cf t0 n nk nj nu calls _ _ j acc l2 s2 q' p0 a r k Hy Ht Hh2 Hc Hk Hun) as (m & Hpub & Hall & Hno).
    exists q', p0, o, a, r, l2, s2, m, (k_obj k). split_and!; try done. destruct Hh2 as [[l3 Hl] Hr2]. split; [|done]. eexists. exact Hl.
  Qed.
  (** C75 for the precise hook: what all policies of a domain deny is never granted, as long as the documents are tame
      and do not expire; that no hook runs need not be assumed. *)
  Theorem C90_denied_stays_denied ls s i q p : hrun ls s -> 0 < t0 -> z_policy (s_z cf) = true ->
    (forall m, tame K X U parse cf t0 n nk nj nu calls (hsys ls) (now (h_sys K s)) m) ->
    z_tasks (y_auth K (h_sys K s)) !! i = Some (CDone q (Ok p)) ->
    exists q' p0 o a r, cache_key (s_z cf) q' = cache_key (s_z cf) q /\ target (s_z cf) o p0 q' = Ok (a, r) /\
      pr_domain p = pr_domain p0 /\ pr_roles p = pr_roles p0 /\
      forall role w, role ∈ pr_roles p -> (w < length (s_f cf))%nat ->
        exists sp exp doc, downloaded (hsys ls) w sp /\ content sp exp doc /\ ~ doc_denies U (pr_domain p) a r doc role.
  Proof.
    intros Hr Ht Hz Htame Hi. assert (unexpired (hsys ls) (now (h_sys K s))) as Hu by (intros m w exp doc u Htk; by apply (proj1 (Htame m)) in Htk as (_ & _ & ?)).
    destruct (C90_no_hook_before_expiry _ _ Hr Ht Hu) as (_ & Hh & _).
    pose proof (C90_is_the_system _ _ Hr) as Hy. destruct (all_tame K X U parse cf t0 n nk nj nu calls _ _ Hy Hh Htame) as [Hgu Hgt].
    by eapply C75_denied_stays_denied_partial.
  Qed.
End claims.

(** ** Running it *)
Section exec.
  Context (K : crypto) (X : jwt_ext) {O : Type} (U : unicode) (parse : str -> option (verifier K)) (cf : @sconf O) (doms : list str).
  Inductive hcmd := XC (c : @cmd O) | XFind (o : nat) (k : str) | XTake (o : nat) (k : str) | XEnd (o : nat) | XRun (k : str).
  (** The first [k] is taken out. *)
  Fixpoint pick (k : str) (l : list str) : option (list str * list str) :=
    match l with
    | [] => None
    | x :: l => if bool_decide (x = k) then Some ([], l) else match pick k l with Some (a, b) => Some (x :: a, b) | None => None end
    end.
  Lemma pick_sound k l a b : pick k l = Some (a, b) -> l = a ++ k :: b.
  Proof.
    revert a b. induction l as [|x l IH]; intros a b H; [done|]. cbn [pick] in H. case_bool_decide as E; [injection H as <- <-; by rewrite E|].
    destruct (pick k l) as [[a' b']|]; [|done]. injection H as <- <-. cbn. by rewrite (IH _ _ eq_refl).
  Qed.
  Definition ordinaryb (s : hst K) (l : @ylabel K O) : bool :=
    match l with
    | YHook _ => false
    | YObj _ _ (CDrop _) => false
    | YObjTake _ o w d _ _ => bool_decide ((o, w, d) ∈ h_jobs K s)
    | _ => true
    end.
  Definition hexec (c : hcmd) (s : hst K) : option (@hlabel K O * hst K) :=
    if h_down K s then None else
    let y := h_sys K s in
    match c with
    | XC c =>
        match yexec K X U parse cf c y with
        | Some (l, y') =>
            if bool_decide (length (y_objs K y') = length (y_objs K y))
            then if ordinaryb s l then Some (HSys K l, HSt K y' (h_exp K s) (h_pend K s) (h_jobs K s) false) else None
            else match l with YUpd _ m UFinish => Some (HPublish K m, HSt K y' (h_exp K s ++ [Expirer EOn []]) (h_pend K s) (h_jobs K s) false) | _ => None end
        | None => None
        end
    | XFind o k =>
        match y_objs K y !! o, h_exp K s !! o with
        | Some c, Some x =>
            match c_g c !! k with
            | Some e =>
                if g_valid (now K y) e then None
                else match cstep U (CDrop k) c with
                     | Some c' => Some (HFind K o k, HSt K (set_obj K o c' y) (<[o := Expirer (e_phase x) (e_queue x ++ [k])]> (h_exp K s)) (h_pend K s) (h_jobs K s) false)
                     | None => None
                     end
            | None => None
            end
        | _, _ => None
        end
    | XTake o k =>
        match h_exp K s !! o with
        | Some (Expirer EOn q) =>
            match pick k q with
            | Some (a, b) => Some (HTake K o k, HSt K y (<[o := Expirer EOn (a ++ b)]> (h_exp K s)) (h_pend K s ++ [k]) (h_jobs K s) false)
            | None => None
            end
        | _ => None
        end
    | XEnd o =>
        match h_exp K s !! o with
        | Some (Expirer EOn q) => Some (HEnd K o, HSt K y (<[o := Expirer EEnd q]> (h_exp K s)) (h_pend K s) (h_jobs K s) false)
        | _ => None
        end
    | XRun k =>
        match pick k (h_pend K s) with
        | Some (a, b) =>
            match fetcher_of doms (hook_domain k) with
            | Some d =>
                match y_objs K y !! y_cur K y with
                | Some c => Some (HRun K k, HSt K (set_obj K (y_cur K y) (CSt (c_g c) (c_work c ++ [PolicySimplify.CIdle])) y) (h_exp K s) (a ++ b)
                                            ((y_cur K y, length (c_work c), d) :: h_jobs K s) false)
                | None => None
                end
            | None => Some (HCrash K k, HSt K y (h_exp K s) (a ++ b) (h_jobs K s) true)
            end
        | None => None
        end
    end.
  Lemma hexec_sound c s l s' : hexec c s = Some (l, s') -> hstep K X U parse cf doms l s s'.
  Proof.
    unfold hexec. destruct (h_down K s) eqn:Hd; [done|]. destruct c as [c|o k|o k|o|k].
    - destruct (yexec K X U parse cf c (h_sys K s)) as [[yl y]|] eqn:E; [|done]. apply yexec_sound in E. case_bool_decide as Hl.
      + destruct (ordinaryb s yl) eqn:Ho; [|done]. intros H. injection H as <- <-. apply H_sys; [done| |done|done].
        destruct yl as [| | | | | | | |o ol| | |]; cbn in Ho |- *; try done; [by destruct ol|by apply bool_decide_eq_true in Ho].
      + destruct yl as [| | | | |m ul| | | | | |]; try done. destruct ul; try done. intros H. injection H as <- <-. by apply H_publish.
    - destruct (y_objs K (h_sys K s) !! o) as [c|] eqn:Ho; [|done]. destruct (h_exp K s !! o) as [x|] eqn:Hx; [|done]. destruct (c_g c !! k) as [e|] eqn:He; [|done].
      destruct (g_valid _ e) eqn:Hv; [done|]. destruct (cstep U (CDrop k) c) as [c'|] eqn:Hc; [|done]. intros H. injection H as <- <-.
      eapply H_find; [done|done|done|done|done|]. eapply S_obj; [done|done|done|]. intros k' Hk. injection Hk as <-. unfold g_get. by rewrite He, Hv.
    - destruct (h_exp K s !! o) as [[[] q]|] eqn:Hx; try done. destruct (pick k q) as [[a b]|] eqn:Hp; [|done]. intros H. injection H as <- <-.
      apply pick_sound in Hp as ->. by apply H_take.
    - destruct (h_exp K s !! o) as [[[] q]|] eqn:Hx; try done. intros H. injection H as <- <-. by apply H_end.
    - destruct (pick k (h_pend K s)) as [[a b]|] eqn:Hp; [|done]. apply pick_sound in Hp. destruct (fetcher_of doms (hook_domain k)) as [d|] eqn:Hf.
      + destruct (y_objs K (h_sys K s) !! y_cur K (h_sys K s)) as [c|] eqn:Ho; [|done]. intros H. injection H as <- <-. eapply H_run; [done|done|done|done|by apply S_hook].
      + intros H. injection H as <- <-. by eapply H_crash.
  Qed.
  (** Running commands, keeping each label with the state it was taken in. *)
  Fixpoint hdrive (cs : list hcmd) (tr : list (@hlabel K O * hst K)) (s : hst K) : option (list (@hlabel K O * hst K) * hst K) :=
    match cs with
    | [] => Some (tr, s)
    | c :: cs => match hexec c s with Some (l, s') => hdrive cs (tr ++ [(l, s)]) s' | None => None end
    end.
  Definition strace (tr : list (@hlabel K O * hst K)) : list (@ylabel K O * sys K) := omap (fun '(l, s) => (fun y => (y, h_sys K s)) <$> hsys1 K l) tr.
  Context (t0 : time) (n nk nj nu : nat) (calls : nat -> list bool).
  Notation s0 := (yinit K cf t0 n nk nj nu calls).
  Definition htraced (tr : list (@hlabel K O * hst K)) (s : hst K) : Prop :=
    hrun K X U parse cf doms (hinit K s0) tr.*1 s /\ (forall l l1 s1, happened K X U parse cf s0 (hsys K tr.*1) l l1 s1 -> (l, s1) ∈ strace tr) /\
    (forall l s1, (l, s1) ∈ tr -> exists l1 l2, tr.*1 = l1 ++ l :: l2 /\ hrun K X U parse cf doms (hinit K s0) l1 s1).
  Lemma hdrive_traced cs tr s tr' s' : hdrive cs tr s = Some (tr', s') -> htraced tr s -> htraced tr' s'.
  Proof.
    revert tr s. induction cs as [|c cs IH]; intros tr s; cbn [hdrive]; [intros H; by injection H as <- <-|].
    destruct (hexec c s) as [[l s1]|] eqn:E; [|done]. intros H (H1 & H2 & H3). eapply IH; [exact H|]. apply hexec_sound in E. split_and!.
    - rewrite fmap_app. cbn [fmap list_fmap fst]. eapply HR_snoc; [exact H1|done].
    - rewrite fmap_app. cbn [fmap list_fmap fst]. intros l' l1 s2 Hh. rewrite hsys_snoc in Hh. unfold strace. rewrite omap_app, elem_of_app. cbn [omap list_omap].
      destruct (hsys1 K l) as [y|] eqn:Ey; [|rewrite app_nil_r in Hh; left; by eapply H2].
      destruct (happened_snoc K X U parse cf s0 _ _ _ _ _ _ (C90_is_the_system _ _ _ _ _ _ _ _ _ _ _ _ _ _ H1) Hh) as [Hh1|(-> & -> & ->)]; [left; by eapply H2|right; left].
    - intros l' s2 Hin. rewrite fmap_app. cbn [fmap list_fmap fst]. apply elem_of_app in Hin as [Hin|Hin].
      + destruct (H3 _ _ Hin) as (l1 & l2 & Hl & Hr1). exists l1, (l2 ++ [l]). split; [|done]. rewrite Hl. by rewrite <- app_assoc.
      + apply elem_of_list_singleton in Hin. injection Hin as -> ->. exists tr.*1, []. done.
  Qed.
  Lemma hdrive_run cs tr s : hdrive cs [] (hinit K s0) = Some (tr, s) -> htraced tr s.
  Proof. intros H. eapply hdrive_traced; [exact H|]. split_and!; [constructor| |intros l s1 Hin; by apply elem_of_nil in Hin]. intros l l1 s1 [[l2 Hl] _]. by destruct l1. Qed.
  (** Which Update published which cache. *)
  Definition publications (tr : list (@hlabel K O * hst K)) : list (nat * nat) :=
    omap (fun '(l, s) => match l with YUpd _ m UFinish => Some (m, length (y_objs K s)) | _ => None end) (strace tr).
  Lemma publications_in tr s m o : htraced tr s -> published_by K X U parse cf s0 (hsys K tr.*1) m o -> (m, o) ∈ publications tr.
  Proof.
    intros (_ & H & _) (l1 & s1 & s2 & Hh & Hs & Hn & [c Hc]). apply elem_of_list_omap. exists (YUpd K m UFinish, s1). split; [by eapply H|].
    do 2 f_equal. apply lookup_ge_None in Hn. inversion Hs; subst; cbn [set_upd publish y_objs] in Hc; apply lookup_lt_Some in Hc; [lia|]. rewrite app_length in Hc. cbn in Hc. lia.
  Qed.
  Lemma took_taken tr s m w exp doc u : htraced tr s -> took K X U parse cf s0 (hsys K tr.*1) m w exp doc u -> (m, w, exp, doc, u) ∈ takes K (strace tr).
  Proof.
    intros (_ & H & _) (c & sc & l1 & s1 & Hh & Ha & <-). apply elem_of_list_omap. exists (YTake K m w c sc, s1). split; [by eapply H|]. cbn. by rewrite Ha.
  Qed.
  Definition ends (tr : list (@hlabel K O * hst K)) : list (nat * time) := omap (fun '(l, s) => match l with HEnd _ o => Some (o, now K (h_sys K s)) | _ => None end) tr.
  Lemma ended_in tr s o t : htraced tr s -> (o, t) ∈ ends tr -> ended_by K X U parse cf doms t0 n nk nj nu calls tr.*1 o t.
  Proof.
    intros (_ & _ & H) Hin. apply elem_of_list_omap in Hin as ([l s1] & Hin & He). destruct l; try done. injection He as -> <-.
    destruct (H _ _ Hin) as (l1 & l2 & Hl & Hr). exists l1, l2, s1. done.
  Qed.
End exec.

Section example.
  Import Prop_PubKey Prop_Fetcher Prop_Authorizer Prop_Access.
  Notation hrun1 := (Hooked.hrun K1 X0 U0 parse1 wcf [B "dom"] (hinit K1 winit)).
  Definition xdrive1 (cs : list (@hcmd unit)) : option (list (@hlabel K1 unit) * hst K1) :=
    match hdrive K1 X0 U0 parse1 wcf [B "dom"] cs [] (hinit K1 winit) with Some (tr, s) => Some (tr.*1, s) | None => None end.
  Notation xdrive cs := (xdrive1 cs).
  (** One domain is configured; [doc] is downloaded, properly signed, and expires. *)
  Definition xload (doc : document) (works : nat) : list (@hcmd unit) :=
    map XC (keys_cmds 0 (B "ZTSKEY") ++ keys_cmds 1 (B "ZMSKEY") ++
      [DSend 0 0; DReply 0 0 (Response 200 (B "a") (Doc (pol1 (B "dom") doc (60 * second)))); DSpawn 0; DTake 0 0 0] ++
      replicate works (DWork 0 0) ++ [DFinish 0]).
  (** The document of domain dom has an assertion for a role of another domain. *)
  Definition odoc : document := [[Raw (B "dom:role.r1") (B "get") (B "dom:/p/*") (B "ALLOW"); Raw (B "other:role.r9") (B "get") (B "dom:/p") (B "ALLOW")]].
  Definition xcrash : list (@hcmd unit) := xload odoc 5 ++ [XC (DTick 61000000000); XFind 1 (B "other:role.r9"); XTake 1 (B "other:role.r9"); XRun (B "other:role.r9")].
  (** The only document ever received is properly signed by the key for policies, parses and is used; when the entry
      for that role expires, the process crashes. *)
  Lemma xrun cs ls s : xdrive cs = Some (ls, s) -> hrun1 ls s.
  Proof. unfold xdrive1. destruct (hdrive _ _ _ _ _ _ cs [] _) as [[tr s']|] eqn:E; [|done]. intros H. injection H as <- <-. by apply (hdrive_run _ _ _ _ _ _ _ _ _ _ _ _ _ _ _ E). Qed.
  Definition replied (ls : list (@ylabel K1 unit)) : list signed_policy :=
    omap (fun l => match l with YReply _ _ _ (Response _ _ (Doc sp)) => Some sp | _ => None end) ls.
  Lemma downloaded_replied ls d sp : SystemSpec.downloaded K1 X0 U0 parse1 wcf winit ls d sp -> sp ∈ replied ls.
  Proof.
    intros (i & etag & l1 & s1 & [[l2 ->] _] & _). apply elem_of_list_omap. exists (YReply K1 d i (Response 200 etag (Doc sp))). split; [|done].
    rewrite !elem_of_app, elem_of_cons. tauto.
  Qed.
  Theorem C90_crash_refuted : exists ls s k,
    hrun1 ls s /\ h_down K1 s = true /\ last ls = Some (HCrash K1 k) /\
    role_of_policy K1 X0 U0 parse1 wcf t0 2 2 0 1 (fun _ => [false; false]) (hsys K1 ls) k /\ begins_with k (B "other") /\
    (forall d sp, SystemSpec.downloaded K1 X0 U0 parse1 wcf winit (hsys K1 ls) d sp -> sp = pol1 (B "dom") odoc (60 * second)).
  Proof.
    assert (match xdrive xcrash with Some (ls, s) => Some (h_down K1 s, (match last ls with Some (HCrash _ k) => Some k | _ => None end), replied (hsys K1 ls)) | None => None end
      = Some (true, Some (B "other:role.r9"), [pol1 (B "dom") odoc (60 * second)])) as H by (vm_compute; reflexivity).
    destruct (xdrive xcrash) as [[ls s]|] eqn:E; [|discriminate H]. apply xrun in E. assert (forall A C D (a a' : A) (b b' : C) (c c' : D), Some (a, b, c) = Some (a', b', c') -> a = a' /\ b = b' /\ c = c') as Hinj.
    { intros. injection H0 as -> -> ->. done. }
    apply Hinj in H as (Hd & Hl & Hrep). clear Hinj. destruct (last ls) as [[l|m|o k|o k|o|k|k]|] eqn:El; try discriminate Hl. assert (k = B "other:role.r9") as -> by (by injection Hl).
    exists ls, s, (B "other:role.r9"). split; [done|]. split; [done|]. split; [done|]. split; [|split].
    - apply last_Some in El as [ls' ->]. apply hrun_snoc in E as (s1 & Hr1 & Hs). inversion Hs; subst.
      destruct (reasons _ _ _ _ _ _ _ _ _ _ _ _ _ _ Hr1) as (_ & R2 & _). destruct (R2 (B "other:role.r9")) as [o Ho]; [match goal with Hp : h_pend _ _ = _ |- _ => rewrite Hp end; rewrite elem_of_app, elem_of_cons; tauto|].
      pose proof (expired_role _ _ _ _ _ _ _ _ _ _ _ _ _ _ _ _ Hr1 Ho) as Hrole. rewrite hsys_snoc. cbn [hsys1]. by rewrite app_nil_r.
    - apply hook_domain_spec. vm_compute. reflexivity.
    - intros d sp Hdl. apply downloaded_replied in Hdl. rewrite Hrep in Hdl. by apply elem_of_list_singleton in Hdl.
  Qed.
  (** Role r1 of the configured domain: its policy expires, its own fetcher downloads the policy again, and the hook has
      added the first assertion when a request comes that every policy denies; the request is granted (as in C75). *)
  Definition xhook : list (@hcmd unit) :=
    xload wdoc 5 ++ [XC (DTick (61 * second)); XFind 1 (B "dom:role.r1"); XTake 1 (B "dom:role.r1"); XRun (B "dom:role.r1")] ++
    map XC ([DSend 0 1; DReply 0 1 (Response 200 (B "b") (Doc (pol1 (B "dom") wdoc (200 * second)))); DObjTake 1 0 0 1 false; DObjWork 1 0; DObjWork 1 0] ++
      wcall 0 6 3 3 (rq (B "/secret") []) ++ [DStore 0]).
  Theorem C90_grants_what_every_policy_denies_refuted : exists ls s q p,
    hrun1 ls s /\ YHook K1 ∈ hsys K1 ls /\ h_jobs K1 s = [(1%nat, 0%nat, 0%nat)] /\ q = rq (B "/secret") [] /\
    z_tasks (y_auth K1 (h_sys K1 s)) !! 0%nat = Some (CDone q (Ok p)) /\ B "r1" ∈ pr_auth p /\
    forall d sp exp doc, SystemSpec.downloaded K1 X0 U0 parse1 wcf winit (hsys K1 ls) d sp -> content sp exp doc -> doc_denies U0 (pr_domain p) (B "get") (B "/p/secret") doc (B "r1").
  Proof.
    assert (match xdrive xhook with Some (ls, s) => Some (h_jobs K1 s, existsb (fun l => match l with HRun _ _ => true | _ => false end) ls, granted_at 0 (h_sys K1 s), replied (hsys K1 ls)) | None => None end
      = Some ([(1%nat, 0%nat, 0%nat)], true, Some (rq (B "/secret") [], [B "r1"], B "dom"), [pol1 (B "dom") wdoc (60 * second); pol1 (B "dom") wdoc (200 * second)])) as H by (vm_compute; reflexivity).
    destruct (xdrive xhook) as [[ls s]|] eqn:E; [|discriminate H]. apply xrun in E.
    assert (forall A C D F (a a' : A) (b b' : C) (c c' : D) (f f' : F), Some (a, b, c, f) = Some (a', b', c', f') -> a = a' /\ b = b' /\ c = c' /\ f = f') as Hinj.
    { intros. injection H0 as -> -> -> ->. done. }
    apply Hinj in H as (Hj & Hh & Hg & Hrep). clear Hinj. unfold granted_at in Hg.
    destruct (z_tasks (y_auth K1 (h_sys K1 s)) !! 0%nat) as [[| | | | | |q [p| |]]|] eqn:E0; try discriminate Hg.
    assert (forall A C D (a a' : A) (b b' : C) (c c' : D), Some (a, b, c) = Some (a', b', c') -> a = a' /\ b = b' /\ c = c') as Hinj3.
    { intros. injection H as -> -> ->. done. }
    apply Hinj3 in Hg as (-> & Hp & Hdm). exists ls, s, (rq (B "/secret") []), p. split; [done|]. split; [|split; [done|split; [done|split; [done|split; [rewrite Hp; left|]]]]].
    - apply existsb_exists in Hh as (l & Hl & Hx). apply elem_of_list_omap. exists l. split; [by apply elem_of_list_In|]. by destruct l.
    - intros d sp exp doc Hd (sd & pd & Hsd & _ & Hpd & Hdoc). apply downloaded_replied in Hd. rewrite Hrep in Hd.
      assert (doc = wdoc) as ->.
      { rewrite !elem_of_cons, elem_of_nil in Hd. destruct Hd as [->|[->|[]]]; cbn in Hsd; injection Hsd as <-; cbn in Hpd; injection Hpd as <-; apply written_inj; exact (eq_sym Hdoc). }
      rewrite Hdm. apply doc_deniesb_spec. vm_compute. reflexivity.
  Qed.
  (** The premises of the theorems about documents that do not expire: the same document before its expiry, one accepted call. *)
  Example C90_nonvacuous : exists ls s q p, hrun1 ls s /\ 0 < t0 /\ z_policy (s_z wcf) = true /\
    (forall m, tame K1 X0 U0 parse1 wcf t0 2 2 0 1 (fun _ => [false; false]) (hsys K1 ls) (now K1 (h_sys K1 s)) m) /\
    unexpired K1 X0 U0 parse1 wcf t0 2 2 0 1 (fun _ => [false; false]) (hsys K1 ls) (now K1 (h_sys K1 s)) /\
    z_tasks (y_auth K1 (h_sys K1 s)) !! 0%nat = Some (CDone q (Ok p)) /\ pr_auth p = [B "r1"] /\
    (forall k dom, role_of_policy K1 X0 U0 parse1 wcf t0 2 2 0 1 (fun _ => [false; false]) (hsys K1 ls) k -> begins_with k dom -> dom ∈ [B "dom"]).
  Proof.
    assert (match xdrive (xload wdoc 5 ++ map XC (wcall 0 8 3 3 (rq (B "/x") []) ++ [DStore 0])) with Some (ls, s) => Some (now K1 (h_sys K1 s), granted_at 0 (h_sys K1 s), replied (hsys K1 ls)) | None => None end
      = Some (50 * second, Some (rq (B "/x") [], [B "r1"], B "dom"), [pol1 (B "dom") wdoc (60 * second)])) as H by (vm_compute; reflexivity).
    destruct (xdrive _) as [[ls s]|] eqn:E; [|discriminate H]. apply xrun in E.
    assert (forall A C D (a a' : A) (b b' : C) (c c' : D), Some (a, b, c) = Some (a', b', c') -> a = a' /\ b = b' /\ c = c') as Hinj3.
    { clear. intros. injection H as -> -> ->. done. }
    apply Hinj3 in H as (Hn & Hg & Hrep). unfold granted_at in Hg.
    destruct (z_tasks (y_auth K1 (h_sys K1 s)) !! 0%nat) as [[| | | | | |q [p| |]]|] eqn:E0; try discriminate Hg. apply Hinj3 in Hg as (-> & Hp & _).
    assert (forall d sp exp doc, SystemSpec.downloaded K1 X0 U0 parse1 wcf winit (hsys K1 ls) d sp -> content sp exp doc -> doc = wdoc /\ exp = 60 * second) as Hdoc.
    { intros d sp exp doc Hd (sd & pd & Hsd & He & Hpd & Hdoc). apply downloaded_replied in Hd. rewrite Hrep in Hd. apply elem_of_list_singleton in Hd as ->.
      cbn in Hsd. injection Hsd as <-. cbn in Hpd, He. injection Hpd as <-. injection He as <-. split; [apply written_inj; exact (eq_sym Hdoc)|reflexivity]. }
    assert (forall m w exp doc u, took K1 X0 U0 parse1 wcf winit (hsys K1 ls) m w exp doc u -> doc = wdoc /\ exp = 60 * second /\ w = 0%nat) as Htk.
    { intros m w exp doc u Ht. pose proof Ht as Ht'. apply took_downloaded in Ht' as (sp & Hd & Hc). destruct (Hdoc _ _ _ _ Hd Hc) as [-> ->]. split_and!; [done|done|].
      destruct Hd as (i & etag & l1 & s1 & Hh & _). pose proof (C90_is_the_system _ _ _ _ _ _ _ _ _ _ _ _ _ _ E) as Hy.
      destruct (happened_step _ _ _ _ _ _ _ _ _ _ _ _ _ _ _ _ Hy Hh) as [s2 Hs]. inversion Hs as [| | | |? ? ? ? ? ? ? Hf| | | | | | | |]; subst. by destruct w as [|[|w]]. }
    assert (unexpired K1 X0 U0 parse1 wcf t0 2 2 0 1 (fun _ => [false; false]) (hsys K1 ls) (now K1 (h_sys K1 s))) as Hu.
    { intros m w exp doc u Ht. apply Htk in Ht as (-> & -> & ->). right. rewrite Hn. vm_compute. done. }
    exists ls, s, (rq (B "/x") []), p. split; [done|]. split; [vm_compute; reflexivity|]. split; [done|]. split; [|split; [done|split; [done|split; [done|]]]].
    - intros m. split.
      + intros w exp doc u Ht. pose proof (Hu _ _ _ _ _ Ht) as Hx. apply Htk in Ht as (-> & -> & ->). split_and!; [by apply no_commasb_spec|by apply no_conflictb_spec|done].
      + intros w w' exp exp' doc doc' u u' pol pol' r r' H1 H2 _ _ _ _ _. apply Htk in H1 as (_ & _ & ->), H2 as (_ & _ & ->). done.
    - intros k dom (d & sp & exp & doc & pol & r & Hd & Hc & Hpol & Hr & <-) Hb. destruct (Hdoc _ _ _ _ Hd Hc) as [-> _]. apply hook_domain_spec in Hb as <-.
      unfold wdoc in Hpol. apply elem_of_list_singleton in Hpol as ->. apply elem_of_list_singleton. rewrite !elem_of_cons, elem_of_nil in Hr. destruct Hr as [->|[->|[]]]; vm_compute; reflexivity.
  Qed.
  (** A policy that has expired, in a cache that was replaced before; then one accepted call. *)
  Definition xinit : sys K1 := yinit K1 wcf t0 2 2 0 2 (fun _ => [false; false]).
  Definition xrep : list (@hcmd unit) :=
    xload wdoc 5 ++ map XC ([DSend 0 1; DReply 0 1 (Response 200 (B "b") (Doc (pol1 (B "dom") wdoc (200 * second)))); DSpawn 1; DTake 1 0 1] ++ replicate 5 (DWork 1 0) ++ [DFinish 1]) ++
    [XEnd 1] ++ map XC ([DTick (61 * second)] ++ wcall 0 8 3 3 (rq (B "/x") []) ++ [DStore 0]).
  Example C90_replaced_nonvacuous : exists ls s q p, Hooked.hrun K1 X0 U0 parse1 wcf [B "dom"] (hinit K1 xinit) ls s /\
    replaced K1 X0 U0 parse1 wcf [B "dom"] t0 2 2 0 2 (fun _ => [false; false]) ls (now K1 (h_sys K1 s)) /\ now K1 (h_sys K1 s) = 61 * second /\
    z_tasks (y_auth K1 (h_sys K1 s)) !! 0%nat = Some (CDone q (Ok p)) /\ pr_auth p = [B "r1"] /\
    forall m w exp doc u, took K1 X0 U0 parse1 wcf xinit (hsys K1 ls) m w exp doc u -> w = 0%nat.
  Proof.
    assert (match hdrive K1 X0 U0 parse1 wcf [B "dom"] xrep [] (hinit K1 xinit) with
      | Some (tr, s) => Some (now K1 (h_sys K1 s), granted_at 0 (h_sys K1 s), (publications K1 tr, takes K1 (strace K1 tr), ends K1 tr)) | None => None end
      = Some (61 * second, Some (rq (B "/x") [], [B "r1"], B "dom"),
         ([(0%nat, 1%nat); (1%nat, 2%nat)], [(0%nat, 0%nat, 60 * second, wdoc, 50 * second); (1%nat, 0%nat, 200 * second, wdoc, 50 * second)], [(1%nat, 50 * second)]))) as H by (vm_compute; reflexivity).
    destruct (hdrive _ _ _ _ _ _ xrep _ _) as [[tr s]|] eqn:E; [|discriminate H]. apply hdrive_run in E.
    assert (forall A C D (a a' : A) (b b' : C) (c c' : D), Some (a, b, c) = Some (a', b', c') -> a = a' /\ b = b' /\ c = c') as Hinj3.
    { clear. intros. injection H as -> -> ->. done. }
    apply Hinj3 in H as (Hn & Hg & H). unfold granted_at in Hg.
    destruct (z_tasks (y_auth K1 (h_sys K1 s)) !! 0%nat) as [[| | | | | |q [p| |]]|] eqn:E0; try discriminate Hg. apply Hinj3 in Hg as (-> & Hp & _).
    assert (forall A C D (a a' : A) (b b' : C) (c c' : D), (a, b, c) = (a', b', c') -> a = a' /\ b = b' /\ c = c') as Hinj.
    { clear. intros. injection H as -> -> ->. done. }
    apply Hinj in H as (Hpub & Htk & Hend). exists tr.*1, s, (rq (B "/x") []), p. split; [apply E|].
    split; [|do 3 (split; [done|]); intros m w exp doc u H2; apply (took_taken _ _ _ _ _ _ _ _ _ _ _ _ _ _ _ _ _ _ _ E) in H2; rewrite Htk, !elem_of_cons, elem_of_nil in H2; destruct H2 as [H2|[H2|[]]]; injection H2; congruence].
    intros m o w exp doc u H1 H2. rewrite Hn. apply (publications_in _ _ _ _ _ _ _ _ _ _ _ _ _ _ _ _ E) in H1. apply (took_taken _ _ _ _ _ _ _ _ _ _ _ _ _ _ _ _ _ _ _ E) in H2.
    rewrite Hpub in H1. rewrite Htk in H2. right. rewrite !elem_of_cons, elem_of_nil in H1. rewrite !elem_of_cons, elem_of_nil in H2. destruct H1 as [H1|[H1|[]]]; injection H1 as -> ->.
    - assert (exp = 60 * second) as -> by (destruct H2 as [H2|[H2|[]]]; injection H2; congruence). split; [vm_compute; done|right].
      destruct (ended_in _ _ _ _ _ _ _ _ _ _ _ _ _ _ 1%nat (50 * second) E) as (l1 & l2 & s1 & ? & ? & ?); [rewrite Hend; left|]. exists l1, l2, s1. split_and!; try done. unfold second in *. lia.
    - assert (exp = 200 * second) as -> by (destruct H2 as [H2|[H2|[]]]; injection H2; congruence). split; [vm_compute; done|left]. unfold second. lia.
  Qed.
End example.
Print Assumptions C90_is_the_system.
Print Assumptions C90_hook_has_a_reason.
Print Assumptions C90_own_fetcher.
Print Assumptions C90_crash_reason.
Print Assumptions C90_no_crash_partial.
Print Assumptions C90_crash_follows.
Print Assumptions C90_one_hook_each.
Print Assumptions C90_crash_is_final.
Print Assumptions C90_one_goroutine_each.
Print Assumptions C90_no_hook_before_expiry.
Print Assumptions C90_denied_stays_denied.
Print Assumptions C90_no_hook_if_replaced.
Print Assumptions C90_accepted_by_one_update.
Print Assumptions C90_crash_refuted.
Print Assumptions C90_grants_what_every_policy_denies_refuted.
Print Assumptions C90_nonvacuous.
Print Assumptions C90_replaced_nonvacuous.
