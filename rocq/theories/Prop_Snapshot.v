(** * Property C86: GetPolicyCache shows the policies that decide *)
From Verif Require Import Snapshot SystemFacts SystemExec PolicyCheckers Prop_System Prop_Window Prop_Revoke.
From Verif Require Import GoStrings.

Section claims.
  Context (K : crypto) (X : jwt_ext) {O : Type} (U : unicode) (parse : str -> option (verifier K)).
  Context (cf : @sconf O) (t0 : time) (n nk nj nu : nat) (calls : nat -> list bool) (nr : nat).
  Notation s0 := (yinit K cf t0 n nk nj nu calls).
  Notation vrun := (vrun K X U parse cf (vinit K s0 nr)).
  Notation vstep := (vstep K X U parse cf).
  Notation yrun := (yrun K X U parse cf s0).
  Notation passed := (passed K X U parse cf s0).
  Notation downloaded := (downloaded K X U parse cf s0).
  Notation vlabel := (@vlabel K O).
  Notation ylabel := (@ylabel K O).
  Notation vsys := (vsys K).
  Notation now := (now K).

  (** ** Specification *)
  (** Call [i] loaded the pointer to cache [o]. *)
  Definition loaded_by (ls : list vlabel) (i o : nat) : Prop :=
    exists l1 l2 s1, ls = l1 ++ VCall K i :: l2 /\ vrun l1 s1 /\ y_cur K (v_sys K s1) = o.
  (** The execution passed through [s1] while call [i] was at work. *)
  Definition during (ls : list vlabel) (i : nat) (l1 : list vlabel) (s1 : vst K) : Prop :=
    (exists l2, ls = l1 ++ l2) /\ vrun l1 s1 /\ VCall K i ∈ l1 /\ VReturn K i ∉ l1 /\ VStop K i ∉ l1.
  (** Key [k] of cache [o] has value [v] for readers. *)
  Definition live (y : sys K) (o : nat) (k : str) (v : list assertion) : Prop :=
    exists c, y_objs K y !! o = Some c /\ g_get (now y) k (c_g c) = Some v.
  Definition returned_map (s : vst K) (i : nat) (m : gmap str (list assertion)) : Prop :=
    exists r, v_calls K s !! i = Some r /\ v_ret r = true /\ v_map r = m.
  (** What cache [o] has shown readers so far is [m], always. *)
  Definition unchanged (ls : list ylabel) (o : nat) (m : gmap str (list assertion)) : Prop :=
    forall l1 s1 c, passed ls l1 s1 -> y_objs K s1 !! o = Some c -> g_view (now s1) (c_g c) = m.

  (** ** Facts *)
  Lemma vrun_snoc ls l s' : vrun (ls ++ [l]) s' -> exists s, vrun ls s /\ vstep l s s'.
  Proof. intros H. inversion H as [Hx|? ? ? ? ? ? Hx]; [by destruct ls|]. apply app_inj_tail in Hx as [-> ->]. eauto. Qed.
  Lemma vrun_sys ls s : vrun ls s -> yrun (vsys ls) (v_sys K s).
  Proof.
    induction 1 as [|ls l s s' _ IH Hs]; [constructor|]. unfold Snapshot.vsys in *. rewrite omap_app.
    destruct Hs; cbn; rewrite ?app_nil_r; try done; (eapply Y_snoc; [exact IH|done]).
  Qed.
  Lemma loaded_mono ls x i o : loaded_by ls i o -> loaded_by (ls ++ x) i o.
  Proof. intros (l1 & l2 & s1 & -> & H). exists l1, (l2 ++ x), s1. split; [by rewrite <- app_assoc|done]. Qed.
  Lemma during_mono ls x i l1 s1 : during ls i l1 s1 -> during (ls ++ x) i l1 s1.
  Proof. intros ([l2 ->] & H). split; [|done]. exists (l2 ++ x). by rewrite app_assoc. Qed.
  (** The state of a call. *)
  Definition call_ok (ls : list vlabel) (s : vst K) (i : nat) (r : reader) : Prop :=
    (v_ret r = true <-> VReturn K i ∈ ls \/ VStop K i ∈ ls) /\
    match v_obj r with
    | None => VCall K i ∉ ls /\ v_map r = ∅ /\ (v_ret r = true -> z_policy (s_z cf) = false)
    | Some o =>
        z_policy (s_z cf) = true /\ loaded_by ls i o /\ VCall K i ∈ ls /\ (o < length (y_objs K (v_sys K s)))%nat /\
        (forall k v, v_map r !! k = Some v -> exists l1 s1, during ls i l1 s1 /\ live (v_sys K s1) o k v) /\
        (forall k, k ∈ v_done r -> is_Some (v_map r !! k) \/ exists l1 s1, during ls i l1 s1 /\ forall v, ~ live (v_sys K s1) o k v) /\
        (forall k, k ∈ v_must r \/ exists l1 s1, during ls i l1 s1 /\ forall v, ~ live (v_sys K s1) o k v) /\
        (VReturn K i ∈ ls -> v_must r ⊆ v_done r)
    end.
  Definition of_call (l : vlabel) : option nat :=
    match l with VSys _ _ => None | VCall _ i | VVisit _ i _ | VExpired _ i _ _ | VSkip _ i _ | VReturn _ i | VStop _ i => Some i end.
  Lemma step_objs l s s' : vstep l s s' -> (length (y_objs K (v_sys K s)) <= length (y_objs K (v_sys K s')))%nat.
  Proof. destruct 1 as [s l y Hy| | | |s i k r o c e y Hr Hk He Hv Hy| | |]; cbn [v_sys set_call]; try done; by eapply objs_grow. Qed.
  Lemma step_other l s s' i : vstep l s s' -> of_call l <> Some i -> v_calls K s' !! i = v_calls K s !! i.
  Proof. destruct 1; cbn; intros Hi; try done; apply list_lookup_insert_ne; congruence. Qed.
  Lemma live_det y o k v v' : live y o k v -> live y o k v' -> v = v'.
  Proof. intros (c & Hc & H) (c' & Hc' & H'). congruence. Qed.
  Lemma in_snoc {A} (x l : A) ls : x ∈ ls ++ [l] <-> x ∈ ls \/ x = l.
  Proof. by rewrite elem_of_app, elem_of_list_singleton. Qed.
  Lemma calls_ok ls s : vrun ls s -> forall i r, v_calls K s !! i = Some r -> call_ok ls s i r.
  Proof.
    induction 1 as [|ls l s s' Hrun IH Hs]; intros i r Hr.
    - cbn in Hr. apply lookup_replicate in Hr as [-> _]. split; [split; [done|intros [H|H]; by apply elem_of_nil in H]|]. cbn. split; [apply not_elem_of_nil|done].
    - destruct (decide (of_call l = Some i)) as [Hi|Hi].
      2:{ rewrite (step_other _ _ _ _ Hs Hi) in Hr. destruct (IH _ _ Hr) as [H1 H2]. pose proof (step_objs _ _ _ Hs) as Hobj.
        assert (VCall K i <> l /\ VReturn K i <> l /\ VStop K i <> l) as (N1 & N2 & N3) by (split_and!; intros <-; by apply Hi).
        split; [rewrite H1, !in_snoc; naive_solver|]. destruct (v_obj r) as [o|].
        - destruct H2 as (A0 & A1 & A2 & A3 & A4 & A5 & A6 & A7). split_and!.
          + done.
          + by apply loaded_mono.
          + apply in_snoc. by left.
          + lia.
          + intros k v Hk. destruct (A4 k v Hk) as (l1 & s1 & Hd & Hl). exists l1, s1. split; [by apply during_mono|done].
          + intros k Hk. destruct (A5 k Hk) as [?|(l1 & s1 & Hd & Hl)]; [by left|]. right. exists l1, s1. split; [by apply during_mono|done].
          + intros k. destruct (A6 k) as [?|(l1 & s1 & Hd & Hl)]; [by left|]. right. exists l1, s1. split; [by apply during_mono|done].
          + rewrite in_snoc. naive_solver.
        - rewrite in_snoc. naive_solver. }
      assert (forall r0 o, v_calls K s !! i = Some r0 -> v_obj r0 = Some o -> v_ret r0 = false -> during (ls ++ [l]) i ls s) as Hnow.
      { intros r0 o Hr0 Ho Hf. destruct (IH _ _ Hr0) as [H1 H2]. rewrite Ho in H2. destruct H2 as (_ & _ & A2 & _). split; [by exists [l]|]. split; [done|]. split; [done|].
        rewrite Hf in H1. split; intros Hx; [assert (false = true) by (apply H1; by left)|assert (false = true) by (apply H1; by right)]; done. }
      destruct Hs as [s l y Hy|s j r0 c Hp Hr0 Ho Hf Hc|s j r0 Hp Hr0 Ho Hf|s j k r0 o c e (Hr0 & Ho & Hf & Hc) Hk He Hv|s j k r0 o c e y (Hr0 & Ho & Hf & Hc) Hk He Hv Hy|s j k r0 o c (Hr0 & Ho & Hf & Hc) Hk He|s j r0 o c (Hr0 & Ho & Hf & Hc) Hm|s j r0 o c (Hr0 & Ho & Hf & Hc)];
        cbn [of_call] in Hi; [done|..]; injection Hi as ->; cbn [v_calls set_call] in Hr; rewrite list_lookup_insert in Hr by (by eapply lookup_lt_Some); injection Hr as <-; destruct (IH _ _ Hr0) as [H1 H2].
      + rewrite Ho in H2. destruct H2 as (B1 & B2 & B3). rewrite Hf in H1. unfold call_ok. cbn [v_ret v_obj v_map v_done v_must set_call v_sys]. rewrite !in_snoc. split; [naive_solver|].
        assert (during (ls ++ [VCall K i]) i (ls ++ [VCall K i]) (set_call K i (Reader (Some (y_cur K (v_sys K s))) (dom (c_g c)) ∅ ∅ false) s)) as Hd.
        { split; [exists []; by rewrite app_nil_r|]. split; [econstructor; [done|by econstructor]|]. rewrite !in_snoc. naive_solver. }
        split_and!.
        * done.
        * exists ls, [], s. done.
        * by right.
        * by eapply lookup_lt_Some.
        * intros k v Hx. by rewrite lookup_empty in Hx.
        * intros k Hx. by apply elem_of_empty in Hx.
        * intros k. destruct (decide (k ∈ dom (c_g c))) as [Hin|Hin]; [by left|]. right. eexists _, _. split; [exact Hd|]. intros v (c' & Hc' & Hg). cbn [set_call v_sys] in *. rewrite Hc in Hc'. injection Hc' as <-.
          apply Hin. apply elem_of_dom. unfold g_get in Hg. by destruct (c_g c !! k).
        * naive_solver.
      + unfold call_ok. cbn [v_ret v_obj v_map]. rewrite !in_snoc. split; [naive_solver|]. split; [|done]. intros [Hx|Hx]; [|done].
        rewrite Ho in H2. by destruct H2.
      + rewrite Ho in H2. destruct H2 as (A0 & A1 & A2 & A3 & A4 & A5 & A6 & A7). pose proof (Hnow _ _ Hr0 Ho Hf) as Hd. rewrite Hf in H1. unfold call_ok. cbn [v_ret v_obj v_map v_done v_must set_call v_sys]. rewrite !in_snoc. split; [clear -H1; intuition congruence|]. split_and!; [done|by apply loaded_mono|by left|first [exact A3|lia]|..].
        * intros k' v. destruct (decide (k = k')) as [<-|Hne].
          -- rewrite lookup_insert. intros [= <-]. exists ls, s. split; [done|]. exists c. split; [done|]. unfold g_get. by rewrite He, Hv.
          -- rewrite lookup_insert_ne by done. intros Hk'. destruct (A4 _ _ Hk') as (l1 & s1 & Hd1 & Hl). exists l1, s1. split; [by apply during_mono|done].
        * intros k' Hk'. destruct (decide (k = k')) as [<-|Hne]; [left; rewrite lookup_insert; by eexists|]. rewrite lookup_insert_ne by done.
          destruct (A5 k') as [?|(l1 & s1 & Hd1 & Hl)]; [set_solver|by left|]. right. exists l1, s1. split; [by apply during_mono|done].
        * intros k'. destruct (A6 k') as [?|(l1 & s1 & Hd1 & Hl)]; [by left|]. right. exists l1, s1. split; [by apply during_mono|done].
        * intros [Hx|Hx]; [|discriminate Hx]. apply A7 in Hx. clear -Hx. set_solver.
      + rewrite Ho in H2. destruct H2 as (A0 & A1 & A2 & A3 & A4 & A5 & A6 & A7). pose proof (Hnow _ _ Hr0 Ho Hf) as Hd. rewrite Hf in H1. assert (length (y_objs K (v_sys K s)) <= length (y_objs K y))%nat as Hobj by (by eapply objs_grow). unfold call_ok. cbn [v_ret v_obj v_map v_done v_must set_call v_sys]. rewrite !in_snoc. split; [clear -H1; intuition congruence|]. split_and!; [done|by apply loaded_mono|by left|first [exact A3|lia]|..].
        * intros k' v Hk'. destruct (A4 _ _ Hk') as (l1 & s1 & Hd1 & Hl). exists l1, s1. split; [by apply during_mono|done].
        * intros k' Hk'. destruct (decide (k = k')) as [<-|Hne].
          -- right. exists ls, s. split; [done|]. intros v (c' & Hc' & Hg). rewrite Hc in Hc'. injection Hc' as <-. unfold g_get in Hg. by rewrite He, Hv in Hg.
          -- destruct (A5 k') as [?|(l1 & s1 & Hd1 & Hl)]; [set_solver|by left|]. right. exists l1, s1. split; [by apply during_mono|done].
        * intros k'. destruct (A6 k') as [?|(l1 & s1 & Hd1 & Hl)]; [by left|]. right. exists l1, s1. split; [by apply during_mono|done].
        * intros [Hx|Hx]; [|discriminate Hx]. apply A7 in Hx. clear -Hx. set_solver.
      + rewrite Ho in H2. destruct H2 as (A0 & A1 & A2 & A3 & A4 & A5 & A6 & A7). pose proof (Hnow _ _ Hr0 Ho Hf) as Hd. rewrite Hf in H1. unfold call_ok. cbn [v_ret v_obj v_map v_done v_must set_call v_sys]. rewrite !in_snoc. split; [clear -H1; intuition congruence|]. split_and!; [done|by apply loaded_mono|by left|first [exact A3|lia]|..].
        * intros k' v Hk'. destruct (A4 _ _ Hk') as (l1 & s1 & Hd1 & Hl). exists l1, s1. split; [by apply during_mono|done].
        * intros k' Hk'. destruct (decide (k = k')) as [<-|Hne].
          -- right. exists ls, s. split; [done|]. intros v (c' & Hc' & Hg). rewrite Hc in Hc'. injection Hc' as <-. unfold g_get in Hg. by rewrite He in Hg.
          -- destruct (A5 k') as [?|(l1 & s1 & Hd1 & Hl)]; [set_solver|by left|]. right. exists l1, s1. split; [by apply during_mono|done].
        * intros k'. destruct (A6 k') as [?|(l1 & s1 & Hd1 & Hl)]; [by left|]. right. exists l1, s1. split; [by apply during_mono|done].
        * intros [Hx|Hx]; [|discriminate Hx]. apply A7 in Hx. clear -Hx. set_solver.
      + rewrite Ho in H2. destruct H2 as (A0 & A1 & A2 & A3 & A4 & A5 & A6 & A7). rewrite Hf in H1. unfold call_ok. cbn [v_ret v_obj v_map v_done v_must set_call v_sys]. rewrite !in_snoc. split; [clear -H1; intuition congruence|]. split_and!; [done|by apply loaded_mono|by left|first [exact A3|lia]|..].
        * intros k' v Hk'. destruct (A4 _ _ Hk') as (l1 & s1 & Hd1 & Hl). exists l1, s1. split; [by apply during_mono|done].
        * intros k' Hk'. destruct (A5 k') as [?|(l1 & s1 & Hd1 & Hl)]; [done|by left|]. right. exists l1, s1. split; [by apply during_mono|done].
        * intros k'. destruct (A6 k') as [?|(l1 & s1 & Hd1 & Hl)]; [by left|]. right. exists l1, s1. split; [by apply during_mono|done].
        * done.
      + rewrite Ho in H2. destruct H2 as (A0 & A1 & A2 & A3 & A4 & A5 & A6 & A7). rewrite Hf in H1. unfold call_ok. cbn [v_ret v_obj v_map v_done v_must set_call v_sys]. rewrite !in_snoc. split; [clear -H1; intuition congruence|]. split_and!; [done|by apply loaded_mono|by left|first [exact A3|lia]|..].
        * intros k' v Hk'. destruct (A4 _ _ Hk') as (l1 & s1 & Hd1 & Hl). exists l1, s1. split; [by apply during_mono|done].
        * intros k' Hk'. destruct (A5 k') as [?|(l1 & s1 & Hd1 & Hl)]; [done|by left|]. right. exists l1, s1. split; [by apply during_mono|done].
        * intros k'. destruct (A6 k') as [?|(l1 & s1 & Hd1 & Hl)]; [by left|]. right. exists l1, s1. split; [by apply during_mono|done].
        * intros [Hx|Hx]; [|discriminate Hx]. by apply A7.
  Qed.
  Lemma vstep_det l s s1 s2 : vstep l s s1 -> vstep l s s2 -> s1 = s2.
  Proof.
    destruct 1 as [s l y Hy|s j r0 c Hp Hr0 Ho Hf Hc|s j r0 Hp Hr0 Ho Hf|s j k r0 o c e (Hr0 & Ho & Hf & Hc) Hk He Hv|s j k r0 o c e y (Hr0 & Ho & Hf & Hc) Hk He Hv Hy|s j k r0 o c (Hr0 & Ho & Hf & Hc) Hk He|s j r0 o c (Hr0 & Ho & Hf & Hc) Hm|s j r0 o c (Hr0 & Ho & Hf & Hc)];
      inversion 1; subst; repeat match goal with H : reading _ _ _ _ _ _ |- _ => destruct H as (? & ? & ? & ?) end; simplify_eq; try done.
    - f_equal. by eapply ystep_det.
    - f_equal. by eapply ystep_det.
  Qed.
  Lemma vrun_det ls s s' : vrun ls s -> vrun ls s' -> s = s'.
  Proof.
    revert s s'. induction ls as [|l ls IH] using rev_ind; intros s s' H1 H2.
    - inversion H1 as [|? ? ? ? ? ? Hx]; [|by destruct ls]. inversion H2 as [|? ? ? ? ? ? Hx]; [done|by destruct ls].
    - apply vrun_snoc in H1 as (a & H1 & S1), H2 as (b & H2 & S2). assert (a = b) as -> by (by apply IH). by eapply vstep_det.
  Qed.
  Lemma vrun_at l1 l l2 s : vrun (l1 ++ l :: l2) s -> exists s1 s2, vrun l1 s1 /\ vstep l s1 s2.
  Proof.
    revert s. induction l2 as [|x l2 IH] using rev_ind; intros s H; [apply vrun_snoc in H as (s1 & ? & ?); eauto|].
    rewrite app_comm_cons, app_assoc in H. apply vrun_snoc in H as (s1 & H & _). by eapply IH.
  Qed.
  Lemma called_once ls s i l1 l2 : vrun ls s -> ls = l1 ++ VCall K i :: l2 -> VCall K i ∉ l1.
  Proof.
    intros Hr -> Hin. apply vrun_at in Hr as (s1 & s2 & Hr & Hs). inversion Hs as [|? ? r0 c Hp Hr0 Ho Hf Hc| | | | | |]; subst. destruct (calls_ok _ _ Hr _ _ Hr0) as [_ H2]. rewrite Ho in H2. by destruct H2.
  Qed.
  Lemma loaded_det ls s i o o' : vrun ls s -> loaded_by ls i o -> loaded_by ls i o' -> o = o'.
  Proof.
    intros Hr (l1 & l2 & s1 & E1 & H1 & <-) (k1 & k2 & s2 & E2 & H2 & <-). pose proof (called_once _ _ _ _ _ Hr E1) as N1. pose proof (called_once _ _ _ _ _ Hr E2) as N2.
    rewrite E1 in E2. apply app_eq_inv in E2 as [(x & -> & E)|(x & -> & E)]; (destruct x as [|x0 x]; [rewrite app_nil_r in *; by rewrite (vrun_det _ _ _ H1 H2)|]); injection E as <- E; exfalso.
    - apply N1. rewrite elem_of_app, elem_of_cons. auto.
    - apply N2. rewrite elem_of_app, elem_of_cons. auto.
  Qed.

  (** ** Theorems *)
  (** Every entry shown was in force at some moment of the call, in the cache that was the current
      one when the call began. *)
  Theorem C86_shown_was_in_force ls s i m k v : vrun ls s -> returned_map s i m -> m !! k = Some v ->
    exists o l1 s1, loaded_by ls i o /\ during ls i l1 s1 /\ live (v_sys K s1) o k v.
  Proof.
    intros Hr (r & Hi & Hret & <-) Hk. destruct (calls_ok _ _ Hr _ _ Hi) as [H1 H2]. destruct (v_obj r) as [o|]; [|destruct H2 as (_ & Hm & _); by rewrite Hm, lookup_empty in Hk].
    destruct H2 as (A0 & A1 & A2 & A3 & A4 & A5 & A6 & A7). destruct (A4 _ _ Hk) as (l1 & s1 & Hd & Hl). by exists o, l1, s1.
  Qed.
  (** Every entry in force all the time is shown, unless the context ends. *)
  Theorem C86_lasting_entries_are_shown ls s i o m k : vrun ls s -> returned_map s i m -> loaded_by ls i o -> VReturn K i ∈ ls ->
    (forall l1 s1, during ls i l1 s1 -> exists v, live (v_sys K s1) o k v) -> is_Some (m !! k).
  Proof.
    intros Hr (r & Hi & Hret & <-) Hl Hv Hall. destruct (calls_ok _ _ Hr _ _ Hi) as [H1 H2]. destruct (v_obj r) as [o'|] eqn:Ho.
    - destruct H2 as (A0 & A1 & A2 & A3 & A4 & A5 & A6 & A7). assert (o = o') as <- by (by eapply loaded_det).
      destruct (A6 k) as [Hm|(l1 & s1 & Hd & Hn)]; [|destruct (Hall _ _ Hd) as [v Hx]; by destruct (Hn v)].
      destruct (A5 k) as [?|(l1 & s1 & Hd & Hn)]; [by apply A7|done|destruct (Hall _ _ Hd) as [v Hx]; by destruct (Hn v)].
    - exfalso. destruct H2 as (A1 & _). destruct Hl as (l1 & l2 & s1 & -> & _). apply A1. rewrite elem_of_app, elem_of_cons. auto.
  Qed.
  (** If the cache shows readers the same all the time, that is the result. *)
  Theorem C86_still_cache_is_shown_exactly ls s i o m V : vrun ls s -> returned_map s i m -> loaded_by ls i o -> VReturn K i ∈ ls ->
    (forall l1 s1, during ls i l1 s1 -> exists c, y_objs K (v_sys K s1) !! o = Some c /\ g_view (now (v_sys K s1)) (c_g c) = V) -> m = V.
  Proof.
    intros Hr Hm Hl Hv Hall. apply map_eq. intros k. destruct (V !! k) as [v|] eqn:E.
    - destruct (C86_lasting_entries_are_shown ls s i o m k Hr Hm Hl Hv) as [v' Hv'].
      { intros l1 s1 Hd. destruct (Hall _ _ Hd) as (c & Hc & Hview). exists v, c. split; [done|]. by rewrite <- g_view_lookup, Hview. }
      rewrite Hv'. destruct (C86_shown_was_in_force _ _ _ _ _ _ Hr Hm Hv') as (o' & l1 & s1 & Hl' & Hd & c & Hc & Hg). assert (o = o') as <- by (by eapply loaded_det).
      destruct (Hall _ _ Hd) as (c' & Hc' & Hview). assert (c = c') as <- by congruence. rewrite <- g_view_lookup, Hview in Hg. congruence.
    - destruct (m !! k) as [v'|] eqn:Hv'; [|done]. exfalso.
      destruct (C86_shown_was_in_force _ _ _ _ _ _ Hr Hm Hv') as (o' & l1 & s1 & Hl' & Hd & c & Hc & Hg). assert (o = o') as <- by (by eapply loaded_det).
      destruct (Hall _ _ Hd) as (c' & Hc' & Hview). assert (c = c') as <- by congruence. rewrite <- g_view_lookup, Hview in Hg. congruence.
  Qed.
  (** Every assertion shown stems from a properly signed policy. *)
  Theorem C86_shown_is_signed ls s i m k l a : vrun ls s -> returned_map s i m -> m !! k = Some l -> a ∈ l ->
    exists d sp exp doc pol r, downloaded (vsys ls) d sp /\ content sp exp doc /\ pol ∈ doc /\ r ∈ pol /\ r_role r = k /\ conv U r = Ok a.
  Proof.
    intros Hr Hm Hk Ha. destruct (C86_shown_was_in_force _ _ _ _ _ _ Hr Hm Hk) as (o & l1 & s1 & _ & ([l2 ->] & Hr1 & _) & c & Hc & Hg).
    unfold g_get in Hg. destruct (c_g c !! k) as [e|] eqn:He; [|done]. case_match; [|done]. injection Hg as <-.
    pose proof (vrun_sys _ _ Hr1) as Hp. destruct (caches_ok _ _ _ _ _ _ _ _ _ _ _ _ _ Hp) as [_ Ho]. destruct (Ho _ _ Hc) as [[_ Hg] _]. destruct (Hg _ _ He) as [Hsrc _].
    destruct (Hsrc a Ha) as [(e' & He' & _)|(w & j & r & (d & sp & doc & Hd & Hcn & Hs) & Hr' & Hk' & Hconv)]; [by rewrite lookup_empty in He'|].
    destruct (script_sound _ _ _ Hs r Hr') as (pol & Hpol & Hrp). exists d, sp, (j_exp j), doc, pol, r. split; [|done].
    unfold Snapshot.vsys. rewrite omap_app. by apply downloaded_mono.
  Qed.
  (** Reading has no effect: the system does what it might have done without the calls, and the
      entries it deletes were in force no more. *)
  Theorem C86_reading_has_no_effect ls s : vrun ls s -> yrun (vsys ls) (v_sys K s).
  Proof. exact (vrun_sys ls s). Qed.
  Theorem C86_deletions_are_invisible s s' i o k o' k' t c c' : vstep (VExpired K i o k) s s' ->
    y_objs K (v_sys K s) !! o' = Some c -> y_objs K (v_sys K s') !! o' = Some c' -> now (v_sys K s) <= t -> g_get t k' (c_g c') = g_get t k' (c_g c).
  Proof.
    intros H Hc Hc' Ht. inversion H as [| | | |? ? ? r ? c0 e y (Hr & Ho & Hf & Hc0) Hk He Hv Hy| | |]; subst. cbn [v_sys] in Hc'.
    inversion Hy as [| | | | | | | | |? ? ? c1 c2 Hc1 Hst| | |]; subst. cbn [set_obj y_objs] in Hc'. destruct (decide (o = o')) as [<-|Hne]; [|rewrite list_lookup_insert_ne in Hc' by done; congruence].
    rewrite list_lookup_insert in Hc' by (by eapply lookup_lt_Some). simplify_eq. cbn [cstep] in Hst. injection Hst as <-. cbn [c_g].
    unfold g_get. destruct (decide (k = k')) as [<-|Hne]; [|by rewrite lookup_delete_ne]. rewrite lookup_delete, He. unfold g_valid in *. apply orb_false_iff in Hv as [V1 V2]. rewrite V1.
    destruct (Z.leb_spec t (ge_exp e)); [|done]. apply Z.leb_gt in V2. lia.
  Qed.
  (** Disabled: nothing is shown. *)
  Theorem C86_disabled ls s i m : vrun ls s -> returned_map s i m -> z_policy (s_z cf) = false -> m = ∅.
  Proof.
    intros Hr (r & Hi & Hret & <-) Hp. destruct (calls_ok _ _ Hr _ _ Hi) as [_ H2]. destruct (v_obj r); [destruct H2; congruence|]. by destruct H2 as (_ & ? & _).
  Qed.
  (** *** Calls return *)
  Lemma cur_there ls y : yrun ls y -> exists c, y_objs K y !! y_cur K y = Some c.
  Proof.
    intros H. assert (y_cur K y < length (y_objs K y))%nat as Hl by (by eapply cur_bound). apply lookup_lt_is_Some_2 in Hl as [c Hc]. eauto.
  Qed.
  (** The call comes to one more of the keys. *)
  Lemma visit_one s i r o c k : reading K s i r o c -> k ∉ v_done r ->
    exists l s' r' c', vstep l s s' /\ of_call l = Some i /\ reading K s' i r' o c' /\ v_must r' = v_must r /\ v_done r' = {[k]} ∪ v_done r.
  Proof.
    intros Hrd Hk. pose proof Hrd as (Hr & Ho & Hf & Hc). assert (i < length (v_calls K s))%nat as Hi by (by eapply lookup_lt_Some).
    destruct (c_g c !! k) as [e|] eqn:He; [destruct (g_valid (now (v_sys K s)) e) eqn:Hv|].
    - eexists (VVisit K i k), _, _, c. split; [by econstructor|]. split; [done|]. split; [split; [cbn; by apply list_lookup_insert|done]|done].
    - eexists (VExpired K i o k), _, _, _. split.
      { eapply V_expired; [done|done|done|done|]. eapply S_obj; [done|reflexivity|intros w inp [=]|]. intros k' [= <-]. unfold g_get. by rewrite He, Hv. }
      split; [done|]. split; [split; [cbn; by apply list_lookup_insert|]|done]. cbn. split; [done|]. split; [done|]. apply list_lookup_insert. by eapply lookup_lt_Some.
    - eexists (VSkip K i k), _, _, c. split; [by econstructor|]. split; [done|]. split; [split; [cbn; by apply list_lookup_insert|done]|done].
  Qed.
  Lemma visit_all (ks : list str) : forall ls s i r o c, vrun ls s -> reading K s i r o c -> (forall k, k ∈ v_must r -> k ∈ v_done r \/ k ∈ ks) ->
    exists ls' s' r', vrun (ls ++ ls' ++ [VReturn K i]) s' /\ Forall (fun l => of_call l = Some i) ls' /\ v_calls K s' !! i = Some r' /\ v_ret r' = true.
  Proof.
    induction ks as [|k ks IH]; intros ls s i r o c Hr Hrd Hm.
    - eexists [], _, _. cbn [app]. split; [eapply VR_snoc; [exact Hr|]; eapply V_return; [exact Hrd|]; intros k Hk; destruct (Hm k Hk) as [?|Hx]; [done|by apply elem_of_nil in Hx]|].
      split; [constructor|]. destruct Hrd as (Hi & _). cbn. rewrite list_lookup_insert by (by eapply lookup_lt_Some). done.
    - destruct (decide (k ∈ v_done r)) as [Hd|Hd].
      { apply (IH ls s i r o c Hr Hrd). intros k' Hk'. destruct (Hm k' Hk') as [?|Hx]; [by left|]. apply elem_of_cons in Hx as [->|Hx]; [by left|by right]. }
      destruct (visit_one _ _ _ _ _ _ Hrd Hd) as (l & s1 & r1 & c1 & Hs & Hl & Hrd1 & E1 & E2).
      destruct (IH (ls ++ [l]) s1 i r1 o c1) as (ls' & s' & r' & H1 & H2 & H3 & H4); [by eapply VR_snoc|done| |].
      { rewrite E1, E2. intros k' Hk'. destruct (Hm k' Hk') as [?|Hx]; [left; set_solver|]. apply elem_of_cons in Hx as [->|Hx]; [left; set_solver|by right]. }
      exists (l :: ls'), s', r'. split; [by rewrite <- !app_assoc in H1|]. split; [by constructor|done].
  Qed.
  (** Whatever else is going on, a call can run to its end by itself. *)
  Theorem C86_calls_return ls s i r : vrun ls s -> v_calls K s !! i = Some r -> v_ret r = false ->
    exists ls' s' m, vrun (ls ++ ls') s' /\ Forall (fun l => of_call l = Some i) ls' /\ returned_map s' i m.
  Proof.
    intros Hr Hi Hf. destruct (v_obj r) as [o|] eqn:Ho.
    - assert (exists c, y_objs K (v_sys K s) !! o = Some c) as [c Hc].
      { destruct (calls_ok _ _ Hr _ _ Hi) as [_ H2]. rewrite Ho in H2. destruct H2 as (_ & _ & _ & Hl & _). apply lookup_lt_is_Some_2 in Hl as [c Hc]. eauto. }
      destruct (visit_all (elements (v_must r)) ls s i r o c Hr) as (ls' & s' & r' & H1 & H2 & H3 & H4); [done|intros k Hk; right; by apply elem_of_elements|].
      exists (ls' ++ [VReturn K i]), s', (v_map r'). split; [done|]. split; [apply Forall_app; split; [done|by repeat constructor]|]. by exists r'.
    - destruct (z_policy (s_z cf)) eqn:Hz.
      + destruct (cur_there _ _ (vrun_sys _ _ Hr)) as [c Hc]. pose proof (V_call K X U parse cf s i r c Hz Hi Ho Hf Hc) as Hs. pose proof (VR_snoc _ _ _ _ _ _ _ _ _ _ Hr Hs) as Hr1.
        destruct (visit_all (elements (dom (c_g c))) _ _ i (Reader (Some (y_cur K (v_sys K s))) (dom (c_g c)) ∅ ∅ false) (y_cur K (v_sys K s)) c Hr1) as (ls' & s' & r' & H1 & H2 & H3 & H4).
        { split; [cbn; apply list_lookup_insert; by eapply lookup_lt_Some|done]. }
        { intros k Hk. right. by apply elem_of_elements. }
        exists (VCall K i :: ls' ++ [VReturn K i]), s', (v_map r'). split; [by rewrite <- app_assoc in H1|]. split; [constructor; [done|]; apply Forall_app; split; [done|by repeat constructor]|]. by exists r'.
      + eexists [VReturn K i], _, ∅. split; [eapply VR_snoc; [exact Hr|]; by eapply V_disabled|]. split; [by repeat constructor|]. eexists. split; [cbn; apply list_lookup_insert; by eapply lookup_lt_Some|done].
  Qed.
  (** Checks that see the same all the time. *)
  Definition mutation (l : PolicyCheck.label) : bool := match l with EnvMutate _ _ => true | _ => false end.
  Lemma strip dom roles act res m ls : forall a b, (forall p c, s_heap a !! p = Some c -> c = m) -> (forall p c, EnvSwap p c ∈ ls \/ EnvMutate p c ∈ ls -> c = m) ->
    run U dom roles act res ls a = Some b -> run U dom roles act res (List.filter (fun l => negb (mutation l)) ls) a = Some b.
  Proof.
    induction ls as [|l ls IH]; intros a b Ha Hls Hrun; [done|]. cbn [run] in Hrun. destruct (step U dom roles act res l a) as [a'|] eqn:E; [|done].
    assert (forall p c, EnvSwap p c ∈ ls \/ EnvMutate p c ∈ ls -> c = m) as Hls' by (intros p c [Hx|Hx]; apply (Hls p c); [left|right]; by right).
    destruct (mutation l) eqn:Em.
    - destruct l as [|?|p c| | | | |]; try done. cbn [List.filter mutation negb]. assert (c = m) as -> by (apply (Hls p c); right; left).
      assert (a' = a) as ->; [|by apply IH]. unfold step in E. destruct (s_panic a) eqn:Ep; [done|]. destruct (s_heap a !! p) as [c|] eqn:Ec; [|done].
      pose proof (Ha _ _ Ec) as ->. injection E as <-. destruct a; cbn in *. by rewrite insert_id.
    - cbn [List.filter]. rewrite Em. cbn [negb run]. rewrite E. apply IH; [|done|done]. intros p c Hc.
      assert ((exists q d, l = EnvSwap q d) \/ ~ (exists q d, l = EnvSwap q d)) as [(q & d & ->)|Hn] by (destruct l; first [right; by intros (? & ? & ?)|left; by eexists _, _]).
      + assert (d = m) as -> by (apply (Hls q d); left; left). unfold step in E. destruct (s_panic a); [done|]. destruct (s_heap a !! q); [done|]. injection E as <-. destruct a; cbn in *.
        destruct (decide (q = p)) as [->|Hne]; [rewrite lookup_insert in Hc; congruence|]. rewrite lookup_insert_ne in Hc by done. by apply (Ha p).
      + assert (s_heap a' = s_heap a) as Hh; [|rewrite Hh in Hc; by apply (Ha p)]. destruct (step_same_heap U dom roles act res _ _ _ E) as [Hh' _]; [|done]. intros q d. split; intros ->; [done|]. apply Hn. by exists q, d.
  Qed.
  (** Decisions agree with what is shown: a check on a cache that has shown readers [m] all the time
      grants exactly to the roles [m] has an assertion for, and only if [m] denies none of the roles;
      it fails only if [m] denies one of them, if nothing matches, or because it was cancelled. *)
  Theorem C86_decisions_follow_what_is_shown ls s i k r m : yrun ls s -> y_chk K s !! i = Some (Some k) -> returned (k_st k) r -> unchanged ls (k_obj k) m ->
    match r with
    | Ok acc => acc ≡ₚ List.filter (role_hitb U (k_dom k) (k_act k) (k_res k) m) (k_roles k) /\ spec_allowed U (k_dom k) (k_act k) (k_res k) m (k_roles k)
    | Err e => e = ErrNoMatch /\ spec_no_match U (k_dom k) (k_act k) (k_res k) m (k_roles k) \/ spec_denied U (k_dom k) (k_act k) (k_res k) m (k_roles k) \/ e = ErrCanceled
    | Panic => False
    end.
  Proof.
    intros Hr Hk Hret Hun. destruct (checks_ok _ _ _ _ _ _ _ _ _ _ _ _ _ Hr _ _ Hk) as [(c0 & kls & Hrun & Hv) _].
    assert (forall c, version c0 kls c -> c = m /\ deny_first_cache m) as Hver.
    { intros c Hc. destruct (Hv c Hc) as (l1 & s1 & obj & Hp & Hobj & ->). rewrite (Hun _ _ _ Hp Hobj). split; [done|].
      rewrite <- (Hun _ _ _ Hp Hobj). destruct Hp as [_ Hp]. destruct (caches_ok _ _ _ _ _ _ _ _ _ _ _ _ _ Hp) as [_ Ho]. destruct (Ho _ _ Hobj) as [_ [Hdf _]].
      intros key l Hl. rewrite g_view_lookup in Hl. apply g_get_Some in Hl as [e He]. exact (Hdf _ _ He). }
    destruct (Hver c0) as [-> Hdf]; [by left|].
    apply (strip _ _ _ _ m) in Hrun.
    2:{ unfold start, init. cbn [s_heap]. intros p c Hp. by apply lookup_singleton_Some in Hp as [_ <-]. }
    2:{ intros p c Hx. apply (Hver c). right. by exists p. }
    destruct (answer _ _ _ _ _ _ _ _ _ _ Hrun Hret) as (cc & Hcur & Hans).
    { intros p c Hin. apply elem_of_list_In, List.filter_In in Hin as [_ Hin]. done. }
    assert (cc = m) as ->.
    { apply current_version in Hcur as [->|[p Hp]]; [done|]. apply (Hver cc). right. exists p. destruct Hp as [Hp|Hp]; apply elem_of_list_In, List.filter_In in Hp as [Hp _]; apply elem_of_list_In in Hp; auto. }
    destruct r as [acc|e|]; [| |done].
    - destruct (answer_ok_spec _ _ _ _ _ _ _ _ Hdf Hans) as [H1 H2]. destruct Hans as (Hne & Hp & _). split; [done|]. split; [done|]. destruct acc as [|role acc]; [done|]. exists role. apply H1. left.
    - destruct Hans as [[-> Hn]|[(role & l & a & Hin & Hl & Hf & He)|[-> _]]]; [left|right; left|right; by right].
      + split; [done|]. intros role Hin. by apply hitb_false, Hn.
      + exists role. split; [done|]. exists a. apply find_some in Hf as [Hf1 Hf2]. split; [exists l; split; [done|by apply elem_of_list_In]|]. split; [done|]. unfold is_deny. by rewrite He.
  Qed.
End claims.

(** One call, in a run with one Update and one request. *)
Section example.
  Import Prop_PubKey Prop_Fetcher Prop_Authorizer Prop_Access.
  Notation drive1 := (drive K1 X0 U0 parse1 rcf).
  Notation yrun1 := (System.yrun K1 X0 U0 parse1 rcf rinit).
  Notation vrun1 := (Snapshot.vrun K1 X0 U0 parse1 rcf (vinit K1 rinit 1)).
  Notation calls1 := (fun _ => [false; false]).
  Definition skey : str := B "dom:role.r1".
  Definition sassn : assertion := match new_assertion U0 (B "get") (B "dom:/p/*") (B "ALLOW") with Ok a => a | _ => Assertion [] [] [] None [] [] end.
  Definition view_of (o : nat) (s : sys K1) : option (list (str * list assertion)) :=
    match y_objs K1 s !! o with Some c => Some (map_to_list (g_view (now K1 s) (c_g c))) | None => None end.
  Definition keys_of (o : nat) (s : sys K1) : option (list (str * list assertion * Z)) :=
    match y_objs K1 s !! o with Some c => Some (map (fun '(k, e) => (k, ge_val e, ge_exp e)) (map_to_list (c_g c))) | None => None end.
  Definition answer_0 (s : sys K1) : option (nat * mst) :=
    match y_chk K1 s !! 0%nat with Some (Some k) => Some (k_obj k, s_main (k_st k)) | _ => None end.
  Lemma lift ls y : yrun1 ls y -> vrun1 (VSys K1 <$> ls) (VSt K1 y (replicate 1 (Reader None ∅ ∅ ∅ false))).
  Proof. induction 1 as [|ls l y y' _ IH Hs]; [constructor|]. rewrite fmap_app. eapply VR_snoc; [exact IH|]. by constructor. Qed.
  Lemma lift_sys (ls : list (@ylabel K1 unit)) : vsys K1 (VSys K1 <$> ls) = ls.
  Proof. unfold vsys. induction ls as [|l ls IH]; [done|]. cbn. by f_equal. Qed.
  Lemma view_is s c m : y_objs K1 s !! 1%nat = Some c -> view_of 1 s = Some (map_to_list m) -> g_view (now K1 s) (c_g c) = m.
  Proof. unfold view_of. intros ->. intros [= H]. by apply map_to_list_inj; rewrite H. Qed.

  Example C86_nonvacuous : exists ls s m k, vrun1 ls s /\ returned_map K1 s 0 m /\ loaded_by K1 X0 U0 parse1 rcf t0 3 2 0 2 calls1 1 ls 0 1 /\ VReturn K1 0 ∈ ls /\
    (forall l1 s1, during K1 X0 U0 parse1 rcf t0 3 2 0 2 calls1 1 ls 0 l1 s1 -> exists c, y_objs K1 (v_sys K1 s1) !! 1%nat = Some c /\ g_view (now K1 (v_sys K1 s1)) (c_g c) = m) /\
    m = {[skey := [sassn]]} /\
    (* the request *)
    y_chk K1 (v_sys K1 s) !! 0%nat = Some (Some k) /\ returned (k_st k) (Ok [B "r1"]) /\ unchanged K1 X0 U0 parse1 rcf t0 3 2 0 2 calls1 (vsys K1 ls) (k_obj k) m.
  Proof.
    assert (match drive1 (csS ++ csA) [] rinit with Some (tr, s) => Some (omap (fun '(_, s) => view_of 1 s) tr, keys_of 1 s, view_of 1 s, answer_0 s, y_cur K1 s) | None => None end =
      Some (replicate 25 [(skey, [sassn])], Some [(skey, [sassn], 200 * second)], Some [(skey, [sassn])], Some (1%nat, MDone (Ok [B "r1"])), 1%nat)) as Ho by (vm_compute; reflexivity).
    destruct (drive1 (csS ++ csA) [] rinit) as [[tr y]|] eqn:E; [|discriminate Ho]. apply drive_run in E as [Hrun Htr].
    assert (forall A C D E F (a a' : A) (b b' : C) (c c' : D) (d d' : E) (e e' : F), Some (a, b, c, d, e) = Some (a', b', c', d', e') ->
      a = a' /\ b = b' /\ c = c' /\ d = d' /\ e = e') as Hinj by (intros; by simplify_eq).
    apply Hinj in Ho as (O1 & O2 & O3 & O4 & O5). clear Hinj.
    assert (map_to_list {[skey := [sassn]]} = [(skey, [sassn])]) as Hm by (apply map_to_list_singleton).
    assert (exists c e, y_objs K1 y !! 1%nat = Some c /\ c_g c = {[skey := e]} /\ ge_val e = [sassn] /\ g_valid (now K1 y) e = true) as (c & e & Hc & He & Hv & Hval).
    { unfold keys_of in O2. unfold view_of in O3. destruct (y_objs K1 y !! 1%nat) as [c|]; [|discriminate O2]. injection O2 as O2.
      destruct (map_to_list (c_g c)) as [|[k e] [|]] eqn:El; [discriminate O2| |discriminate O2]. cbn in O2. injection O2 as -> H1 H2. exists c, e. split; [done|].
      assert (c_g c = {[skey := e]}) as Hg by (apply map_to_list_inj; rewrite El; by rewrite map_to_list_singleton). split; [done|]. split; [done|].
      injection O3 as O3. destruct (g_valid (now K1 y) e) eqn:Ev; [done|]. exfalso. rewrite Hg in O3. unfold g_view in O3. rewrite omap_singleton_None in O3 by (by rewrite Ev). rewrite map_to_list_empty in O3. discriminate O3. }
    assert (exists k, y_chk K1 y !! 0%nat = Some (Some k) /\ k_obj k = 1%nat /\ s_main (k_st k) = MDone (Ok [B "r1"])) as (k & Hk & Hko & Hks).
    { unfold answer_0 in O4. destruct (y_chk K1 y !! 0%nat) as [[k|]|]; [|discriminate O4..]. exists k. by injection O4. }
    set (r1 := Reader (Some 1%nat) {[skey]} ∅ ∅ false). set (r2 := Reader (Some 1%nat) {[skey]} ({[skey]} ∪ ∅) {[skey := [sassn]]} false).
    set (r3 := Reader (Some 1%nat) {[skey]} ({[skey]} ∪ ∅) {[skey := [sassn]]} true).
    pose (ls0 := VSys K1 <$> rev tr.*1). pose proof (lift _ _ Hrun) as L0. fold ls0 in L0.
    assert (vrun1 (ls0 ++ [VCall K1 0]) (VSt K1 y [r1])) as L1.
    { eapply VR_snoc; [exact L0|]. pose proof (V_call K1 X0 U0 parse1 rcf (VSt K1 y (replicate 1 (Reader None ∅ ∅ ∅ false))) 0 (Reader None ∅ ∅ ∅ false) c) as Hs. cbn [v_sys] in Hs. rewrite O5, He, dom_singleton_L in Hs. by apply Hs. }
    assert (vrun1 ((ls0 ++ [VCall K1 0]) ++ [VVisit K1 0 skey]) (VSt K1 y [r2])) as L2.
    { eapply VR_snoc; [exact L1|]. pose proof (V_visit K1 X0 U0 parse1 rcf (VSt K1 y [r1]) 0 skey r1 1 c e) as Hs. cbn [v_sys r1 v_must v_done v_map] in Hs. rewrite Hv in Hs. apply Hs; [done|set_solver|by rewrite He, lookup_singleton|done]. }
    assert (vrun1 (((ls0 ++ [VCall K1 0]) ++ [VVisit K1 0 skey]) ++ [VReturn K1 0]) (VSt K1 y [r3])) as L3.
    { eapply VR_snoc; [exact L2|]. exact (V_return K1 X0 U0 parse1 rcf (VSt K1 y [r2]) 0 r2 1 c ltac:(done) ltac:(set_solver)). }
    eexists _, _, {[skey := [sassn]]}, k. split; [exact L3|]. cbn [v_sys]. split_and!.
    - by exists r3.
    - eexists ls0, _, _. rewrite <- !app_assoc. cbn [app]. split; [done|]. by split; [exact L0|].
    - rewrite !elem_of_app. right. left.
    - intros l1 s1 ([x Hx] & Hd & Hin & Hnr & _). assert (vrun1 ls0 (VSt K1 y (replicate 1 (Reader None ∅ ∅ ∅ false)))) as _ by exact L0.
      assert (v_sys K1 s1 = y) as ->; [|exists c; split; [done|by apply view_is; [done|rewrite O3, Hm]]].
      rewrite <- !app_assoc in Hx. cbn [app] in Hx. apply app_eq_inv in Hx as [(z & E1 & Hz)|(z & -> & Hz)].
      { exfalso. assert (VCall K1 0 ∈ ls0) as Hi by (rewrite E1, elem_of_app; by left). apply elem_of_list_fmap in Hi as (? & ? & _). done. }
      destruct z as [|z1 [|z2 [|z3 z]]].
      + rewrite app_nil_r in Hin. apply elem_of_list_fmap in Hin as (? & ? & _). done.
      + injection Hz as <- _. by rewrite (vrun_det _ _ _ _ _ _ _ _ _ _ _ _ _ _ _ Hd L1).
      + injection Hz as <- <- _. rewrite <- app_assoc in L2. by rewrite (vrun_det _ _ _ _ _ _ _ _ _ _ _ _ _ _ _ Hd L2).
      + injection Hz as <- <- <- _. exfalso. apply Hnr. rewrite elem_of_app. right. right. right. left.
    - done.
    - done.
    - done.
    - rewrite Hko. assert (vsys K1 (((ls0 ++ [VCall K1 0]) ++ [VVisit K1 0 skey]) ++ [VReturn K1 0]) = rev tr.*1) as ->.
      { unfold vsys. rewrite !omap_app. cbn. rewrite !app_nil_r. exact (lift_sys _). }
      intros l1 s1 c1 Hp Hc1. apply view_is; [done|]. rewrite Hm.
      assert ((exists l, (l, s1) ∈ tr) \/ s1 = y) as [[l Hl]| ->]; [|
        |done].
      { destruct Hp as [[[|l x] Hx] Hr1]; [right; rewrite app_nil_r in Hx; rewrite Hx in Hrun; by eapply yrun_det|].
        left. exists l. apply (Htr l l1). split; [by exists x|done]. }
      assert (is_Some (view_of 1 s1)) as [w Hw] by (unfold view_of; rewrite Hc1; by eexists). rewrite Hw. f_equal.
      assert (w ∈ omap (fun '(_, s) => view_of 1 s) tr) as Hin by (apply elem_of_list_omap; by exists (l, s1)).
      rewrite O1 in Hin. by apply elem_of_replicate in Hin as [-> _].
  Qed.
End example.

Print Assumptions C86_shown_was_in_force.
Print Assumptions C86_lasting_entries_are_shown.
Print Assumptions C86_still_cache_is_shown_exactly.
Print Assumptions C86_shown_is_signed.
Print Assumptions C86_reading_has_no_effect.
Print Assumptions C86_deletions_are_invisible.
Print Assumptions C86_disabled.
Print Assumptions C86_decisions_follow_what_is_shown.
Print Assumptions C86_calls_return.
