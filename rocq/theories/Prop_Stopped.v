(** * Property C104: what expires comes back only while the goroutine of the cache runs
    The goroutine of a cache (gache's StartExpired) runs as long as the context given to Update, policy/daemon.go:187.
    Init gives the context of its errgroup (authorizerd.go:267, 280), which is cancelled when Init returns (:296), so the
    goroutine of the cache Init has made ends with Init; that of a later cache ends with the context of Start or with the
    next Update. *)
From Verif Require Import Prop_Expiry Prop_Unexpired Hooked SystemFacts SystemExec PolicyCheckers Prop_System Prop_Window Prop_Revoke.
From Verif Require Prop_PubKey Prop_Fetcher Prop_Authorizer Prop_Access.
From Verif Require Import GoStrings.

Section claims.
  Context (K : crypto) (X : jwt_ext) {O : Type} (U : unicode) (parse : str -> option (verifier K)).
  Context (cf : @sconf O) (doms : list str) (t0 : time) (n nk nj nu : nat) (calls : nat -> list bool).
  Notation s0 := (yinit K cf t0 n nk nj nu calls).
  Notation hrun := (hrun K X U parse cf doms (hinit K s0)).
  Notation hstep := (hstep K X U parse cf doms).
  Notation yrun := (yrun K X U parse cf s0).
  Notation happened := (happened K X U parse cf s0).
  Notation published_by := (published_by K X U parse cf s0).
  Notation hlabel := (@hlabel K O).
  Notation hsys := (hsys K).
  Notation now := (now K).

  (** ** Specification *)
  (** Every cache published so far has lost its goroutine, before that received an expired key. *)
  Definition stopped (ls : list hlabel) : Prop :=
    (forall m o, published_by (hsys ls) m o -> HEnd K o ∈ ls) /\ forall o k, HTake K o k ∉ ls.
  (** No Update publishes. *)
  Definition no_publication (ls : list hlabel) : Prop := forall m, HPublish K m ∉ ls.
  (** [key] is in the cache in use and has not expired. *)
  Definition alive (s : sys K) (key : str) : Prop :=
    exists c e, y_objs K s !! y_cur K s = Some c /\ c_g c !! key = Some e /\ g_valid (now s) e = true.

  (** ** Facts *)
  Lemma hsys_app (l1 l2 : list hlabel) : hsys (l1 ++ l2) = hsys l1 ++ hsys l2.
  Proof. unfold Hooked.hsys. by rewrite omap_app. Qed.
  Lemma hrun_prefix l1 l2 s : hrun (l1 ++ l2) s -> exists s1, hrun l1 s1.
  Proof.
    revert s. induction l2 as [|l l2 IH] using rev_ind; intros s H; [rewrite app_nil_r in H; by exists s|].
    rewrite app_assoc in H. apply hrun_snoc in H as (s' & H & _). by eapply IH.
  Qed.
  Lemma on_published ls s o q : hrun ls s -> h_exp K s !! o = Some (Expirer EOn q) -> exists m, published_by (hsys ls) m o.
  Proof.
    intros Hr. revert q. induction Hr as [|ls l s s' Hr IH Hs]; intros q Hx; [by destruct o as [|[|o]]|].
    assert (forall q, h_exp K s !! o = Some (Expirer EOn q) -> exists m, published_by (hsys (ls ++ [l])) m o) as Hold.
    { intros q' Hq. destruct (IH _ Hq) as [m Hm]. exists m. rewrite hsys_app. by apply published_mono. }
    pose proof Hs as Hs0. destruct Hs; cbn [h_exp] in Hx; try (by eapply Hold).
    - apply lookup_app_Some in Hx as [Hx|[Hge Hx]]; [by eapply Hold|]. apply list_lookup_singleton_Some in Hx as [Hz _].
      destruct (C90_one_goroutine_each _ _ _ _ _ _ _ _ _ _ _ _ _ _ Hr) as [Hlen _]. exists n0, (hsys ls), (h_sys K s), y.
      split; [rewrite hsys_app; apply happened_last; by apply C90_is_the_system in Hr|]. split; [done|].
      inversion H0; subst; cbn [set_upd publish y_objs] in *; [done|]. rewrite app_length in H1. split; [apply lookup_ge_None; lia|].
      rewrite lookup_app_r by lia. replace (o - length (y_objs K (h_sys K s)))%nat with 0%nat by lia. by eexists.
    - apply list_lookup_insert_Some in Hx as [(<- & Heq & _)|[_ Hx]]; [|by eapply Hold]. destruct x as [ph qq]. cbn in Heq. injection Heq as -> _. by eapply Hold.
    - apply list_lookup_insert_Some in Hx as [(<- & Heq & _)|[_ Hx]]; [|by eapply Hold]. by eapply Hold.
    - apply list_lookup_insert_Some in Hx as [(<- & Heq & _)|[_ Hx]]; [done|by eapply Hold].
  Qed.

  (** A call that has loaded the cache has a check. *)
  Lemma loaded_stays ls s i la sa : yrun ls s -> happened ls (YLoad K i) la sa -> exists k, y_chk K s !! i = Some (Some k).
  Proof.
    intros H. revert la sa. induction H as [|ls l s s' H IH Hs]; intros la sa Hh; [destruct Hh as [[? Hx] _]; by destruct la|].
    destruct (happened_snoc K X U parse cf s0 _ _ _ _ _ _ H Hh) as [Hh'|(Heq & -> & ->)].
    - destruct (IH _ _ Hh') as [k Hk]. destruct Hs; cbn [publish set_auth set_keys set_jwk set_fetch set_upd set_obj set_chk y_chk]; try (by exists k).
      + destruct (decide (i0 = i)) as [->|Hne]; [rewrite list_lookup_insert by (by eapply lookup_lt_Some); by eexists|rewrite list_lookup_insert_ne by done; by exists k].
      + destruct (decide (i0 = i)) as [->|Hne]; [rewrite list_lookup_insert by (by eapply lookup_lt_Some); by eexists|rewrite list_lookup_insert_ne by done; by exists k].
    - subst l. inversion Hs; subst. cbn [set_chk y_chk]. rewrite list_lookup_insert by (by eapply lookup_lt_Some). by eexists.
  Qed.
  Lemma hsys_split (ls : list hlabel) A C : hsys ls = A ++ C -> exists la lb, ls = la ++ lb /\ hsys la = A.
  Proof.
    revert A. induction ls as [|l ls IH]; intros A H; [exists [], []; by destruct A|]. unfold Hooked.hsys in *. cbn [omap list_omap] in H.
    destruct (hsys1 K l) as [y|] eqn:E.
    - destruct A as [|a A]; [by exists [], (l :: ls)|]. cbn in H. injection H as -> H. destruct (IH _ H) as (la & lb & -> & Hl). exists (l :: la), lb. split; [done|].
      cbn [omap list_omap]. rewrite E. by rewrite Hl.
    - destruct (IH _ H) as (la & lb & -> & Hl). exists (l :: la), lb. split; [done|]. cbn [omap list_omap]. by rewrite E.
  Qed.
  Lemma lift_prefix l1 l2 s A s2 : hrun (l1 ++ l2) s -> passed K X U parse cf s0 (hsys (l1 ++ l2)) (hsys l1 ++ A) s2 ->
    exists m2 m3 h2, l2 = m2 ++ m3 /\ hrun (l1 ++ m2) h2 /\ h_sys K h2 = s2 /\ hsys m2 = A.
  Proof.
    intros Hr [[C HC] Hr2]. rewrite hsys_app, <- app_assoc in HC. apply app_inv_head in HC. destruct (hsys_split _ _ _ HC) as (m2 & m3 & -> & <-).
    rewrite app_assoc in Hr. destruct (hrun_prefix _ _ _ Hr) as [h2 Hh2]. exists m2, m3, h2. split; [done|]. split; [done|]. split; [|done].
    pose proof (C90_is_the_system _ _ _ _ _ _ _ _ _ _ _ _ _ _ Hh2) as Hy2. rewrite hsys_app in Hy2. by eapply (yrun_det K X U parse cf s0).
  Qed.

  (** ** Theorems *)
  (** No hook runs until the next Update has published its cache; no key is received. *)
  Theorem C104_no_hook_without_goroutine l1 l2 s : hrun (l1 ++ l2) s -> stopped l1 -> no_publication l2 ->
    stopped (l1 ++ l2) /\ YHook K ∉ hsys (l1 ++ l2) /\ h_down K s = false.
  Proof.
    intros Hr Hst Hno. enough (stopped (l1 ++ l2)) as H.
    { split; [done|]. by destruct (untaken _ _ _ _ _ _ _ _ _ _ _ _ _ _ Hr (proj2 H)) as (_ & ? & ?). }
    revert s Hr. induction l2 as [|l l2 IH] using rev_ind; intros s Hr; [by rewrite app_nil_r|].
    rewrite app_assoc in Hr |- *. apply hrun_snoc in Hr as (s1 & Hr & Hs).
    assert (no_publication l2) as Hno2 by (intros m Hin; apply (Hno m), elem_of_app; by left).
    assert (forall m, l <> HPublish K m) as Hl by (intros m ->; apply (Hno m), elem_of_app; right; left).
    pose proof (IH Hno2 _ Hr) as [I1 I2]. split.
    - intros m o Hp. apply elem_of_app; left. apply (I1 m). rewrite hsys_app in Hp. cbn [Hooked.hsys omap list_omap] in Hp.
      pose proof (C90_is_the_system _ _ _ _ _ _ _ _ _ _ _ _ _ _ Hr) as Hy.
      destruct Hs; cbn [hsys1] in Hp; try (by rewrite app_nil_r in Hp).
      + destruct (published_snoc K X U parse cf t0 n nk nj nu calls _ _ _ _ _ _ Hy H1 Hp) as [?|(-> & Hn & Hsm)]; [done|].
        apply lookup_ge_None in Hn. apply lookup_lt_is_Some in Hsm. lia.
      + by destruct (Hl n0).
      + destruct (published_snoc K X U parse cf t0 n nk nj nu calls _ _ _ _ _ _ Hy H4 Hp) as [?|(? & _)]; done.
      + destruct (published_snoc K X U parse cf t0 n nk nj nu calls _ _ _ _ _ _ Hy H3 Hp) as [?|(? & _)]; done.
    - intros o k Hin. apply elem_of_app in Hin as [Hin|Hin]; [by eapply I2|]. apply elem_of_list_singleton in Hin as <-.
      inversion Hs as [| | |? ? ? q1 q2 _ Hx| | |]; subst. destruct (on_published _ _ _ _ Hr Hx) as [m Hm]. pose proof (phase_ended _ _ _ _ _ _ _ _ _ _ _ _ _ _ _ _ Hr Hx (I1 _ _ Hm)). done.
  Qed.

  (** Until then the cache in use stays the same, and its entries only go: a role that has expired does not come back. *)
  Theorem C104_gone_stays_gone l1 l2 s1 s key : hrun l1 s1 -> hrun (l1 ++ l2) s -> stopped l1 -> no_publication l2 ->
    y_cur K (h_sys K s) = y_cur K (h_sys K s1) /\ (alive (h_sys K s) key -> alive (h_sys K s1) key).
  Proof.
    intros Hr1 Hr Hst Hno.
    enough (y_cur K (h_sys K s) = y_cur K (h_sys K s1) /\ now (h_sys K s1) <= now (h_sys K s) /\
      exists c1 c, y_objs K (h_sys K s1) !! y_cur K (h_sys K s1) = Some c1 /\ y_objs K (h_sys K s) !! y_cur K (h_sys K s) = Some c /\ c_g c ⊆ c_g c1) as (H1 & H2 & c1 & c & H3 & H4 & H5).
    { split; [done|]. intros (c' & e & Hc & He & Hv). assert (c' = c) as -> by congruence. exists c1, e. split; [done|]. split; [by eapply lookup_weaken|].
      unfold g_valid in *. apply orb_true_iff in Hv as [Hv|Hv]; apply orb_true_iff; [by left|right]. apply Z.leb_le in Hv. apply Z.leb_le. lia. }
    revert s Hr. induction l2 as [|l l2 IH] using rev_ind; intros s Hr.
    - rewrite app_nil_r in Hr. pose proof (C90_is_the_system _ _ _ _ _ _ _ _ _ _ _ _ _ _ Hr) as Hy. pose proof (C90_is_the_system _ _ _ _ _ _ _ _ _ _ _ _ _ _ Hr1) as Hy1.
      assert (h_sys K s = h_sys K s1) as -> by (by eapply (yrun_det K X U parse cf s0)).
      split; [done|]. split; [lia|]. destruct (lookup_lt_is_Some_2 _ _ (cur_bound K X U parse cf t0 n nk nj nu calls _ _ Hy1)) as [c Hc]. by exists c, c.
    - assert (no_publication l2) as Hno2 by (intros m Hin; apply (Hno m), elem_of_app; by left).
      assert (forall m, l <> HPublish K m) as Hl by (intros m ->; apply (Hno m), elem_of_app; right; left).
      destruct (C104_no_hook_without_goroutine _ _ _ Hr Hst Hno) as (_ & Hh & _).
      rewrite app_assoc in Hr, Hh. pose proof Hr as Hr0. apply hrun_snoc in Hr as (s2 & Hr & Hs). destruct (IH Hno2 _ Hr) as (I1 & I2 & c1 & c & I3 & I4 & I5).
      pose proof (C90_is_the_system _ _ _ _ _ _ _ _ _ _ _ _ _ _ Hr) as Hy. pose proof (C90_is_the_system _ _ _ _ _ _ _ _ _ _ _ _ _ _ Hr0) as Hy0.
      assert (now (h_sys K s2) <= now (h_sys K s)) as Hclk.
      { rewrite hsys_app in Hy0. by apply (yrun_clock K X U parse cf s0 _ _ _ _ Hy Hy0). }
      assert (YHook K ∉ hsys (l1 ++ l2)) as Hh2 by (rewrite hsys_app in Hh; intros ?; apply Hh, elem_of_app; by left).
      destruct (objects_ok K X U parse cf t0 n nk nj nu calls _ _ (y_cur K (h_sys K s2)) Hy (unhooked K X U parse cf t0 n nk nj nu calls _ _ Hh2)) as [Hwork _].
      assert (forall yl y, ystep K X U parse cf yl (h_sys K s2) y -> yl <> YHook K -> length (y_objs K y) = length (y_objs K (h_sys K s2)) ->
        y_cur K y = y_cur K (h_sys K s2) /\ exists c', y_objs K y !! y_cur K (h_sys K s2) = Some c' /\ c_g c' ⊆ c_g c) as Hgo.
      { clear -I4 Hwork. revert I4 Hwork. generalize (h_sys K s2). intros y0 I4 Hwork yl y Hs Hl Hlen. destruct Hs; cbn [set_auth set_keys set_jwk set_fetch set_upd set_obj publish set_chk y_objs y_cur] in *; try (by split; [done|exists c]); try done.
        - exfalso. rewrite app_length in Hlen. cbn in Hlen. lia.
        - split; [done|]. destruct (decide (o = y_cur K s)) as [->|Hne]; [|rewrite list_lookup_insert_ne by done; by exists c].
          assert (c0 = c) as -> by congruence. rewrite list_lookup_insert by (by eapply lookup_lt_Some). eexists. split; [done|].
          destruct l as [i inp|k]; cbn [cstep] in H0; [by rewrite (Hwork _ I4) in H0|]. injection H0 as <-. cbn. apply delete_subseteq.
        - split; [done|]. destruct (decide (o = y_cur K s)) as [->|Hne]; [|rewrite list_lookup_insert_ne by done; by exists c].
          assert (c0 = c) as -> by congruence. cbn [cstep] in H2. by rewrite (Hwork _ I4) in H2. }
      assert (h_sys K s = h_sys K s2 \/ exists yl, ystep K X U parse cf yl (h_sys K s2) (h_sys K s) /\ yl <> YHook K /\ length (y_objs K (h_sys K s)) = length (y_objs K (h_sys K s2))) as Hcase.
      { rewrite hsys_app, elem_of_app in Hh. destruct Hs as [z yl y Hd Ho Hyl Hlen|z m y Hd Hyl Hlen|z o k cc e x y Hd Hc He Hv Hx Hyl|z o k q1 q2 Hd Hx|z o q Hd Hx|z k p1 p2 d cc y Hd Hp Hf Hc Hyl|z k p1 p2 Hd Hp Hf]; cbn [h_sys]; try (by left).
        - right. exists yl. split; [done|]. split; [by intros ->|done].
        - by destruct (Hl m).
        - right. exists (YObj K o (CDrop k)). split; [done|]. split; [done|]. inversion Hyl; subst. cbn [set_obj y_objs]. by rewrite insert_length.
        - exfalso. apply Hh. right. left. }
      destruct Hcase as [->|(yl & Hyl & Hne & Hlen)].
      + split; [done|]. split; [done|]. by exists c1, c.
      + destruct (Hgo _ _ Hyl Hne Hlen) as (G1 & c' & G2 & G3). split; [congruence|]. split; [lia|]. exists c1, c'. split; [done|]. rewrite G1. split; [done|]. by etransitivity.
  Qed.

  (** A check that begins after the goroutine has ended authorizes only roles that were alive when it ended; with none
      left, it refuses, whatever Athenz would answer. *)
  Theorem C104_authorizes_what_was_alive l1 l2 s1 s i acc lb sb q p a r : hrun l1 s1 -> hrun (l1 ++ l2) s -> stopped l1 -> no_publication l2 ->
    y_chk K (h_sys K s1) !! i = Some None ->
    happened (hsys (l1 ++ l2)) (YAuth K (ZPolicy K i (Ok acc))) lb sb -> z_tasks (y_auth K sb) !! i = Some (CCheck q p a r) ->
    acc <> [] /\ forall role, role ∈ acc -> role ∈ pr_roles p /\ alive (h_sys K s1) (key_of (pr_domain p) role).
  Proof.
    intros Hr1 Hr Hst Hno Hnone Hhb Hcheck. pose proof (C90_is_the_system _ _ _ _ _ _ _ _ _ _ _ _ _ _ Hr) as Hy.
    pose proof (C90_is_the_system _ _ _ _ _ _ _ _ _ _ _ _ _ _ Hr1) as Hy1.
    destruct (happened_step K X U parse cf t0 n nk nj nu calls _ _ _ _ _ Hy Hhb) as [s3 Hs].
    inversion Hs as [? ? ? _ Hok| | | | | | | | | | | |]; subst. cbn in Hok. destruct Hok as (k & Hk & Hret).
    pose proof Hhb as [[lc Hlc] Hrb]. destruct (checks_ok K X U parse cf t0 n nk nj nu calls _ _ Hrb _ _ Hk) as [_ (t & Ht2 & Hpc)].
    rewrite Hcheck in Ht2. injection Ht2 as <-. destruct Hpc as [[]|(q2 & p2 & Heq & Hd & Hro)]. injection Heq as <- <- -> ->.
    destruct (checks_began K X U parse cf t0 n nk nj nu calls _ _ Hrb _ _ Hk) as (la & sa & Hha & Hcur & c0 & kls & Hrun & Hv).
    destruct (success_refresh _ _ _ _ _ _ _ _ _ _ Hrun Hret) as [Hne Hall]. split; [done|].
    intros role Hin. destruct (Hall _ Hin) as [Hrole (cc & Hcc & x & (l & Hl & Hx) & _)]. rewrite Hro, Hd. split; [done|].
    (* the load comes after the stop *)
    assert (exists x, la = hsys l1 ++ x) as [y1 ->].
    { rewrite hsys_app in Hlc. destruct Hha as [[ld ->] Hra]. rewrite <- !app_assoc in Hlc. apply app_eq_inv in Hlc as [(zz & Hz & Hz')|(zz & Hz & _)]; [|by eexists].
      destruct zz as [|w zz]; [rewrite app_nil_r in Hz; exists []; by rewrite app_nil_r|]. cbn in Hz'. injection Hz' as <- _. exfalso.
      destruct (loaded_stays (hsys l1) (h_sys K s1) i la sa Hy1) as [k' Hk']; [split; [by eexists|done]|congruence]. }
    destruct (Hv _ Hcc) as (y2 & s2 & obj & Hp2 & Hobj & ->).
    assert (passed K X U parse cf s0 (hsys (l1 ++ l2)) ((hsys l1 ++ y1) ++ y2) s2) as Hp2' by (rewrite Hlc; by apply passed_mono).
    pose proof (passed_mono K X U parse cf s0) as Hpm.
    rewrite <- app_assoc in Hp2'. destruct (lift_prefix _ _ _ _ _ Hr Hp2') as (m2 & m3 & h2 & -> & Hh2 & Hs2 & Hm2).
    assert (no_publication m2) as Hno2 by (intros m Hm; apply (Hno m), elem_of_app; by left).
    destruct (C104_gone_stays_gone _ _ _ _ (key_of (k_dom k) role) Hr1 Hh2 Hst Hno2) as [Hc2 Hal].
    assert (y_cur K sa = y_cur K s2) as Hcc2.
    { assert (passed K X U parse cf s0 (hsys (l1 ++ m2 ++ m3)) (hsys l1 ++ y1) sa) as Hpa by (rewrite Hlc; apply passed_mono; destruct Hha as [[? ->] ?]; split; [by eexists|done]).
      destruct (lift_prefix _ _ _ _ _ Hr Hpa) as (n2 & n3 & g2 & Heq & Hg2 & Hsg & _).
      assert (no_publication n2) as Hno3 by (intros m Hm; apply (Hno m); rewrite Heq; apply elem_of_app; by left).
      destruct (C104_gone_stays_gone _ _ _ _ (key_of (k_dom k) role) Hr1 Hg2 Hst Hno3) as [Hc3 _]. congruence. }
    apply Hal. rewrite Hs2. rewrite g_view_lookup in Hl. unfold g_get in Hl.
    destruct (c_g obj !! key_of (k_dom k) role) as [e|] eqn:E; [|done]. destruct (g_valid (now s2) e) eqn:Ev; [|done].
    exists obj, e. split; [rewrite <- Hcc2, Hcur; done|done].
  Qed.
End claims.

Section example.
  Import Prop_PubKey Prop_Fetcher Prop_Authorizer Prop_Access.
  Notation hrun1 := (Hooked.hrun K1 X0 U0 parse1 wcf [B "dom"] (hinit K1 winit)).
  Notation stopped1 := (stopped K1 X0 U0 parse1 wcf t0 2 2 0 1 (fun _ => [false; false])).
  (** Init's Update has published its cache, Init returns and the goroutine ends; the policy expires, then a request comes. *)
  Definition zstop : list (@hcmd unit) :=
    xload wdoc 5 ++ [XEnd 1; XC (DTick (61 * second)); XFind 1 (B "dom:role.r1")] ++ map XC (wcall 0 3 3 2 (rq (B "/x") [])).
  (** The only document there is allows the request; it has expired, nothing fetches it again, the request is refused
      and so is, until the next Update publishes, every other. *)
  Theorem C104_expired_is_fetched_again_refuted : exists ls s q, hrun1 ls s /\ stopped1 ls /\ q = rq (B "/x") [] /\
    z_tasks (y_auth K1 (h_sys K1 s)) !! 0%nat = Some (CDone q (Err ErrNoMatch)) /\
    (forall d sp exp doc, SystemSpec.downloaded K1 X0 U0 parse1 wcf winit (hsys K1 ls) d sp -> content sp exp doc -> doc_allows U0 (B "dom") (B "get") (B "/p/x") doc (B "r1")) /\
    (forall l3 s3, hrun1 (ls ++ l3) s3 -> no_publication K1 l3 -> YHook K1 ∉ hsys K1 (ls ++ l3) /\ forall key, ~ alive K1 (h_sys K1 s3) key).
  Proof.
    assert (match hdrive K1 X0 U0 parse1 wcf [B "dom"] zstop [] (hinit K1 winit) with
      | Some (tr, s) => Some (match z_tasks (y_auth K1 (h_sys K1 s)) !! 0%nat with Some (CDone q (Err e)) => Some (q, e) | _ => None end,
          (publications K1 tr, ends K1 tr, replied (hsys K1 tr.*1)),
          (existsb (fun l => match l with HTake _ _ _ => true | _ => false end) tr.*1, match y_objs K1 (h_sys K1 s) !! y_cur K1 (h_sys K1 s) with Some c => Some (map fst (map_to_list (c_g c))) | None => None end))
      | None => None end = Some (Some (rq (B "/x") [], ErrNoMatch), ([(0%nat, 1%nat)], [(1%nat, 50 * second)], [pol1 (B "dom") wdoc (60 * second)]), (false, Some []))) as H by (vm_compute; reflexivity).
    destruct (hdrive _ _ _ _ _ _ zstop _ _) as [[tr s]|] eqn:E; [|discriminate H]. apply hdrive_run in E.
    assert (forall A C D (a a' : A) (b b' : C) (c c' : D), Some (a, b, c) = Some (a', b', c') -> a = a' /\ b = b' /\ c = c') as Hinj by (clear; intros; injection H as -> -> ->; done).
    apply Hinj in H as (Hz & Hb & Hc). clear Hinj.
    assert (forall A C (a a' : A) (b b' : C), (a, b) = (a', b') -> a = a' /\ b = b') as Hinj by (clear; intros; injection H as -> ->; done).
    apply Hinj in Hb as (Hb & Hrep). apply Hinj in Hb as (Hpub & Hend). apply Hinj in Hc as (Htk & Hobj). clear Hinj.
    assert (stopped1 tr.*1) as Hst.
    { split.
      - intros m o Hp. apply (publications_in _ _ _ _ _ _ _ _ _ _ _ _ _ _ _ _ E) in Hp. rewrite Hpub in Hp. apply elem_of_list_singleton in Hp. injection Hp as -> ->.
        assert ((1%nat, 50 * second) ∈ ends K1 tr) as Hin by (rewrite Hend; left). apply elem_of_list_omap in Hin as ([l s1] & Hin & He). destruct l; try discriminate He. injection He as -> _.
        apply elem_of_list_fmap. by exists (HEnd K1 1, s1).
      - intros o k Hin. assert (existsb (fun l => match l with HTake _ _ _ => true | _ => false end) tr.*1 = true) as Hx by (apply existsb_exists; exists (HTake K1 o k); split; [by apply elem_of_list_In|done]).
        rewrite Htk in Hx. discriminate Hx. }
    destruct E as (Hr & _ & _). exists tr.*1, s, (rq (B "/x") []). split; [exact Hr|]. split; [exact Hst|]. split; [reflexivity|]. split; [|split].
    - destruct (z_tasks (y_auth K1 (h_sys K1 s)) !! 0%nat) as [[| | | | | |q [p|e|]]|]; try discriminate Hz.
      assert (forall A C (a a' : A) (b b' : C), Some (a, b) = Some (a', b') -> a = a' /\ b = b') as Hinj by (clear; intros; injection H as -> ->; done).
      apply Hinj in Hz as [-> ->]. reflexivity.
    - intros d sp exp doc Hd (sd & pd & Hsd & _ & Hpd & Hdoc). apply downloaded_replied in Hd. rewrite Hrep in Hd. apply elem_of_list_singleton in Hd as ->.
      cbn in Hsd. injection Hsd as <-. cbn in Hpd. injection Hpd as <-. assert (doc = wdoc) as -> by (apply written_inj; exact (eq_sym Hdoc)).
      apply doc_allowsb_spec. vm_compute. reflexivity.
    - intros l3 s3 Hr3 Hno. destruct (C104_no_hook_without_goroutine _ _ _ _ _ _ _ _ _ _ _ _ _ _ _ Hr3 Hst Hno) as (_ & Hh & _). split; [exact Hh|].
      intros key Hal. destruct (C104_gone_stays_gone _ _ _ _ _ _ _ _ _ _ _ _ _ _ _ _ key Hr Hr3 Hst Hno) as [_ Hback]. destruct (Hback Hal) as (c & e & Hc & He & _).
      rewrite Hc in Hobj. assert (map fst (map_to_list (c_g c)) = []) as Hem by congruence. apply elem_of_map_to_list, elem_of_list_In, (in_map fst) in He. rewrite Hem in He. destruct He.
  Qed.
  (** With the goroutine: the hook fetches the document again and the same request, then, is granted. *)
  Definition zgoes : list (@hcmd unit) :=
    xload wdoc 5 ++ [XC (DTick (61 * second)); XFind 1 (B "dom:role.r1"); XTake 1 (B "dom:role.r1"); XRun (B "dom:role.r1")] ++
    map XC ([DSend 0 1; DReply 0 1 (Response 200 (B "b") (Doc (pol1 (B "dom") wdoc (200 * second)))); DObjTake 1 0 0 1 false] ++ replicate 5 (DObjWork 1 0) ++
      wcall 0 8 3 3 (rq (B "/x") []) ++ [DStore 0]).
  Example C104_with_goroutine : exists ls s p, hrun1 ls s /\ YHook K1 ∈ hsys K1 ls /\
    z_tasks (y_auth K1 (h_sys K1 s)) !! 0%nat = Some (CDone (rq (B "/x") []) (Ok p)) /\ pr_auth p = [B "r1"].
  Proof.
    assert (match xdrive1 zgoes with Some (ls, s) => Some (existsb (fun l => match l with HRun _ _ => true | _ => false end) ls, granted_at 0 (h_sys K1 s)) | None => None end
      = Some (true, Some (rq (B "/x") [], [B "r1"], B "dom"))) as H by (vm_compute; reflexivity).
    destruct (xdrive1 zgoes) as [[ls s]|] eqn:E; [|discriminate H]. apply xrun in E.
    assert (forall A C (a a' : A) (b b' : C), Some (a, b) = Some (a', b') -> a = a' /\ b = b') as Hinj by (clear; intros; injection H as -> ->; done).
    apply Hinj in H as (Hh & Hg). unfold granted_at in Hg. destruct (z_tasks (y_auth K1 (h_sys K1 s)) !! 0%nat) as [[| | | | | |q [p| |]]|] eqn:E0; try discriminate Hg.
    assert (forall A C D (a a' : A) (b b' : C) (c c' : D), Some (a, b, c) = Some (a', b', c') -> a = a' /\ b = b' /\ c = c') as Hinj3 by (clear; intros; injection H as -> -> ->; done).
    apply Hinj3 in Hg as (-> & Hp & _). exists ls, s, p. split; [exact E|]. split; [|by split].
    apply existsb_exists in Hh as (l & Hl & Hx). apply elem_of_list_omap. exists l. split; [by apply elem_of_list_In|]. by destruct l.
  Qed.
  (** The premises of the theorems with a role alive: the goroutine has ended, the policy has not expired, a call is
      granted by the check it begins then. *)
  Definition zalive : list (@hcmd unit) := map XC (removelast (wcall 0 8 3 3 (rq (B "/x") []))).
  Lemma hdrive_extends cs tr s tr' s' : hdrive K1 X0 U0 parse1 wcf [B "dom"] cs tr s = Some (tr', s') -> exists x, tr' = tr ++ x.
  Proof.
    revert tr s. induction cs as [|c cs IH]; intros tr s H; cbn [hdrive] in H; [injection H as <- _; exists []; by rewrite app_nil_r|].
    destruct (hexec _ _ _ _ _ _ c s) as [[l s1]|]; [|discriminate H]. destruct (IH _ _ H) as [x ->]. exists ((l, s) :: x). by rewrite <- app_assoc.
  Qed.
  Example C104_nonvacuous : exists l1 s1 l2 s acc lb sb p a r, hrun1 l1 s1 /\ hrun1 (l1 ++ l2) s /\ stopped1 l1 /\ no_publication K1 l2 /\
    y_chk K1 (h_sys K1 s1) !! 0%nat = Some None /\ SystemSpec.happened K1 X0 U0 parse1 wcf winit (hsys K1 (l1 ++ l2)) (YAuth K1 (ZPolicy K1 0 (Ok acc))) lb sb /\
    z_tasks (y_auth K1 sb) !! 0%nat = Some (CCheck (rq (B "/x") []) p a r) /\ acc = [B "r1"].
  Proof.
    set (dr := fun cs tr s => hdrive K1 X0 U0 parse1 wcf [B "dom"] cs tr s).
    assert (match dr (xload wdoc 5 ++ [XEnd 1]) [] (hinit K1 winit) with
      | Some (tr1, s1) => match dr zalive tr1 s1 with
        | Some (tr2, s2) => match hexec K1 X0 U0 parse1 wcf [B "dom"] (XC (DPolicy 0)) s2 with
          | Some (l, s3) => Some ((publications K1 tr1, ends K1 tr1, existsb (fun l => match l with HTake _ _ _ => true | _ => false end) tr1.*1),
              (match y_chk K1 (h_sys K1 s1) !! 0%nat with Some None => true | _ => false end, existsb (fun l => match l with HPublish _ _ => true | _ => false end) (drop (length tr1) tr2.*1)),
              (match l with HSys _ (YAuth _ (ZPolicy _ i (Ok acc))) => Some (i, acc) | _ => None end, match z_tasks (y_auth K1 (h_sys K1 s2)) !! 0%nat with Some (CCheck q _ _ _) => Some q | _ => None end))
          | None => None end
        | None => None end
      | None => None end = Some (([(0%nat, 1%nat)], [(1%nat, 50 * second)], false), (true, false), (Some (0%nat, [B "r1"]), Some (rq (B "/x") [])))) as H by (vm_compute; reflexivity).
    unfold dr in H. clear dr.
    destruct (hdrive _ _ _ _ _ _ (xload wdoc 5 ++ [XEnd 1]) _ _) as [[tr1 s1]|] eqn:E1; [|discriminate H].
    destruct (hdrive _ _ _ _ _ _ zalive _ _) as [[tr2 s2]|] eqn:E2; [|discriminate H].
    destruct (hexec _ _ _ _ _ _ _ s2) as [[l s3]|] eqn:E3; [|discriminate H].
    assert (forall A C D (a a' : A) (b b' : C) (c c' : D), Some (a, b, c) = Some (a', b', c') -> a = a' /\ b = b' /\ c = c') as Hinj by (clear; intros; injection H as -> -> ->; done).
    apply Hinj in H as (Ha & Hb & Hc). clear Hinj.
    assert (forall A C (a a' : A) (b b' : C), (a, b) = (a', b') -> a = a' /\ b = b') as Hinj by (clear; intros; injection H as -> ->; done).
    apply Hinj in Ha as [Ha Htk]. apply Hinj in Ha as [Hpub Hend]. apply Hinj in Hb as [Hchk Hno]. apply Hinj in Hc as [Hl Hq]. clear Hinj.
    apply hdrive_run in E1. pose proof (hdrive_traced _ _ _ _ _ _ _ _ _ _ _ _ _ _ _ _ _ E2 E1) as T2. destruct (hdrive_extends _ _ _ _ _ E2) as [x ->]. apply hexec_sound in E3.
    destruct T2 as (R2 & _ & _). rewrite fmap_app in R2, Hno. rewrite drop_app_alt in Hno by (by rewrite fmap_length).
    assert (l = HSys K1 (YAuth K1 (ZPolicy K1 0 (Ok [B "r1"])))) as ->.
    { destruct l as [[[]| | | | | | | | | | |]| | | | | |]; try discriminate Hl. destruct r; try discriminate Hl. injection Hl as -> ->. reflexivity. }
    pose proof (HR_snoc _ _ _ _ _ _ _ _ _ _ _ R2 E3) as R3. rewrite <- app_assoc in R3.
    destruct (z_tasks (y_auth K1 (h_sys K1 s2)) !! 0%nat) as [[| | | |q p a r| |]|] eqn:Ez; try discriminate Hq. injection Hq as ->.
    exists tr1.*1, s1, (x.*1 ++ [HSys K1 (YAuth K1 (ZPolicy K1 0 (Ok [B "r1"])))]), s3, [B "r1"], (hsys K1 (tr1.*1 ++ x.*1)), (h_sys K1 s2), p, a, r.
    split; [apply E1|]. split; [exact R3|]. split; [|split; [|split; [|split; [|split; [exact Ez|reflexivity]]]]].
    - split.
      + intros m o Hp. apply (publications_in _ _ _ _ _ _ _ _ _ _ _ _ _ _ _ _ E1) in Hp. rewrite Hpub in Hp. apply elem_of_list_singleton in Hp. injection Hp as -> ->.
        assert ((1%nat, 50 * second) ∈ ends K1 tr1) as Hin by (rewrite Hend; left). apply elem_of_list_omap in Hin as ([l s4] & Hin & He). destruct l; try discriminate He. injection He as -> _.
        apply elem_of_list_fmap. by exists (HEnd K1 1, s4).
      + intros o k Hin. assert (existsb (fun l => match l with HTake _ _ _ => true | _ => false end) tr1.*1 = true) as Hx by (apply existsb_exists; exists (HTake K1 o k); split; [by apply elem_of_list_In|done]).
        rewrite Htk in Hx. discriminate Hx.
    - intros m Hin. apply elem_of_app in Hin as [Hin|Hin]; [|apply elem_of_list_singleton in Hin; discriminate Hin].
      assert (existsb (fun l => match l with HPublish _ _ => true | _ => false end) x.*1 = true) as Hx by (apply existsb_exists; exists (HPublish K1 m); split; [by apply elem_of_list_In|done]).
      rewrite Hno in Hx. discriminate Hx.
    - destruct (y_chk K1 (h_sys K1 s1) !! 0%nat) as [[|]|]; try discriminate Hchk. reflexivity.
    - split; [|by apply C90_is_the_system in R2]. exists []. rewrite app_assoc, hsys_snoc. reflexivity.
  Qed.
End example.

Print Assumptions C104_no_hook_without_goroutine.
Print Assumptions C104_gone_stays_gone.
Print Assumptions C104_authorizes_what_was_alive.
Print Assumptions C104_expired_is_fetched_again_refuted.
