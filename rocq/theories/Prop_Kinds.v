(** * Properties C78 and C79: kinds of credentials, and the credentials of an HTTP request *)
From Verif Require Import AuthorizerFacts Prop_Authorizer.
From Verif Require Prop_Fetcher Prop_Access.

Section kinds.
  Context {K : crypto} {X : jwt_ext} {O : Type}.
  Implicit Types (cf : @zconf O) (s : zst) (ls : list (@zlabel K O)).

  (** ** C78 *)
  (** The text of [q] is a good token of kind [m] at time [now] with keys [ks], described by [p]. *)
  Definition good cf (m : mode) (ks : keys K) (now : time) (q : request) (p : principal) : Prop :=
    match m with
    | MRole => exists t, parse_and_validate K (ks_pub K ks) now (q_tok q) = Ok t /\ describes_role t p
    | MAccess => exists c, parse_access X (z_aconf cf) (ks_jwk K ks) now (q_tok q) (q_cert q) = Ok c /\ describes_access c p
    end.
  (** Call [i] called a token processor. *)
  Definition examined ls (i : nat) : Prop := exists ks, ZParse K i ks ∈ ls.

  Lemma evaluated_good cf s0 ls j q p tv : evaluated (X:=X) cf s0 ls j q p tv ->
    exists ks, ZParse K j ks ∈ ls /\ good cf (q_mode q) ks tv q p.
  Proof.
    intros (p0 & (ks & s2 & Hocc & _ & <- & Hp) & Hpp). exists ks. destruct Hocc as (l1 & l2 & -> & _).
    split; [apply elem_of_app; right; left|]. apply process_describes in Hp as [_ Hp].
    destruct Hp as [[-> (t & Ht1 & Hd)]|[-> (c & Hc & Hd)]]; cbn [good]; (eexists; split; [done|]);
      (destruct (z_policy cf); [|by subst]); destruct Hpp as (acc & _ & ->); exact Hd.
  Qed.
  Lemma clock_mono cf l s s' : zstep K X cf l s = Some s' -> z_clock s <= z_clock s'.
  Proof.
    intros H. destruct l; cbn [zstep] in H; repeat (case_match; try done); injection H as <-; cbn [set_task z_clock]; lia.
  Qed.
  (** A call that has called its processor is past its look-up. *)
  Lemma examined_past cf n t0 ls s i q : zrun K X cf ls (zinit n t0) = Some s -> examined ls i ->
    z_tasks s !! i <> Some CIdle /\ z_tasks s !! i <> Some (CLook q) /\ z_tasks s !! i <> Some (CParse q).
  Proof.
    intros H [ks Hin]. revert s q H. induction ls as [|l ls IH] using rev_ind; intros s q H; [by apply elem_of_nil in Hin|].
    apply zrun_snoc in H as (s1 & Hr & Hstep). destruct (own i l) eqn:Ho.
    - destruct l as [t|j q'|j|j ks'|j o|j r|j|k|]; cbn [own] in Ho; try done; apply Nat.eqb_eq in Ho as <-;
        cbn [zstep] in Hstep; destruct (z_tasks s1 !! i) as [[]|] eqn:E; try done;
        assert (i < length (z_tasks s1))%nat as Hlt by (by apply lookup_lt_Some in E);
        injection Hstep as <-; cbn [set_task z_tasks]; rewrite list_lookup_insert by done;
        try (by repeat case_match); exfalso; (apply elem_of_app in Hin as [Hin|Hin]; [|by apply elem_of_list_singleton in Hin]);
        pose proof (fun q => IH Hin _ q Hr) as Hno; rewrite E in Hno; naive_solver.
    - apply elem_of_app in Hin as [Hin|Hin].
      + rewrite (C54_calls_are_isolated _ _ _ _ _ Hstep Ho). by apply IH.
      + apply elem_of_list_singleton in Hin as <-. cbn [own] in Ho. by rewrite Nat.eqb_refl in Ho.
  Qed.
  (** A call that examined its token examined it as a token of its own kind. *)
  Theorem C78_examined_by_own_kind cf n t0 ls s i q p : zrun K X cf ls (zinit n t0) = Some s ->
    z_tasks s !! i = Some (CDone q (Ok p)) -> examined ls i ->
    exists ks now, ZParse K i ks ∈ ls /\ now <= z_clock s /\ good cf (q_mode q) ks now q p.
  Proof.
    intros H Hi Hex. revert s Hi H. induction ls as [|l ls IH] using rev_ind; intros s Hi H.
    { destruct Hex as [ks Hks]. by apply elem_of_nil in Hks. }
    apply zrun_snoc in H as (s1 & Hr & Hstep). pose proof (clock_mono _ _ _ _ Hstep) as Hmono.
    destruct (own i l) eqn:Ho.
    - destruct l as [t|j q'|j|j ks|j o|j r|j|k|]; cbn [own] in Ho; try done; apply Nat.eqb_eq in Ho as <-; cbn [zstep] in Hstep;
        destruct (z_tasks s1 !! i) as [[]|] eqn:E; try done; assert (i < length (z_tasks s1))%nat as Hlt by (by apply lookup_lt_Some in E);
        injection Hstep as <-; cbn [set_task z_tasks] in Hi; rewrite list_lookup_insert in Hi by done; try (by repeat case_match).
      + (* a hit: the call does not examine *)
        exfalso. destruct Hex as [ks Hks]. apply elem_of_app in Hks as [Hks|Hks]; [|by apply elem_of_list_singleton in Hks].
        destruct (examined_past _ _ _ _ _ i q0 Hr) as (_ & Hno & _); [by exists ks|done].
      + injection Hi as -> ->. destruct (machine_inv _ _ _ _ _ Hr) as (_ & Ht & _).
        destruct (Ht _ _ E) as (_ & _ & tv & Hev & Hle). destruct (evaluated_good _ _ _ _ _ _ _ Hev) as (ks & Hin & Hg).
        exists ks, tv. split; [apply elem_of_app; by left|]. split; [lia|done].
    - rewrite (C54_calls_are_isolated _ _ _ _ _ Hstep Ho) in Hi.
      assert (examined ls i) as Hex1.
      { destruct Hex as [ks Hks]. exists ks. apply elem_of_app in Hks as [Hks|Hks]; [done|].
        apply elem_of_list_singleton in Hks as <-. cbn [own] in Ho. by rewrite Nat.eqb_refl in Ho. }
      destruct (IH Hex1 _ Hi Hr) as (ks' & now & Hin & Hle & Hg). exists ks', now.
      split; [apply elem_of_app; by left|]. split; [lia|done].
  Qed.
  (** If all calls with the key of [q] are of its kind, an accepted [q] rests on a token that is good as
      that kind. *)
  Theorem C78_kinds_separate_partial cf n t0 ls s i q p : zrun K X cf ls (zinit n t0) = Some s ->
    z_tasks s !! i = Some (CDone q (Ok p)) ->
    (forall j q', ZCall K j q' ∈ ls -> cache_key cf q' = cache_key cf q -> q_mode q' = q_mode q) ->
    exists j q' ks now, ZCall K j q' ∈ ls /\ ZParse K j ks ∈ ls /\ cache_key cf q' = cache_key cf q /\
      now <= z_clock s /\ good cf (q_mode q) ks now q' p.
  Proof.
    intros H Hi Hall. destruct (C54_success_is_backed _ _ _ _ _ _ _ _ H Hi) as (j & q' & tv & ts & tl & Hk & Hcall & Hev & _ & _ & Hle & Hle2).
    destruct (evaluated_good _ _ _ _ _ _ _ Hev) as (ks & Hin & Hg). exists j, q', ks, tv.
    rewrite <- (Hall _ _ Hcall Hk). split_and!; try done. lia.
  Qed.
  (** The principal returned tells the kind it was validated as, so a caller that checks the kind of the
      principal is safe: access token principals come from access token calls. *)
  Definition kind_of (p : principal) : mode := match pr_client p with None => MRole | Some _ => MAccess end.
  Lemma good_kind cf m ks now q p : good cf m ks now q p -> kind_of p = m.
  Proof.
    unfold kind_of. destruct m; cbn [good].
    - by intros (t & _ & _ & _ & _ & _ & _ & ->).
    - by intros (c & _ & _ & _ & _ & _ & _ & ->).
  Qed.
  Theorem C78_principal_tells_kind cf n t0 ls s i q p : zrun K X cf ls (zinit n t0) = Some s ->
    z_tasks s !! i = Some (CDone q (Ok p)) ->
    exists j q' ks now, ZCall K j q' ∈ ls /\ ZParse K j ks ∈ ls /\ cache_key cf q' = cache_key cf q /\
      now <= z_clock s /\ q_mode q' = kind_of p /\ good cf (kind_of p) ks now q' p.
  Proof.
    intros H Hi. destruct (C54_success_is_backed _ _ _ _ _ _ _ _ H Hi) as (j & q' & tv & ts & tl & Hk & Hcall & Hev & _ & _ & Hle & Hle2).
    destruct (evaluated_good _ _ _ _ _ _ _ Hev) as (ks & Hin & Hg). exists j, q', ks, tv.
    pose proof (good_kind _ _ _ _ _ _ Hg) as ->. split_and!; try done. lia.
  Qed.

  (** ** C79 *)
  (** The word bearer and a blank, in any case. *)
  Definition bearer (b : str) : Prop :=
    Forall2 (fun c lu => c = fst lu \/ c = snd lu) b
      [("b", "B"); ("e", "E"); ("a", "A"); ("r", "R"); ("e", "E"); ("r", "R"); (" ", " ")]%char.
  (** The token of an Authorization header. *)
  Definition header_token (hdr tok : str) : Prop :=
    hdr <> [] /\ ((exists b, bearer b /\ hdr = b ++ tok) \/ ((forall b t, bearer b -> hdr <> b ++ t) /\ tok = hdr)).
  (** The leaf certificate of the TLS connection. *)
  Definition leaf (tls : option (list cert)) : option cert :=
    match tls with Some l => head l | None => None end.
  (** [q] is a credential of the HTTP request [r] on action [act] and resource [res]. *)
  Definition carries cf (r : http_request) (act res : str) (q : request) : Prop :=
    q_act q = act /\ q_res q = res /\ q_query q = h_query r /\
    match q_mode q with
    | MRole => z_role cf = true /\ q_tok q = h_role r /\ q_cert q = None
    | MAccess => z_access cf = true /\ header_token (h_authz r) (q_tok q) /\ q_cert q = leaf (h_tls r)
    end.

  (** All bytes with the same upper case. *)
  Definition bytes : list ascii := map ascii_of_nat (seq 0 256).
  Lemma all_bytes c : c ∈ bytes.
  Proof.
    unfold bytes. apply elem_of_list_fmap. exists (nat_of_ascii c). split; [by rewrite ascii_nat_embedding|].
    apply elem_of_seq. pose proof (nat_ascii_bounded c). lia.
  Qed.
  Definition same_letter (u l c : ascii) : bool := negb (Ascii.eqb (up c) u) || Ascii.eqb c l || Ascii.eqb c u.
  Lemma up_inv u l : forallb (same_letter u l) bytes = true -> forall c, up c = u -> c = l \/ c = u.
  Proof.
    intros H c Hc. rewrite forallb_forall in H. specialize (H c (proj1 (elem_of_list_In _ _) (all_bytes c))).
    unfold same_letter in H. rewrite Hc, Ascii.eqb_refl in H. cbn in H. apply orb_true_iff in H as [H|H]; apply Ascii.eqb_eq in H; tauto.
  Qed.
  Lemma bearer_up b : bearer b <-> map up b = B "BEARER ".
  Proof.
    unfold bearer. split.
    - intros H. repeat match goal with H : Forall2 _ _ (_ :: _) |- _ => apply Forall2_cons_inv_r in H as (? & ? & ? & ? & ->) end.
      match goal with H : Forall2 _ _ [] |- _ => apply Forall2_nil_inv_r in H as -> end.
      cbn in *. repeat match goal with H : _ \/ _ |- _ => destruct H as [-> | ->] end; reflexivity.
    - intros H. do 7 (destruct b as [|? b]; [discriminate H|]). destruct b; [|discriminate H].
      cbn [map] in H. change (B "BEARER ") with ["B"; "E"; "A"; "R"; "E"; "R"; " "]%char in H.
      injection H as H1 H2 H3 H4 H5 H6 H7.
      repeat (apply Forall2_cons; split; [cbn [fst snd]; (apply up_inv; [vm_compute; reflexivity|assumption])|]). apply Forall2_nil_2.
  Qed.
  Lemma extract_spec hdr tok : extract_token hdr = Ok tok <-> header_token hdr tok.
  Proof.
    assert (forall b t, bearer b -> take 7 (b ++ t) = b /\ drop 7 (b ++ t) = t /\ (6 < length (b ++ t))%nat) as Hb.
    { intros b t H. assert (length b = 7%nat) as Hl by (by apply Forall2_length in H).
      rewrite <- Hl, take_app, drop_app, app_length. split_and!; try done. lia. }
    unfold extract_token, header_token. destruct hdr as [|x hdr']; [split; [done|by intros [? _]]|]. set (hdr := x :: hdr').
    destruct ((6 <? length hdr)%nat && bool_decide (map up (take 7 hdr) = B "BEARER ")) eqn:E.
    - apply andb_true_iff in E as [_ E]. apply bool_decide_eq_true, bearer_up in E. split.
      + intros H. assert (tok = drop 7 hdr) as -> by (by injection H). split; [done|]. left. exists (take 7 hdr). by rewrite take_drop.
      + intros [_ [(b & H & Heq)|[H _]]].
        * destruct (Hb b tok H) as (_ & Hd & _). by rewrite Heq, Hd.
        * destruct (H _ (drop 7 hdr) E). by rewrite take_drop.
    - split.
      + intros [= <-]. split; [done|]. right. split; [|done]. intros b t H Heq. destruct (Hb b t H) as (Ht & _ & Hl).
        rewrite Heq, Ht in E. apply bearer_up in H. rewrite H in E. apply Nat.ltb_lt in Hl. rewrite Hl in E. discriminate E.
      + intros [_ [(b & H & Heq)|[_ ->]]]; [|done]. exfalso. destruct (Hb b tok H) as (Ht & _ & Hl).
        rewrite Heq, Ht in E. apply bearer_up in H. rewrite H in E. apply Nat.ltb_lt in Hl. rewrite Hl in E. discriminate E.
  Qed.
  Lemma extract_no_panic hdr : extract_token hdr <> Panic.
  Proof. unfold extract_token. destruct hdr; [done|]. by case_match. Qed.
  Lemma header_token_unique hdr t t' : header_token hdr t -> header_token hdr t' -> t = t'.
  Proof. intros H H'. apply extract_spec in H, H'. rewrite H in H'. by injection H'. Qed.
  Lemma leaf_match tls : match tls with Some (ct :: _) => Some ct | _ => None end = leaf tls.
  Proof. by destruct tls as [[]|]. Qed.

  (** The moment at which the loop over the authorizers reaches a credential (see [authorize_loop]). *)
  Definition slot cf (m : mode) : nat := match m with MRole => 0 | MAccess => if z_role cf then 1 else 0 end.
  Lemma at_carries cf r act res e c : 
    at_authorizer K X r act res cf e c =
    match extract_token (h_authz r) with
    | Ok tok => authorize K X cf e (Req MAccess tok act res (h_query r) (leaf (h_tls r))) c
    | Err er => (Err er, c)
    | Panic => (Panic, c)
    end.
  Proof. unfold at_authorizer. by rewrite leaf_match. Qed.
  (** An HTTP request is accepted only on a credential it carries: the bearer token with the leaf
      certificate of its connection, or the role token header; a failed attempt before leaves the cache
      alone. *)
  Theorem C79_accepted_on_carried_credential cf rc r act res l es c p c' : authorizers K X rc cf r act res = Some l ->
    authorize_loop K cf l es c = (Ok p, c') ->
    exists q, carries cf r act res q /\ authorize K X cf (es (slot cf (q_mode q))) q c = (Ok p, c').
  Proof.
    intros Hl H. pose proof (authorizers_keep _ _ _ _ _ _ Hl) as Hkeep. rewrite C47_order in Hl.
    assert (forall e, at_authorizer K X r act res cf e c = (Ok p, c') -> z_access cf = true -> exists q, carries cf r act res q /\ q_mode q = MAccess /\ authorize K X cf e q c = (Ok p, c')) as Hat.
    { intros e He Hon. rewrite at_carries in He. destruct (extract_token (h_authz r)) as [tok| |] eqn:Et; [|done..].
      apply extract_spec in Et. eexists. split; [|split; [|exact He]]; [|done]. by split_and!. }
    assert (forall e, rt_authorizer K X r act res cf e c = (Ok p, c') -> z_role cf = true -> exists q, carries cf r act res q /\ q_mode q = MRole /\ authorize K X cf e q c = (Ok p, c')) as Hrt.
    { intros e He Hon. eexists. split; [|split; [|exact He]]; [|done]. by split_and!. }
    assert (l = (if rc then [rc_authorizer K r act res] else []) ++ (if z_access cf then [at_authorizer K X r act res] else []) ++
                        (if z_role cf then [rt_authorizer K X r act res] else [])) as ->.
    { destruct rc, (z_access cf), (z_role cf); try done; by injection Hl. }
    clear Hl. unfold slot.
    assert (authorize_loop K cf ((if z_access cf then [at_authorizer K X r act res] else []) ++
                        (if z_role cf then [rt_authorizer K X r act res] else [])) es c = (Ok p, c')) as H'.
    { destruct rc; exact H. }
    clear H. rename H' into H. destruct (z_access cf); cbn [app authorize_loop] in H.
    - destruct (at_authorizer K X r act res cf _ c) as [[p0|er|] c0] eqn:Ea; [| |done].
      + injection H as -> ->. destruct (Hat _ Ea eq_refl) as (q & Hc & Hm & Hq). exists q. rewrite Hm. destruct (z_role cf); done.
      + assert (c0 = c) as ->.
        { apply Forall_app in Hkeep as [_ Hkeep]. apply Forall_app in Hkeep as [Hkeep _]. apply Forall_inv in Hkeep. by eapply Hkeep. }
        destruct (z_role cf); cbn [authorize_loop] in H; [|done].
        destruct (rt_authorizer K X r act res cf _ c) as [[p0|er'|] c0] eqn:Er; [|done..]. injection H as -> ->.
        destruct (Hrt _ Er eq_refl) as (q & Hc & Hm & Hq). exists q. by rewrite Hm.
    - destruct (z_role cf); cbn [authorize_loop] in H; [|done].
      destruct (rt_authorizer K X r act res cf _ c) as [[p0|er'|] c0] eqn:Er; [|done..]. injection H as -> ->.
      destruct (Hrt _ Er eq_refl) as (q & Hc & Hm & Hq). exists q. by rewrite Hm.
  Qed.
  (** Conversely a carried credential that is good is enough (unless another one makes its check panic). *)
  Theorem C79_carried_credential_suffices cf rc r act res l es c q p c' : authorizers K X rc cf r act res = Some l ->
    carries cf r act res q -> authorize K X cf (es (slot cf (q_mode q))) q c = (Ok p, c') ->
    (forall q', carries cf r act res q' -> fst (authorize K X cf (es (slot cf (q_mode q'))) q' c) <> Panic) ->
    exists p2 c2, authorize_loop K cf l es c = (Ok p2, c2).
  Proof.
    intros Hl Hq Ha Hnp. pose proof (authorizers_keep _ _ _ _ _ _ Hl) as Hkeep. rewrite C47_order in Hl.
    assert (l = (if rc then [rc_authorizer K r act res] else []) ++ (if z_access cf then [at_authorizer K X r act res] else []) ++
                        (if z_role cf then [rt_authorizer K X r act res] else [])) as ->.
    { destruct rc, (z_access cf), (z_role cf); try done; by injection Hl. }
    clear Hl.
    assert (exists p2 c2, authorize_loop K cf ((if z_access cf then [at_authorizer K X r act res] else []) ++
                        (if z_role cf then [rt_authorizer K X r act res] else [])) es c = (Ok p2, c2)) as H'; [|destruct rc; exact H'].
    destruct Hq as (Hact & Hres & Hqu & Hm). destruct (z_access cf) eqn:Eacc.
    - cbn [app authorize_loop]. replace (length (if z_role cf then [rt_authorizer K X r act res] else [])) with (slot cf MAccess) by (cbn; by destruct (z_role cf)).
      destruct (at_authorizer K X r act res cf _ c) as [[p0|er|] c0] eqn:Eat; [by eauto| |].
      + assert (c0 = c) as ->.
        { apply Forall_app in Hkeep as [_ Hkeep]. apply Forall_app in Hkeep as [Hkeep _]. apply Forall_inv in Hkeep. by eapply Hkeep. }
        destruct q as [m tok a rs qu ct]; cbn [q_mode q_tok q_act q_res q_query q_cert] in *. subst a rs qu. destruct m.
        * destruct Hm as (Hon & -> & ->). rewrite Hon. cbn [authorize_loop length]. unfold rt_authorizer. cbn [slot] in Ha. rewrite Ha. by eauto.
        * destruct Hm as (_ & Ht & ->). apply extract_spec in Ht. rewrite at_carries, Ht, Ha in Eat. done.
      + exfalso. rewrite at_carries in Eat. destruct (extract_token (h_authz r)) as [tok| |] eqn:Et; [| done|by apply extract_no_panic in Et].
        apply extract_spec in Et. eapply (Hnp (Req MAccess tok act res (h_query r) (leaf (h_tls r)))); [by split_and!|].
        cbn [q_mode]. by rewrite Eat.
    - destruct q as [m tok a rs qu ct]; cbn [q_mode q_tok q_act q_res q_query q_cert] in *. subst a rs qu. destruct m.
      + destruct Hm as (Hon & -> & ->). rewrite Hon. cbn [app authorize_loop length]. unfold rt_authorizer. cbn [slot] in Ha. rewrite Ha. by eauto.
      + by destruct Hm.
  Qed.
  (** A request carries at most one credential of each kind, and the rest of it has no influence. *)
  Theorem C79_one_credential_per_kind cf r act res q q' : carries cf r act res q -> carries cf r act res q' -> q_mode q = q_mode q' -> q = q'.
  Proof.
    destruct q as [m tok a rs qu ct], q' as [m' tok' a' rs' qu' ct']. intros (H1 & H2 & H3 & H4) (H1' & H2' & H3' & H4') Hm.
    cbn [q_mode q_tok q_act q_res q_query q_cert] in *. subst. destruct m'.
    - by destruct H4 as (_ & -> & ->), H4' as (_ & -> & ->).
    - destruct H4 as (_ & Ht & ->), H4' as (_ & Ht' & ->). by rewrite (header_token_unique _ _ _ Ht Ht').
  Qed.
End kinds.

(** ** C78: witnesses *)
(** A role token, accepted once as such, is accepted as an access token, although it is no access token
    with any keys at any time; certificate binding is on and there is no certificate. *)
Definition bound_conf := cfz true (60 * second) (AConf true 0 0 false ∅).
Definition mixed : list (@zlabel K1 unit) :=
  call 0 (rq (B "/a") []) ++ [ZCall K1 1 (Req MAccess rtok (B "get") (B "/a") [] None); ZLook K1 1].
Lemma role_token_is_no_access_token ks now p : ~ good (K:=K1) (X:=X0) bound_conf MAccess ks now (Req MAccess rtok (B "get") (B "/a") [] None) p.
Proof.
  intros (c & Hc & _). cbn [q_tok q_cert] in Hc. destruct (ks_jwk K1 ks) as [jp|]; [|discriminate Hc].
  apply Prop_Access.C38_binding_exact in Hc as [_ (crt & Heq & _)]; [|reflexivity]. discriminate Heq.
Qed.
Theorem C78_kinds_separate_refuted : ~ forall (cf : @zconf unit) n t0 ls s i q p,
  zrun K1 X0 cf ls (zinit n t0) = Some s -> z_tasks s !! i = Some (CDone q (Ok p)) ->
  exists ks now p', good (K:=K1) (X:=X0) cf (q_mode q) ks now q p'.
Proof.
  intros H.
  destruct (done_at_run 1 (run1 bound_conf mixed 2) (Req MAccess rtok (B "get") (B "/a") [] None) pr1) as (s & E & Hi); [vm_compute; reflexivity|].
  destruct (H _ _ _ _ _ _ _ _ E Hi) as (ks & now & p' & Hg). by apply role_token_is_no_access_token in Hg.
Qed.
(** And a certificate-bound access token, accepted once with its certificate, is accepted in the role
    token header of a request without any certificate. *)
Definition stolen : request := Req MRole (atok ++ B ":ca:svc") (B "get") (B "/a") [] None.
Theorem C78_bound_token_as_role_token_refuted : ~ forall (cf : @zconf unit) n t0 ls s i q p,
  a_bound (z_aconf cf) = true -> zrun K1 X0 cf ls (zinit n t0) = Some s -> z_tasks s !! i = Some (CDone q (Ok p)) ->
  q_cert q = None -> kind_of p = MRole.
Proof.
  intros H.
  destruct (done_at_run 1 (zrun K1 X0 bound_conf (call 0 (aq atok (Some Prop_Access.crt0)) ++ [ZCall K1 1 stolen; ZLook K1 1]) (zinit 2 (150 * second))) stolen
    (Principal (B "user") [B "r1"; B "r2"] (B "dom") 100 200 [B "r1"] (Some (B "svc")))) as (s & E & Hi); [vm_compute; reflexivity|].
  assert (kind_of (Principal (B "user") [B "r1"; B "r2"] (B "dom") 100 200 [B "r1"] (Some (B "svc"))) = MRole) as Hk; [|discriminate Hk].
  exact (H bound_conf _ _ _ _ _ _ _ eq_refl E Hi eq_refl).
Qed.
Example C78_nonvacuous :
  map ok_name (results (run1 bound_conf mixed 2)) = [Some (B "user"); Some (B "user")] /\
  map ok_name (results (run1 bound_conf (call 0 (rq (B "/a") []) ++ call 1 (Req MAccess rtok (B "get") (B "/b") [] None)) 2)) = [] /\
  map ok_name (results (run1 bound_conf (call 0 (rq (B "/a") []) ++ firstn 3 (call 1 (Req MAccess rtok (B "get") (B "/b") [] None))) 2)) = [Some (B "user"); None].
Proof. split_and!; vm_compute; reflexivity. Qed.

(** C79 *)
Example C79_nonvacuous :
  let r := HReq (Some [Prop_Access.crt0; other_cert]) (B "bEaReR " ++ atok) rtok (B "x=1") in
  header_token (h_authz r) atok /\ header_token (B "bearer") (B "bearer") /\ header_token (B "Bearer ") [] /\
  carries cf_on r (B "get") (B "/a") (Req MAccess atok (B "get") (B "/a") (B "x=1") (Some Prop_Access.crt0)) /\
  carries cf_on r (B "get") (B "/a") (Req MRole rtok (B "get") (B "/a") (B "x=1") None) /\
  name_of (http false true true r (B "/a") (150 * second)) = Some (B "user").
Proof.
  cbn zeta. assert (header_token (B "bEaReR " ++ atok) atok) as H by (apply extract_spec; vm_compute; reflexivity).
  split_and!; try (apply extract_spec; vm_compute; reflexivity); try (vm_compute; reflexivity); try done.
Qed.

Print Assumptions C78_examined_by_own_kind.
Print Assumptions C78_kinds_separate_partial.
Print Assumptions C78_principal_tells_kind.
Print Assumptions C78_kinds_separate_refuted.
Print Assumptions C78_bound_token_as_role_token_refuted.
Print Assumptions C79_accepted_on_carried_credential.
Print Assumptions C79_carried_credential_suffices.
Print Assumptions C79_one_credential_per_kind.
