(** * Property C92: the public methods over the whole system *)
From Verif Require Import Prop_Jwk Prop_Role Prop_Access RoleProofs Prop_System ApiFacts.
From Verif Require Prop_Kinds Prop_RoleCert.
From Verif Require Import GoStrings.

Section claims.
  Context (K : crypto) (X : jwt_ext) {O : Type} (U : unicode) (parse : str -> option (verifier K)).
  Context (cf : @vconf O) (t0 : time) (n nk nj nu m : nat) (calls : nat -> list bool).
  Notation y0 := (yinit K (v_sys cf) t0 n nk nj nu calls).
  Notation arun := (arun K X U parse cf (ainit K y0 m)).
  Notation yrun := (yrun K X U parse (v_sys cf) y0).
  Notation zc := (s_z (v_sys cf)).
  Notation happened := (happened K X U parse (v_sys cf) y0).
  Notation took := (took K X U parse (v_sys cf) y0).
  Notation published_by := (published_by K X U parse (v_sys cf) y0).
  Notation downloaded := (downloaded K X U parse (v_sys cf) y0).
  Notation genuine := (genuine K X parse (v_sys cf)).
  Notation tame := (tame K X U parse (v_sys cf) t0 n nk nj nu calls).
  Notation chk_view := (chk_view K X U parse (v_sys cf) t0 n nk nj nu calls).
  Notation went := (went K).
  Notation steps := (sys_steps K).

  (** [q] is a credential handed to the method. *)
  Definition credential (c : apicall) (q : request) : Prop :=
    match c with
    | VRole _ tok act res => q = Req MRole tok act res [] None
    | VAccess _ tok act res crt => q = Req MAccess tok act res [] crt
    | VHttp _ r act res => Prop_Kinds.carries zc r act res q
    | VCert _ _ _ | VCertP _ _ _ => False
    end.
  Definition about_tokens (c : apicall) : Prop := match c with VCert _ _ _ | VCertP _ _ _ => False | _ => True end.
  (** Verify* return no principal. *)
  Definition verifies (c : apicall) : Prop := match c with VRole v _ _ _ | VAccess v _ _ _ _ | VHttp v _ _ _ => v = true | _ => True end.

  Lemma tries_credential c q : TReq q ∈ tries cf c <-> credential c q.
  Proof.
    destruct c as [v tok act res|v tok act res crt|v r act res|certs act res|certs act res]; cbn [tries credential].
    - rewrite elem_of_list_singleton. split; [by intros [= ->]|by intros ->].
    - rewrite elem_of_list_singleton. split; [by intros [= ->]|by intros ->].
    - unfold http_tries, Prop_Kinds.carries. rewrite !elem_of_app. split.
      + intros [H|[H|H]].
        * destruct (v_rc cf); [|by apply elem_of_nil in H]. by apply elem_of_list_singleton in H.
        * destruct (z_access zc) eqn:Ea; [|by apply elem_of_nil in H]. apply elem_of_list_singleton in H.
          destruct (extract_token (h_authz r)) as [tok| |] eqn:Et; try done. apply Prop_Kinds.extract_spec in Et.
          injection H as ->. cbn. split_and!; try done.
        * destruct (z_role zc) eqn:Ea; [|by apply elem_of_nil in H]. apply elem_of_list_singleton in H. injection H as ->. done.
      + destruct q as [md tok a rs qu ct]; cbn. intros (-> & -> & -> & Hm). destruct md.
        * destruct Hm as (-> & -> & ->). right. right. apply elem_of_list_singleton. done.
        * destruct Hm as (-> & Ht & ->). right. left. apply Prop_Kinds.extract_spec in Ht. rewrite Ht. apply elem_of_list_singleton.
          by rewrite Prop_Kinds.leaf_match.
    - split; [by intros ?%elem_of_nil|done].
    - split; [by intros ?%elem_of_nil|done].
  Qed.

  (** ** Methods about tokens *)
  (** Seen from the rest of the system the methods are calls of authorize and nothing else, so everything proved of the
      system holds with the public methods in place of arbitrary calls. *)
  Theorem C92_methods_are_authorize_calls ls s : arun ls s -> yrun (steps ls) (a_sys K s).
  Proof. apply arun_sys. Qed.

  Definition method_of (t : atask) : option apicall :=
    match t with AIdle => None | ALoop c _ | AWait c _ _ | ADom c _ _ | ACheck c _ _ | ARet c _ => Some c end.
  Lemma entered ls s : arun ls s -> forall a t c, a_tasks K s !! a = Some t -> method_of t = Some c -> exists order, AEnter K a c order ∈ ls.
  Proof.
    intros H. induction H as [|ls l s s' H IH Hs]; intros a t c Ht Hc.
    { cbn in Ht. apply lookup_replicate in Ht as [-> _]. done. }
    assert (forall b u, <[b := u]> (a_tasks K s) !! a = Some t -> (b = a -> t = u -> exists order, AEnter K a c order ∈ ls ++ [l]) ->
      exists order, AEnter K a c order ∈ ls ++ [l]) as Hset.
    { intros b u Hb Hu. apply list_lookup_insert_Some in Hb as [(-> & <- & _)|[_ Hb]]; [by apply Hu|].
      destruct (IH _ _ _ Hb Hc) as [order ?]. exists order. apply elem_of_app. by left. }
    assert (forall b u, a_tasks K s !! b = Some u -> method_of u = Some c -> b = a -> exists order, AEnter K a c order ∈ ls ++ [l]) as Hold.
    { intros b u Hb Hu ->. destruct (IH _ _ _ Hb Hu) as [order ?]. exists order. apply elem_of_app. by left. }
    destruct Hs; cbn [set_at a_tasks] in Ht.
    1:{ destruct (IH _ _ _ Ht Hc) as [order ?]. exists order. apply elem_of_app. by left. }
    all: eapply Hset; [exact Ht|intros Hba ->].
    - exists order. apply elem_of_app. right. apply elem_of_list_singleton. subst.
      assert (c0 = c) as ->; [|done]. unfold enter in Hc. destruct c0; repeat case_match; cbn in Hc; congruence.
    - by eapply Hold.
    - by eapply Hold.
    - by eapply Hold.
    - eapply Hold; [done| |done]. destruct r; [done| |done]. by destruct c0.
    - by eapply Hold.
    - by eapply Hold.
    - eapply Hold; [done| |done]. by destruct r.
    - by eapply Hold.
  Qed.
  (** Whatever authorize is working on or has answered was handed to it by a method that had been called with this
      credential. *)
  Theorem C92_calls_come_from_methods ls s i t q : arun ls s -> z_tasks (y_auth K (a_sys K s)) !! i = Some t -> about t = Some q ->
    exists a c order, AEnter K a c order ∈ ls /\ ACall K a i q ∈ ls /\ credential c q.
  Proof.
    intros Hr Hi Hq. pose proof (run_auth K X U parse (v_sys cf) t0 n nk nj nu calls _ _ (C92_methods_are_authorize_calls _ _ Hr)) as Hz.
    destruct (machine_inv _ _ _ _ _ Hz) as (_ & Ht & _). specialize (Ht _ _ Hi).
    assert (ZCall K i q ∈ auths K (steps ls)) as Hin.
    { destruct t as [| | | | | |? []]; try done; injection Hq as ->; cbn [task_inv] in Ht; tauto. }
    clear Hi Hq Ht Hz t. induction Hr as [|ls l s s' Hr IH Hs]; [by apply elem_of_nil in Hin|].
    rewrite sys_steps_snoc in Hin. unfold auths in Hin. rewrite map_app, concat_app, elem_of_app in Hin. destruct Hin as [Hin|Hin].
    { destruct (IH Hin) as (a & c & order & H1 & H2 & H3). exists a, c, order. rewrite !elem_of_app. tauto. }
    destruct Hs as [s l y Hy Hn| |s a i' c q' ts y Ha Hy| | | | | | |]; cbn in Hin; try (by apply elem_of_nil in Hin).
    - exfalso. destruct l as [z| | | | | | | | | | |]; cbn in Hin; try (by apply elem_of_nil in Hin). apply elem_of_list_singleton in Hin as <-. done.
    - apply elem_of_list_singleton in Hin as [= <- <-]. destruct (entered _ _ Hr _ _ _ Ha eq_refl) as [order Ho].
      exists a, c, order. rewrite !elem_of_app. split; [by left|]. split; [right; by apply elem_of_list_singleton|].
      apply tries_credential. destruct (tasks_ok _ _ _ _ _ _ _ _ _ _ _ _ _ _ Hr _ _ Ha) as (_ & pre & -> & _). apply elem_of_app. right. left.
  Qed.

  (** A method accepts only because authorize accepted a credential handed to it, and the principal it returns is that of
      this call. *)
  Theorem C92_accepted_by_authorize ls s a c r : arun ls s -> a_tasks K s !! a = Some (ARet c (Ok r)) -> about_tokens c ->
    exists i q p, credential c q /\ z_tasks (y_auth K (a_sys K s)) !! i = Some (CDone q (Ok p)) /\
      (verifies c /\ r = None \/ ~ verifies c /\ r = Some p).
  Proof.
    intros Hr Ha Hc. pose proof (tasks_ok _ _ _ _ _ _ _ _ _ _ _ _ _ _ Hr _ _ Ha) as H.
    assert (exists q p, TReq q ∈ tries cf c /\ went (a_sys K s) q (Ok p) /\ r = reply_of c p) as (q & p & Hq & [i Hi] & ->) by (by destruct c).
    exists i, q, p. split; [by apply tries_credential|]. split; [done|].
    destruct c as [[]|[]|[]| |]; cbn; try done; try (by left); right; (split; [|done]); done.
  Qed.
  (** A method rejects only after authorize has rejected every credential handed to it; the direct methods hand on its
      error, Verify and Authorize always return the same one. *)
  Theorem C92_rejected_by_authorize ls s a c e : arun ls s -> a_tasks K s !! a = Some (ARet c (Err e)) -> about_tokens c ->
    forall q, credential c q -> exists i e', z_tasks (y_auth K (a_sys K s)) !! i = Some (CDone q (Err e')) /\
      match c with VHttp _ _ _ _ => e = ErrInvalidCredentials | _ => e = e' end.
  Proof.
    intros Hr Ha Hc q Hq. apply tries_credential in Hq. pose proof (tasks_ok _ _ _ _ _ _ _ _ _ _ _ _ _ _ Hr _ _ Ha) as H.
    destruct c; try done; cbn [task_ok] in H.
    - destruct H as (q1 & Hq1 & [i Hi]). rewrite Hq1, elem_of_list_singleton in Hq. injection Hq as ->. by exists i, e.
    - destruct H as (q1 & Hq1 & [i Hi]). rewrite Hq1, elem_of_list_singleton in Hq. injection Hq as ->. by exists i, e.
    - destruct H as [-> Hf]. destruct (Hf _ Hq) as (e' & i & Hi). by exists i, e'.
  Qed.
  Theorem C92_panics_with_authorize ls s a c : arun ls s -> a_tasks K s !! a = Some (ARet c Panic) ->
    exists i q, credential c q /\ z_tasks (y_auth K (a_sys K s)) !! i = Some (CDone q Panic).
  Proof.
    intros Hr Ha. pose proof (tasks_ok _ _ _ _ _ _ _ _ _ _ _ _ _ _ Hr _ _ Ha) as H. cbn [task_ok] in H.
    destruct c; try done.
    all: try (destruct H as (q & Hq & i & Hi); exists i, q; split; [by apply tries_credential|done]).
    destruct H as (k & ((c0 & kls & Hrun & _) & _) & Hret). by pose proof (returned_inv _ _ _ _ _ _ _ _ _ _ Hrun Hret).
  Qed.
  (** C71 for the methods. *)
  Theorem C92_accepted_is_authorized ls s a c r : arun ls s -> a_tasks K s !! a = Some (ARet c (Ok r)) -> about_tokens c ->
    exists q p j q' p0 l1 s1, credential c q /\ (verifies c /\ r = None \/ ~ verifies c /\ r = Some p) /\
      cache_key zc q' = cache_key zc q /\
      happened (steps ls) (YAuth K (ZParse K j (keys_now K (v_sys cf) s1))) l1 s1 /\ genuine l1 (now K s1) q' p0 /\
      if z_policy zc then
        exists l2 s2 o act res acc, happened (steps ls) (YAuth K (ZPolicy K j (Ok acc))) l2 s2 /\
          target zc o p0 q' = Ok (act, res) /\ p = with_auth p0 acc /\ acc <> [] /\
          forall role, role ∈ acc -> role ∈ pr_roles p0 /\
            exists d sp exp doc, downloaded l2 d sp /\ content sp exp doc /\ doc_allows U (pr_domain p0) act res doc role
      else p = p0.
  Proof.
    intros Hr Ha Hc. destruct (C92_accepted_by_authorize _ _ _ _ _ Hr Ha Hc) as (i & q & p & Hq & Hi & Hres).
    destruct (C71_accepted_is_authorized _ _ _ _ _ _ _ _ _ _ _ _ _ _ _ _ (arun_sys _ _ _ _ _ _ _ _ _ _ _ _ _ _ Hr) Hi)
      as (j & q' & p0 & l1 & s1 & Hk & Hh & Hg & Hp).
    exists q, p, j, q', p0, l1, s1. split_and!; try done. destruct (z_policy zc); [|done].
    destruct Hp as (l2 & s2 & o & act & res & acc & H1 & _ & H2 & H3 & H4 & H5). by exists l2, s2, o, act, res, acc.
  Qed.

  (** ** VerifyRoleCert *)
  Lemma checked_roles certs act res k ls : role_check K X U parse cf t0 n nk nj nu calls ls certs act res (k_dom k) k ->
    k_act k = act /\ k_res k = res /\ k_roles k <> [] /\ NoDup (k_roles k) /\
    (forall r, r ∈ k_roles k -> Prop_RoleCert.carries (v_pfx cf) certs (k_dom k) r) /\
    (Prop_RoleCert.unambiguous (v_pfx cf) certs -> Prop_RoleCert.roles_in (v_pfx cf) certs (k_dom k) (k_roles k)).
  Proof.
    intros (_ & _ & Ha & Hr & Hl). pose proof Hl as Hl'. rewrite Prop_RoleCert.cert_roles_pairs in Hl'.
    destruct (Prop_RoleCert.rc_invariant (Prop_RoleCert.all_pairs (v_pfx cf) certs)) as [_ I2 _].
    destruct (I2 _ _ Hl') as (Hne & Hnd & Hin). split_and!; try done.
    - intros r Hr'. apply Prop_RoleCert.all_pairs_spec. by apply Hin.
    - intros Hun. by destruct (Prop_RoleCert.cert_roles_spec _ _ Hun) as [H _]; destruct (H _ _ Hl).
  Qed.
  (** VerifyRoleCert accepts only roles the certificates carry in one domain, one of which a downloaded, properly signed
      policy allows the action on the resource as they were given (no translation, no prefix). *)
  Theorem C92_role_certificate_authorized ls s a certs act res r : arun ls s -> a_tasks K s !! a = Some (ARet (VCert certs act res) (Ok r)) ->
    z_policy zc = true ->
    exists dom role d sp exp doc, Prop_RoleCert.carries (v_pfx cf) certs dom role /\ downloaded (steps ls) d sp /\
      content sp exp doc /\ doc_allows U dom act res doc role.
  Proof.
    intros Hr Ha Hp. pose proof (tasks_ok _ _ _ _ _ _ _ _ _ _ _ _ _ _ Hr _ _ Ha) as [_ [?|(k & acc & Hk & Hret)]]; [congruence|].
    destruct (checked_roles _ _ _ _ _ Hk) as (<- & <- & _ & _ & Hcar & _). destruct Hk as [Hv _].
    destruct (view_allows _ _ _ _ _ _ _ _ _ _ _ _ _ _ Hv Hret) as [Hne Hall].
    destruct acc as [|role acc]; [done|]. destruct (Hall role ltac:(left)) as (Hin & d & sp & exp & doc & Hd & Hc & Hal).
    exists (k_dom k), role, d, sp, exp, doc. split_and!; try done. by apply Hcar.
  Qed.
  (** Without expired hooks it goes by the policies of one Update, and none of them denies a role checked: those the
      certificates carry in the domain, unless two pairs of domain and role read the same when glued together (C50).
      Missing: the hook, as in C71. *)
  Theorem C92_role_certificate_not_denied_partial ls s a certs act res r : arun ls s ->
    a_tasks K s !! a = Some (ARet (VCert certs act res) (Ok r)) -> z_policy zc = true -> 0 < t0 -> YHook K ∉ steps ls ->
    Prop_RoleCert.unambiguous (v_pfx cf) certs ->
    exists dom u o, (exists role, Prop_RoleCert.carries (v_pfx cf) certs dom role) /\ published_by (steps ls) u o /\
      (forall w, (w < length (s_f (v_sys cf)))%nat -> exists exp doc t sp, took (steps ls) u w exp doc t /\ downloaded (steps ls) w sp /\ content sp exp doc) /\
      (tame (steps ls) (now K (a_sys K s)) u -> forall w exp doc t role, took (steps ls) u w exp doc t ->
         Prop_RoleCert.carries (v_pfx cf) certs dom role -> ~ doc_denies U dom act res doc role).
  Proof.
    intros Hr Ha Hp Ht0 Hh Hun. pose proof (tasks_ok _ _ _ _ _ _ _ _ _ _ _ _ _ _ Hr _ _ Ha) as [_ [?|(k & acc & Hk & Hret)]]; [congruence|].
    destruct (checked_roles _ _ _ _ _ Hk) as (<- & <- & Hne & _ & Hcar & Hall). destruct (Hall Hun) as [_ Hin]. destruct Hk as [Hv _].
    pose proof (arun_sys _ _ _ _ _ _ _ _ _ _ _ _ _ _ Hr) as Hy.
    apply (unhooked K X U parse (v_sys cf) t0 n nk nj nu calls _ (k_obj k)) in Hh.
    destruct (view_cache _ _ _ _ _ _ _ _ _ _ _ _ _ _ _ Hy Hv Hret Hh) as (u & Hpub & Hdoms).
    exists (k_dom k), u, (k_obj k). split_and!; [|done|done|].
    - destruct (k_roles k) as [|role l]; [done|]. exists role. apply Hcar. left.
    - intros [Hw Hdis] w exp doc t role Htk Hrole. eapply view_denies; eauto. by apply Hin.
  Qed.
  (** It rejects only if no role is carried, or CheckPolicy has refused the roles of every domain carried. *)
  Theorem C92_role_certificate_rejected ls s a certs act res e : arun ls s -> a_tasks K s !! a = Some (ARet (VCert certs act res) (Err e)) ->
    z_policy zc = true /\ ((forall d r, ~ Prop_RoleCert.carries (v_pfx cf) certs d r) -> e = ErrMsg "invalid role certificate") /\
    (Prop_RoleCert.unambiguous (v_pfx cf) certs -> forall d r, Prop_RoleCert.carries (v_pfx cf) certs d r ->
       exists k e', chk_view (steps ls) k /\ k_dom k = d /\ k_act k = act /\ k_res k = res /\
         Prop_RoleCert.roles_in (v_pfx cf) certs d (k_roles k) /\ returned (k_st k) (Err e')).
  Proof.
    intros Hr Ha. pose proof (tasks_ok _ _ _ _ _ _ _ _ _ _ _ _ _ _ Hr _ _ Ha) as (Hp & Hl & He). split; [done|]. split.
    { intros Hn. apply He. by apply Prop_RoleCert.no_roles_empty. }
    intros Hun d r Hc. destruct (Prop_RoleCert.cert_roles_spec _ _ Hun) as [_ H2]. destruct (H2 _ _ Hc) as [l Hdl].
    destruct (Hl _ _ Hdl) as [?%elem_of_nil|(k & e' & Hk & Hret)]; [done|]. pose proof Hk as (Hv & Hd & _). rewrite <- Hd in Hk.
    destruct (checked_roles _ _ _ _ _ Hk) as (Hact & Hres & _ & _ & _ & Hall). exists k, e'. rewrite <- Hd. split_and!; try done. by apply Hall.
  Qed.
  (** AuthorizeRoleCert never accepts. *)
  Theorem C92_authorize_role_cert_rejects ls s a certs act res r : arun ls s -> a_tasks K s !! a = Some (ARet (VCertP certs act res) r) ->
    r = Err (ErrMsg "AuthorizeRoleCert has not yet been implemented").
  Proof.
    intros Hr Ha. pose proof (tasks_ok _ _ _ _ _ _ _ _ _ _ _ _ _ _ Hr _ _ Ha) as H. destruct r; cbn in H; try done. by rewrite H.
  Qed.

  (** ** All of them *)
  (** With policy checks on, no method has ever accepted anything before a properly signed policy was downloaded. *)
  Theorem C92_no_policy_no_access ls s a c r : arun ls s -> a_tasks K s !! a = Some (ARet c (Ok r)) -> z_policy zc = true ->
    exists d sp exp doc pol x, downloaded (steps ls) d sp /\ content sp exp doc /\ pol ∈ doc /\ x ∈ pol.
  Proof.
    intros Hr Ha Hp.
    assert (exists l d sp exp doc dom act res role, downloaded l d sp /\ (exists l', steps ls = l ++ l') /\ content sp exp doc /\ doc_allows U dom act res doc role)
      as (l & d & sp & exp & doc & dom & act & res & role & Hd & [l' ->] & Hc & pol & x & Hpol & Hx & _).
    { destruct c as [v tok act res|v tok act res crt|v rq act res|certs act res|certs act res]; cycle 3.
      - destruct (C92_role_certificate_authorized _ _ _ _ _ _ _ Hr Ha Hp) as (dom & role & d & sp & exp & doc & _ & H1 & H2 & H3).
        exists (steps ls), d, sp, exp, doc, dom, act, res, role. split_and!; try done. exists []. by rewrite app_nil_r.
      - by pose proof (C92_authorize_role_cert_rejects _ _ _ _ _ _ _ Hr Ha).
      - destruct (C92_accepted_is_authorized _ _ _ _ _ Hr Ha I) as (q & p & j & q' & p0 & l1 & s1 & _ & _ & _ & _ & _ & H). rewrite Hp in H.
        destruct H as (l2 & s2 & o & act' & res' & acc & [[l3 Hl3] _] & _ & _ & Hne & Hall). destruct acc as [|role acc]; [done|].
        destruct (Hall role ltac:(left)) as (_ & d & sp & exp & doc & H1 & H2 & H3). exists l2, d, sp, exp, doc, (pr_domain p0), act', res', role.
        split_and!; try done. by eexists.
      - destruct (C92_accepted_is_authorized _ _ _ _ _ Hr Ha I) as (q & p & j & q' & p0 & l1 & s1 & _ & _ & _ & _ & _ & H). rewrite Hp in H.
        destruct H as (l2 & s2 & o & act' & res' & acc & [[l3 Hl3] _] & _ & _ & Hne & Hall). destruct acc as [|role acc]; [done|].
        destruct (Hall role ltac:(left)) as (_ & d & sp & exp & doc & H1 & H2 & H3). exists l2, d, sp, exp, doc, (pr_domain p0), act', res', role.
        split_and!; try done. by eexists.
      - destruct (C92_accepted_is_authorized _ _ _ _ _ Hr Ha I) as (q & p & j & q' & p0 & l1 & s1 & _ & _ & _ & _ & _ & H). rewrite Hp in H.
        destruct H as (l2 & s2 & o & act' & res' & acc & [[l3 Hl3] _] & _ & _ & Hne & Hall). destruct acc as [|role acc]; [done|].
        destruct (Hall role ltac:(left)) as (_ & d & sp & exp & doc & H1 & H2 & H3). exists l2, d, sp, exp, doc, (pr_domain p0), act', res', role.
        split_and!; try done. by eexists. }
    exists d, sp, exp, doc, pol, x. split_and!; try done. by apply downloaded_mono.
  Qed.

  (** ** Direct methods and HTTP requests *)
  (** The HTTP request with just this credential (for an access token only if role tokens are off, since otherwise the
      empty role token is tried after it). *)
  Definition as_http (c : apicall) : apicall :=
    match c with
    | VRole v tok act res => if z_role zc then VHttp v (HReq None [] tok []) act res else c
    | VAccess v tok act res crt =>
        if z_access zc && negb (z_role zc) then VHttp v (HReq (match crt with Some x => Some [x] | None => None end) (B "Bearer " ++ tok) [] []) act res else c
    | _ => c
    end.
  (** Its result, the error being replaced. *)
  Definition masked (c : apicall) (r : outcome (option principal)) : outcome (option principal) :=
    match r with Err e => if is_http (as_http c) then Err ErrInvalidCredentials else Err e | _ => r end.
  Definition over_http (t : atask) : atask :=
    match t with
    | AIdle => AIdle
    | ALoop c ts => ALoop (as_http c) ts
    | AWait c i ts => AWait (as_http c) i ts
    | ADom c ds e => ADom (as_http c) ds e
    | ACheck c ds k => ACheck (as_http c) ds k
    | ARet c r => ARet (as_http c) (masked c r)
    end.
  Lemma tries_over_http c : is_http c = false -> is_http (as_http c) = true ->
    exists fs, tries cf (as_http c) = fs ++ tries cf c /\ Forall (fun t => exists e, t = TFail e) fs.
  Proof.
    destruct c as [v tok act res|v tok act res crt|v r act res|certs act res|certs act res]; cbn [as_http is_http]; try done.
    - destruct (z_role zc) eqn:Er; [|done]. intros _ _. cbn [tries]. unfold http_tries. rewrite Er. cbn [h_authz h_role h_query h_tls extract_token].
      eexists. rewrite app_assoc. split; [done|]. destruct (v_rc cf), (z_access zc); repeat constructor; by eexists.
    - destruct (z_access zc) eqn:Ea; [|done]. destruct (z_role zc) eqn:Er; [done|]. intros _ _. cbn [tries andb negb]. unfold http_tries. rewrite Ea, Er.
      cbn [h_authz h_role h_query h_tls]. exists (if v_rc cf then [TFail (ErrMsg "AuthorizeRoleCert has not yet been implemented")] else []). split.
      + f_equal. rewrite app_nil_r. f_equal.
        assert (extract_token (B "Bearer " ++ tok) = Ok tok) as ->.
        { apply Prop_Kinds.extract_spec. split; [done|]. left. exists (B "Bearer "). split; [|done]. unfold Prop_Kinds.bearer. repeat constructor; cbn; tauto. }
        by destruct crt.
      + destruct (v_rc cf); repeat constructor. by eexists.
  Qed.
  Lemma arun_app s0 l1 l2 s1 s2 : Api.arun K X U parse cf s0 l1 s1 -> Api.arun K X U parse cf s1 l2 s2 -> Api.arun K X U parse cf s0 (l1 ++ l2) s2.
  Proof.
    intros H1 H2. induction H2 as [|ls l s s' H2 IH Hs]; [by rewrite app_nil_r|]. rewrite app_assoc. by eapply A_snoc.
  Qed.
  Lemma skip_failing s a c fs ts : Forall (fun t => exists e, t = TFail e) fs -> a_tasks K s !! a = Some (ALoop c (fs ++ ts)) ->
    exists ls, Api.arun K X U parse cf s ls (set_at K a (ALoop c ts) s) /\ sys_steps K ls = [].
  Proof.
    revert s. induction fs as [|f fs IH]; intros s Hf Ha.
    - exists []. split; [|done]. replace (set_at K a (ALoop c ts) s) with s; [apply A_nil|].
      destruct s as [y tk]. unfold set_at; cbn in *. by rewrite list_insert_id.
    - apply Forall_cons in Hf as [[e ->] Hf]. cbn [app] in Ha.
      destruct (IH (set_at K a (ALoop c (fs ++ ts)) s)) as (ls & Hr & Hy); [done| |].
      { cbn [set_at a_tasks]. by rewrite list_lookup_insert by (by eapply lookup_lt_Some). }
      exists (ANext K a :: ls). split; [|done].
      unfold set_at in Hr at 2. cbn [a_sys a_tasks set_at] in Hr. rewrite list_insert_insert in Hr.
      change (ANext K a :: ls) with ([ANext K a] ++ ls). eapply arun_app; [|exact Hr].
      eapply (A_snoc _ _ _ _ _ _ []); [apply A_nil|]. by eapply P_fail.
  Qed.
  (** Whatever the system does, calling a direct method and sending the HTTP request with this credential come to the same
      but for the error. *)
  Theorem C92_direct_is_http ls s : arun ls s ->
    exists ls', arun ls' (Api K (a_sys K s) (map over_http (a_tasks K s))) /\ steps ls' = steps ls.
  Proof.
    intros H. induction H as [|ls l s s' H (ls' & IH & Hy) Hs].
    { exists []. split; [|done]. cbn. replace (map over_http (replicate m AIdle)) with (replicate m AIdle); [apply A_nil|].
      clear. induction m; cbn; congruence. }
    pose proof (tasks_ok _ _ _ _ _ _ _ _ _ _ _ _ _ _ H) as Hok.
    set (h := Api K (a_sys K s) (map over_http (a_tasks K s))) in *.
    assert (forall a t, a_tasks K s !! a = Some t -> a_tasks K h !! a = Some (over_http t)) as Hh.
    { intros a t Ha. cbn. by rewrite list_lookup_fmap, Ha. }
    assert (forall l2 h', Api.arun K X U parse cf h l2 h' -> h' = Api K (a_sys K s') (map over_http (a_tasks K s')) -> sys_steps K l2 = sys_step K l ->
      exists ls', arun ls' (Api K (a_sys K s') (map over_http (a_tasks K s'))) /\ steps ls' = steps (ls ++ [l])) as Hgo.
    { intros l2 h' H2 -> Hl2. exists (ls' ++ l2). split; [by eapply arun_app|]. rewrite sys_steps_snoc, <- Hl2, <- Hy.
      unfold sys_steps. rewrite map_app. apply concat_app. }
    assert (forall x h', astep K X U parse cf x h h' -> h' = Api K (a_sys K s') (map over_http (a_tasks K s')) -> sys_step K x = sys_step K l ->
      exists ls', arun ls' (Api K (a_sys K s') (map over_http (a_tasks K s'))) /\ steps ls' = steps (ls ++ [l])) as Hone.
    { intros x h' Hx He Hl. apply (Hgo [x] h'); [|done|cbn; by rewrite app_nil_r].
      eapply (A_snoc _ _ _ _ _ _ []); [apply A_nil|done]. }
    assert (forall a t, Api K (a_sys K (set_at K a t s)) (map over_http (a_tasks K (set_at K a t s))) = set_at K a (over_http t) h) as Hset.
    { intros a t. unfold set_at; cbn. f_equal. apply list_fmap_insert. }
    destruct Hs.
    - eapply Hone; [by apply P_sys|done|done].
    - pose proof (Hh _ _ H0) as Ha. cbn [over_http] in Ha.
      destruct (is_http c) eqn:Ec.
      { assert (as_http c = c) as Hc by (by destruct c). apply (Hone (AEnter K a c order) (set_at K a (enter cf c order) h)); [by apply P_enter| |done].
        rewrite (Hset a). f_equal. destruct c; try done. }
      destruct (is_http (as_http c)) eqn:Ec'.
      + destruct (tries_over_http c Ec Ec') as (fs & Hfs & Hall).
        assert (enter cf (as_http c) order = ALoop (as_http c) (fs ++ tries cf c)) as Hent.
        { destruct (as_http c) eqn:E; try done. cbn [enter]. by rewrite <- Hfs. }
        assert (over_http (enter cf c order) = ALoop (as_http c) (tries cf c)) as Hent'.
        { by destruct c as [| | | |]. }
        assert (order_ok cf (as_http c) order) as Hor. { destruct (as_http c); done. }
        destruct (skip_failing (set_at K a (enter cf (as_http c) order) h) a (as_http c) fs (tries cf c)) as (l2 & Hr2 & Hy2); [done| |].
        { cbn [set_at a_tasks]. rewrite list_lookup_insert by (by eapply lookup_lt_Some). by rewrite Hent. }
        apply (Hgo (AEnter K a (as_http c) order :: l2) (set_at K a (ALoop (as_http c) (tries cf c)) (set_at K a (enter cf (as_http c) order) h))); [| |done].
        * change (AEnter K a (as_http c) order :: l2) with ([AEnter K a (as_http c) order] ++ l2). eapply arun_app; [|exact Hr2].
          eapply (A_snoc _ _ _ _ _ _ []); [apply A_nil|]. by apply P_enter.
        * rewrite (Hset a), Hent'. unfold set_at; cbn [a_tasks a_sys]. by rewrite list_insert_insert.
      + assert (as_http c = c) as Hc. { destruct c; try done; cbn [as_http] in *; by case_match. }
        apply (Hone (AEnter K a c order) (set_at K a (enter cf c order) h)); [by apply P_enter| |done].
        rewrite (Hset a). f_equal. destruct c as [| | |certs act res|]; cbn [enter over_http]; try done; try (by rewrite Hc).
        destruct (z_policy zc); [|done]. case_bool_decide; [|done]. done.
    - pose proof (Hh _ _ H0) as Ha. cbn [over_http] in Ha. eapply Hone; [by eapply P_call| |done]. cbn. f_equal. symmetry. apply (list_fmap_insert over_http).
    - pose proof (Hh _ _ H0) as Ha. cbn [over_http] in Ha. eapply Hone; [by eapply P_fail| |done]. by rewrite (Hset a).
    - pose proof (Hh _ _ H0) as Ha. cbn [over_http] in Ha. eapply Hone; [by eapply P_none| |done]. rewrite (Hset a). f_equal.
      cbn [over_http masked]. destruct (is_http (as_http c)); done.
    - pose proof (Hh _ _ H0) as Ha. cbn [over_http] in Ha. pose proof (Hok _ _ H0) as (_ & pre & q' & u & _ & _ & Hts & _).
      assert (forall p, reply_of (as_http c) p = reply_of c p) as Hrep.
      { intros p. destruct c as [[]|[]|[]| |]; cbn [as_http reply_of]; destruct (z_role zc), (z_access zc); done. }
      pose proof (P_back _ X U parse cf h a i (as_http c) q r ts Ha H1) as Hb.
      destruct r as [p|e|].
      + eapply Hone; [exact Hb| |done]. rewrite (Hset a). cbn [over_http masked]. by rewrite Hrep.
      + destruct (is_http c) eqn:Ec.
        { eapply Hone; [exact Hb| |done]. rewrite (Hset a). assert (as_http c = c) as Hc by (by destruct c).
          destruct c; try done. }
        destruct (is_http (as_http c)) eqn:Ec'.
        * specialize (Hts eq_refl) as ->. destruct (as_http c) as [| |v r act res| |] eqn:Eh; try done.
          apply (Hgo [ABack K a; ANext K a] (set_at K a (ARet (as_http c) (Err ErrInvalidCredentials)) (set_at K a (ALoop (as_http c) []) h))); [| |done].
          -- apply (A_snoc _ _ _ _ _ _ [ABack K a] _ (set_at K a (ALoop (as_http c) []) h)).
             ++ apply (A_snoc _ _ _ _ _ _ [] _ h); [apply A_nil|]. by rewrite Eh.
             ++ apply P_none. cbn [set_at a_tasks]. by rewrite list_lookup_insert by (by eapply lookup_lt_Some).
          -- replace (match c with VHttp _ _ _ _ => ALoop c [] | _ => ARet c (Err e) end) with (ARet c (Err e)) by (by destruct c).
             rewrite (Hset a). cbn [over_http masked]. rewrite Eh. cbn [is_http]. unfold set_at; cbn [a_tasks a_sys]. by rewrite list_insert_insert.
        * eapply Hone; [exact Hb| |done].
          replace (match c with VHttp _ _ _ _ => ALoop c ts | _ => ARet c (Err e) end) with (ARet c (Err e)) by (by destruct c).
          rewrite (Hset a). cbn [over_http masked]. rewrite Ec'. by destruct (as_http c).
      + eapply Hone; [exact Hb| |done]. by rewrite (Hset a).
    - pose proof (Hh _ _ H0) as Ha. cbn [over_http as_http] in Ha. eapply Hone; [by eapply P_load| |done]. by rewrite (Hset a).
    - pose proof (Hh _ _ H0) as Ha. cbn [over_http] in Ha. eapply Hone; [by eapply P_step| |done]. by rewrite (Hset a).
    - pose proof (Hh _ _ H0) as Ha. cbn [over_http] in Ha. pose proof (Hok _ _ H0) as (certs & act & res & -> & _).
      eapply Hone; [by eapply P_end| |done]. rewrite (Hset a). by destruct r.
    - pose proof (Hh _ _ H0) as Ha. cbn [over_http] in Ha. pose proof (Hok _ _ H0) as (certs & act & res & -> & _).
      eapply Hone; [by eapply P_done| |done]. by rewrite (Hset a).
  Qed.
End claims.

(** ** Running it *)
From Verif Require Prop_PubKey Prop_Fetcher Prop_Authorizer.
From Verif Require Import SystemExec PolicyCheckers.
From Verif Require Import GoStrings.
Section exec.
  Context (K : crypto) (X : jwt_ext) {O : Type} (U : unicode) (parse : str -> option (verifier K)).
  Context (cf : @vconf O) (s0 : api K).
  Notation astep := (astep K X U parse cf).
  Notation traced := (traced K X U parse (v_sys cf) (a_sys K s0)).
  Inductive acmd :=
  | PSys (c : @cmd O) | PEnter (a : nat) (c : apicall) (order : list str) | PCall (a i : nat) | PNext (a : nat) | PBack (a : nat)
  | PLoad (a : nat) | PStep (a : nat) (l : PolicyCheck.label) | PEnd (a : nat).
  Definition order_okb (c : apicall) (order : list str) : bool :=
    match c with
    | VCert certs _ _ => bool_decide (NoDup order) && bool_decide (list_to_set order =@{gset str} dom (cert_roles (v_pfx cf) certs))
    | _ => true
    end.
  Lemma order_okb_spec c order : order_okb c order = true -> order_ok cf c order.
  Proof.
    destruct c; try done. cbn. intros [H1 H2]%andb_true_iff. apply bool_decide_eq_true in H1, H2. split; [done|].
    intros d. rewrite <- elem_of_dom, <- H2. by rewrite elem_of_list_to_set.
  Qed.
  Definition aexec (c : acmd) (s : api K) : option (@alabel K O * api K) :=
    match c with
    | PSys c => match yexec K X U parse (v_sys cf) c (a_sys K s) with
                | Some (l, y) => if no_call K l then Some (ASys K l, Api K y (a_tasks K s)) else None
                | None => None
                end
    | PEnter a c order =>
        match a_tasks K s !! a with
        | Some AIdle => if order_okb c order then Some (AEnter K a c order, set_at K a (enter cf c order) s) else None
        | _ => None
        end
    | PCall a i =>
        match a_tasks K s !! a with
        | Some (ALoop c (TReq q :: ts)) =>
            match yexec K X U parse (v_sys cf) (DCall i q) (a_sys K s) with
            | Some (_, y) => Some (ACall K a i q, Api K y (<[a := AWait c i ts]> (a_tasks K s)))
            | None => None
            end
        | _ => None
        end
    | PNext a =>
        match a_tasks K s !! a with
        | Some (ALoop c (TFail e :: ts)) => Some (ANext K a, set_at K a (ALoop c ts) s)
        | Some (ALoop c []) => Some (ANext K a, set_at K a (ARet c (Err ErrInvalidCredentials)) s)
        | _ => None
        end
    | PBack a =>
        match a_tasks K s !! a with
        | Some (AWait c i ts) =>
            match z_tasks (y_auth K (a_sys K s)) !! i with
            | Some (CDone q r) => Some (ABack K a, set_at K a match r with
                  | Ok p => ARet c (Ok (reply_of c p))
                  | Err e => match c with VHttp _ _ _ _ => ALoop c ts | _ => ARet c (Err e) end
                  | Panic => ARet c Panic
                  end s)
            | _ => None
            end
        | _ => None
        end
    | PLoad a =>
        match a_tasks K s !! a, y_objs K (a_sys K s) !! y_cur K (a_sys K s) with
        | Some (ADom (VCert certs act res) (d :: ds) e), Some ob =>
            let roles := default [] (cert_roles (v_pfx cf) certs !! d) in
            Some (ALoad K a, set_at K a (ACheck (VCert certs act res) ds
                     (Chk (y_cur K (a_sys K s)) d roles act res (start roles (g_view (now K (a_sys K s)) (c_g ob)) false))) s)
        | _, _ => None
        end
    | PStep a l =>
        match a_tasks K s !! a with
        | Some (ACheck c ds k) =>
            match y_objs K (a_sys K s) !! k_obj k with
            | Some ob =>
                if check_label l then
                  match run U (k_dom k) (k_roles k) (k_act k) (k_res k) [EnvMutate 0%nat (g_view (now K (a_sys K s)) (c_g ob)); l] (k_st k) with
                  | Some k' => Some (AStep K a l, set_at K a (ACheck c ds (Chk (k_obj k) (k_dom k) (k_roles k) (k_act k) (k_res k) k')) s)
                  | None => None
                  end
                else None
            | None => None
            end
        | _ => None
        end
    | PEnd a =>
        match a_tasks K s !! a with
        | Some (ACheck c ds k) =>
            match s_main (k_st k) with
            | MDone r => Some (AEnd K a, set_at K a match r with Ok _ => ARet c (Ok None) | Err e => ADom c ds e | Panic => ARet c Panic end s)
            | _ => None
            end
        | Some (ADom c [] e) => Some (AEnd K a, set_at K a (ARet c (Err e)) s)
        | _ => None
        end
    end.
  Lemma aexec_sound c s l s' : aexec c s = Some (l, s') -> astep l s s'.
  Proof.
    destruct c as [c|a c order|a i|a|a|a|a l0|a]; cbn [aexec].
    - destruct (yexec _ _ _ _ _ c (a_sys K s)) as [[l1 y]|] eqn:E; [|done]. destruct (no_call K l1) eqn:En; [|done]. intros [= <- <-].
      apply P_sys; [by eapply yexec_sound|done].
    - destruct (a_tasks K s !! a) as [[]|] eqn:Ea; try done. destruct (order_okb c order) eqn:Eo; [|done]. intros [= <- <-].
      apply P_enter; [done|by apply order_okb_spec].
    - destruct (a_tasks K s !! a) as [[|c [|[|q] ts]| | | |]|] eqn:Ea; try done. destruct (yexec _ _ _ _ _ _ _) as [[l1 y]|] eqn:E; [|done].
      intros [= <- <-]. eapply P_call; [done|]. pose proof (yexec_sound _ _ _ _ _ _ _ _ _ E) as Hs. cbn [yexec] in E. unfold zexec in E.
      destruct (zstep _ _ _ _ _); [|done]. by injection E as <- _.
    - destruct (a_tasks K s !! a) as [[|c [|[e|q] ts]| | | |]|] eqn:Ea; try done; intros [= <- <-]; [by apply P_none|by eapply P_fail].
    - destruct (a_tasks K s !! a) as [[| |c i ts| | |]|] eqn:Ea; try done. destruct (z_tasks _ !! i) as [[| | | | | |q r]|] eqn:E; try done.
      intros [= <- <-]. by eapply P_back.
    - destruct (a_tasks K s !! a) as [[| | |[] [|d ds] e| |]|] eqn:Ea; try done. destruct (y_objs _ _ !! _) as [ob|] eqn:E; [|done].
      intros [= <- <-]. by eapply P_load.
    - destruct (a_tasks K s !! a) as [[| | | |c ds k|]|] eqn:Ea; try done. destruct (y_objs _ _ !! _) as [ob|] eqn:E; [|done].
      destruct (check_label l0) eqn:El; [|done]. destruct (run _ _ _ _ _ _ _) as [k'|] eqn:Er; [|done]. intros [= <- <-]. by eapply P_step.
    - destruct (a_tasks K s !! a) as [[| | |c [|d ds] e|c ds k|]|] eqn:Ea; try done.
      + intros [= <- <-]. by eapply P_done.
      + destruct (s_main (k_st k)) as [| |r] eqn:Em; try done. intros [= <- <-]. by eapply P_end.
  Qed.
  (** Commands that are not possible are left out. *)
  Fixpoint adrive (cs : list acmd) (ls : list (@alabel K O)) (tr : list (@ylabel K O * sys K)) (s : api K) :
      list (@alabel K O) * list (@ylabel K O * sys K) * api K :=
    match cs with
    | [] => (ls, tr, s)
    | c :: cs => match aexec c s with
                 | Some (l, s') => adrive cs (l :: ls) (map (fun y => (y, a_sys K s)) (sys_step K l) ++ tr) s'
                 | None => adrive cs ls tr s
                 end
    end.
  Lemma adrive_sound cs ls tr s ls' tr' s' : adrive cs ls tr s = (ls', tr', s') ->
    arun K X U parse cf s0 (rev ls) s -> traced tr (a_sys K s) -> sys_steps K (rev ls) = rev tr.*1 ->
    arun K X U parse cf s0 (rev ls') s' /\ traced tr' (a_sys K s') /\ sys_steps K (rev ls') = rev tr'.*1.
  Proof.
    revert ls tr s. induction cs as [|c cs IH]; intros ls tr s; cbn [adrive]; [by intros [= <- <- <-]|].
    destruct (aexec c s) as [[l s1]|] eqn:E; [|apply IH]. intros H Hr Ht Hy. apply aexec_sound in E. apply (IH _ _ _ H).
    - cbn [rev]. by eapply A_snoc.
    - assert (forall y, sys_step K l = [y] -> ystep K X U parse (v_sys cf) y (a_sys K s) (a_sys K s1) -> traced ((y, a_sys K s) :: tr) (a_sys K s1)) as Hone.
      { intros y _ Hs. destruct Ht as [H1 H2]. split; cbn [fmap list_fmap rev fst]; [by eapply Y_snoc|].
        intros l' l1 s2 Hh. destruct (happened_snoc K X U parse (v_sys cf) _ _ _ _ _ _ _ H1 Hh) as [Hh1|(-> & -> & ->)]; [right; by eapply H2|left]. }
      destruct E; cbn [sys_step map app]; try done; by eapply Hone.
    - cbn [rev]. rewrite sys_steps_snoc, Hy. destruct E; cbn [sys_step map app fmap list_fmap rev fst]; by rewrite ?app_nil_r.
  Qed.
  Lemma adrive_run cs ls tr s : adrive cs [] [] s0 = (ls, tr, s) ->
    arun K X U parse cf s0 (rev ls) s /\ traced tr (a_sys K s) /\ sys_steps K (rev ls) = rev tr.*1.
  Proof.
    intros H. apply (adrive_sound _ _ _ _ _ _ _ H); [apply A_nil| |done]. split; [apply Y_nil|]. intros l l1 s1 [[l2 Hl] _]. by destruct l1.
  Qed.
End exec.

(** ** A complete execution
    After the downloads of C71: an HTTP request with a role token, certificates for roles of two domains and role tokens
    given directly, side by side. *)
Section example.
  Import Prop_PubKey Prop_Fetcher Prop_Authorizer.
  Definition acf : @vconf unit := VConf scf true (B "athenz://role/").
  Definition ay0 : sys K1 := yinit K1 scf t0 3 2 0 1 (fun _ => [false]).
  Definition crt (cn : str) (uris : list str) : cert := Cert cn (B "ca") [] 0 uris.
  Definition a_http : apicall := VHttp false (HReq None [] rtok []) (B "get") (B "/a").
  Definition a_cert : apicall := VCert [crt (B "dom:role.r1") [B "athenz://role/dom/r2"; B "spiffe://x/y"]] (B "get") (B "/p/a").
  Definition a_bad : apicall := VRole true (B "d=dom;r=r1;s=x") (B "get") (B "/a").
  Definition a_deny : apicall := VCert [crt (B "dom2:role.r1") []; crt (B "dom3:role.r1") []] (B "get") (B "/p/a").
  Definition a_direct : apicall := VRole false rtok (B "get") (B "/a").
  Definition chk_labels : list PolicyCheck.label :=
    [LLoad; LSpawn; LSpawn; LSpawn] ++ replicate 9 (LWork 0) ++ replicate 9 (LWork 1) ++ [LClose; LMain; LMain; LMain].
  Definition acmds : list (@acmd unit) :=
    map PSys (take 33 cmds1) ++
    [PEnter 0 a_http []; PEnter 1 a_cert [B "dom"]; PNext 0; PNext 0; PCall 0 0; PEnter 2 a_bad []; PCall 2 1;
     PSys (DLook 0); PSys (DLook 1); PSys (DParse 0); PSys (DParse 1); PBack 2; PSys (DTrans 0 tt); PSys (DLoad 0); PLoad 1] ++
    flat_map (fun l => [PSys (DChk 0 l); PStep 1 l]) chk_labels ++
    [PEnd 1; PSys (DPolicy 0); PSys (DStore 0); PBack 0; PEnter 3 a_deny [B "dom3"; B "dom2"]; PLoad 3] ++
    map (PStep 3) chk_labels ++ [PEnd 3; PEnter 4 a_direct []; PLoad 3] ++ map (PStep 3) chk_labels ++
    [PEnd 3; PEnd 3; PCall 4 2; PSys (DLook 2); PBack 4].
  Definition outcomes (s : api K1) : list (option (apicall * outcome (option (list str * str)))) :=
    map (fun t => match t with
                  | ARet c (Ok r) => Some (c, Ok (option_map (fun p => (pr_auth p, pr_domain p)) r))
                  | ARet c (Err e) => Some (c, Err e) | ARet c Panic => Some (c, Panic) | _ => None end) (a_tasks K1 s).
  Notation adrive1 := (adrive K1 X0 U0 parse1 acf acmds [] [] (ainit K1 ay0 5)).
  Notation arun1 := (Api.arun K1 X0 U0 parse1 acf (ainit K1 ay0 5)).
  Lemma outcomes_ok s a c x : outcomes s !! a = Some (Some (c, Ok x)) ->
    exists r, a_tasks K1 s !! a = Some (ARet c (Ok r)) /\ option_map (fun p => (pr_auth p, pr_domain p)) r = x.
  Proof.
    unfold outcomes. rewrite list_lookup_fmap. destruct (a_tasks K1 s !! a) as [[| | | | |c' [r|e|]]|]; cbn; try done. intros [= -> <-]. by exists r.
  Qed.
  Lemma outcomes_err s a c e : outcomes s !! a = Some (Some (c, Err e)) -> a_tasks K1 s !! a = Some (ARet c (Err e)).
  Proof.
    unfold outcomes. rewrite list_lookup_fmap. destruct (a_tasks K1 s !! a) as [[| | | | |c' [r|e'|]]|]; cbn; try done. by intros [= -> ->].
  Qed.
  Lemma carries_dom d r : Prop_RoleCert.carries (B "athenz://role/") [crt (B "dom:role.r1") [B "athenz://role/dom/r2"; B "spiffe://x/y"]] d r <->
    (d, r) ∈ [(B "dom", B "r1"); (B "dom", B "r2")].
  Proof.
    rewrite <- Prop_RoleCert.all_pairs_spec.
    assert (Prop_RoleCert.all_pairs (B "athenz://role/") [crt (B "dom:role.r1") [B "athenz://role/dom/r2"; B "spiffe://x/y"]] =
      [(B "dom", B "r1"); (B "dom", B "r2")]) as -> by (vm_compute; reflexivity). done.
  Qed.
  (** Everything the theorems ask for happens in one execution: an HTTP request is authorized after two other authorizers
      have failed, a token given directly and a certificate are rejected and others accepted; no hook runs and the policies
      are tame. *)
  Example C92_nonvacuous : exists ls s p p', arun1 ls s /\ z_policy (s_z (v_sys acf)) = true /\ 0 < t0 /\
    a_tasks K1 s !! 0%nat = Some (ARet a_http (Ok (Some p))) /\ pr_auth p = [B "r1"] /\
    a_tasks K1 s !! 1%nat = Some (ARet a_cert (Ok None)) /\
    a_tasks K1 s !! 2%nat = Some (ARet a_bad (Err ErrRoleTokenExpired)) /\
    a_tasks K1 s !! 3%nat = Some (ARet a_deny (Err ErrDenyByPolicy)) /\
    a_tasks K1 s !! 4%nat = Some (ARet a_direct (Ok (Some p'))) /\ pr_auth p' = [B "r1"] /\
    YHook K1 ∉ sys_steps K1 ls /\
    Prop_RoleCert.unambiguous (v_pfx acf) [crt (B "dom:role.r1") [B "athenz://role/dom/r2"; B "spiffe://x/y"]] /\
    tame K1 X0 U0 parse1 scf t0 3 2 0 1 (fun _ => [false]) (sys_steps K1 ls) (now K1 (a_sys K1 s)) 0.
  Proof.
    assert ((let '(ls, tr, s) := adrive1 in (outcomes s, now K1 (a_sys K1 s), takes K1 tr, hooks K1 tr)) =
      ([Some (a_http, Ok (Some ([B "r1"], B "dom"))); Some (a_cert, Ok None); Some (a_bad, Err ErrRoleTokenExpired);
        Some (a_deny, Err ErrDenyByPolicy); Some (a_direct, Ok (Some ([B "r1"], B "dom")))], 70 * second,
       [(0%nat, 0%nat, 200 * second, docA, 60 * second); (0%nat, 1%nat, 300 * second, docB, 50 * second)], false)) as Ho by (vm_compute; reflexivity).
    destruct adrive1 as [[ls tr] s] eqn:E. apply adrive_run in E as (Hr & Ht & Hy). injection Ho as Ho Hn Htk Hh. apply hooks_none in Hh.
    destruct (outcomes_ok s 0 a_http (Some ([B "r1"], B "dom"))) as (r0 & H0 & Hp0); [by rewrite Ho|]. destruct r0 as [p|]; [|done]. injection Hp0 as Hp0 _.
    destruct (outcomes_ok s 1 a_cert None) as (r1 & H1 & Hp1); [by rewrite Ho|]. destruct r1 as [?|]; [done|].
    destruct (outcomes_ok s 4 a_direct (Some ([B "r1"], B "dom"))) as (r4 & H4 & Hp4); [by rewrite Ho|]. destruct r4 as [p'|]; [|done]. injection Hp4 as Hp4 _.
    exists (rev ls), s, p, p'. rewrite Hy, Hn. split; [done|]. split; [done|]. split; [done|].
    split; [done|]. split; [done|]. split; [done|].
    split; [apply outcomes_err; by rewrite Ho|]. split; [apply outcomes_err; by rewrite Ho|]. split; [done|]. split; [done|]. split; [done|]. split.
    { intros d r d' r'. cbn [v_pfx acf]. rewrite !carries_dom, !elem_of_cons, !elem_of_nil.
      intros [[= -> ->]|[[= -> ->]|[]]] [[= -> ->]|[[= -> ->]|[]]]; done. }
    clear - Ht Htk. split.
    - intros w exp doc u Hk. apply (took_in _ _ _ _ _ _ _ _ _ _ _ _ _ Ht) in Hk. rewrite Htk, !elem_of_cons, elem_of_nil in Hk.
      destruct Hk as [[= -> -> -> ->]|[[= -> -> -> ->]|[]]]; (split; [by apply no_commasb_spec|]); (split; [by apply no_conflictb_spec|right]); split; vm_compute; done.
    - intros w w' exp exp' doc doc' u u' pol pol' r r' Hk Hk' Hp Hr Hp' Hr' He.
      apply (took_in _ _ _ _ _ _ _ _ _ _ _ _ _ Ht) in Hk, Hk'. rewrite Htk, !elem_of_cons, elem_of_nil in Hk, Hk'.
      pose proof (elem_of_roles _ _ _ Hp Hr) as H1. pose proof (elem_of_roles _ _ _ Hp' Hr') as H2. rewrite He in H1.
      assert (Forall (fun x => x ∉ roles_of docB) (roles_of docA)) as Hd by (refine (bool_decide_unpack _ _); vm_compute; exact I).
      rewrite Forall_forall in Hd.
      destruct Hk as [[= -> -> -> ->]|[[= -> -> -> ->]|[]]], Hk' as [[= -> -> -> ->]|[[= -> -> -> ->]|[]]]; try reflexivity; exfalso;
        [exact (Hd _ H1 H2)|exact (Hd _ H2 H1)].
  Qed.
  (** Direct methods become HTTP requests, and the panic of a direct method whose kind of token is switched off (its
      processor does not exist), which as an HTTP request is a rejection. *)
  Definition off_cf : @vconf unit :=
    VConf (SConf (ZConf true None [] second false true (AConf false 0 0 false ∅)) pcf1 (JConf (B "https://zts/keys") []) [cf1; cf1]) false [].
  Example C92_direct_nonvacuous :
    as_http acf a_direct = VHttp false (HReq None [] rtok []) (B "get") (B "/a") /\
    as_http off_cf (VAccess true atok (B "get") (B "/a") None) = VHttp true (HReq None (B "Bearer " ++ atok) [] []) (B "get") (B "/a") /\
    (let '(_, _, s) := adrive K1 X0 U0 parse1 off_cf
       [PEnter 0 a_direct []; PEnter 1 a_http []; PCall 0 0; PSys (DLook 0); PSys (DParse 0); PBack 0; PNext 1; PNext 1] [] [] (ainit K1 ay0 2) in outcomes s) =
    [Some (a_direct, Panic); Some (a_http, Err ErrInvalidCredentials)].
  Proof. split_and!; vm_compute; reflexivity. Qed.
End example.
Print Assumptions C92_methods_are_authorize_calls.
Print Assumptions C92_calls_come_from_methods.
Print Assumptions C92_accepted_by_authorize.
Print Assumptions C92_rejected_by_authorize.
Print Assumptions C92_panics_with_authorize.
Print Assumptions C92_accepted_is_authorized.
Print Assumptions C92_role_certificate_authorized.
Print Assumptions C92_role_certificate_not_denied_partial.
Print Assumptions C92_role_certificate_rejected.
Print Assumptions C92_authorize_role_cert_rejects.
Print Assumptions C92_no_policy_no_access.
Print Assumptions C92_direct_is_http.
