(** * Invariants of the public methods over the whole system *)
From Verif Require Export Api SystemFacts.
From Verif Require Import GoStrings.

Section facts.
  Context (K : crypto) (X : jwt_ext) {O : Type} (U : unicode) (parse : str -> option (verifier K)).
  Context (cf : @vconf O) (t0 : time) (n nk nj nu m : nat) (calls : nat -> list bool).
  Notation y0 := (yinit K (v_sys cf) t0 n nk nj nu calls).
  Notation arun := (arun K X U parse cf (ainit K y0 m)).
  Notation astep := (astep K X U parse cf).
  Notation yrun := (yrun K X U parse (v_sys cf) y0).
  Notation ystep := (ystep K X U parse (v_sys cf)).
  Notation chk_view := (chk_view K X U parse (v_sys cf) t0 n nk nj nu calls).

  (** The steps of the system in an execution. *)
  Definition sys_step (l : @alabel K O) : list (@ylabel K O) :=
    match l with ASys _ l => [l] | ACall _ _ i q => [YAuth K (ZCall K i q)] | _ => [] end.
  Definition sys_steps (ls : list (@alabel K O)) : list (@ylabel K O) := concat (map sys_step ls).
  Lemma sys_steps_snoc ls l : sys_steps (ls ++ [l]) = sys_steps ls ++ sys_step l.
  Proof. apply concat_snoc. Qed.

  Lemma arun_sys ls s : arun ls s -> yrun (sys_steps ls) (a_sys K s).
  Proof.
    intros H. induction H as [|ls l s s' H IH Hs]; [apply Y_nil|]. rewrite sys_steps_snoc.
    destruct Hs; cbn [sys_step set_at a_sys]; rewrite ?app_nil_r; try done; by eapply Y_snoc.
  Qed.

  (** The request a call of authorize is about. *)
  Definition about (t : ctask) : option request :=
    match t with
    | Authorizer.CIdle => None
    | CLook q | CParse q | CTrans q _ | CCheck q _ _ _ | CStore q _ | CDone q _ => Some q
    end.
  Lemma zstep_about l z z' i t q : zstep K X (s_z (v_sys cf)) l z = Some z' -> z_tasks z !! i = Some t -> about t = Some q ->
    exists t', z_tasks z' !! i = Some t' /\ about t' = Some q /\ forall r, t = CDone q r -> t' = t.
  Proof.
    intros H Ht Hq.
    assert (forall j u v, z_tasks z !! j = Some u -> (about u = Some q -> about v = Some q) -> (forall q r, u <> CDone q r) ->
      exists t', (<[j := v]> (z_tasks z)) !! i = Some t' /\ about t' = Some q /\ forall r, t = CDone q r -> t' = t) as Hset.
    { intros j u v Hj Hv Hn. destruct (decide (j = i)) as [->|Hne].
      - rewrite list_lookup_insert by (by eapply lookup_lt_Some). assert (u = t) as -> by congruence. exists v. split; [done|].
        split; [by apply Hv|]. intros r ->. by destruct (Hn q r).
      - rewrite list_lookup_insert_ne by done. eauto. }
    destruct l as [tt|j q1|j|j ks|j o|j r|j|kk|]; cbn [zstep] in H.
    - case_match; [|done]. injection H as <-. eauto.
    - destruct (z_tasks z !! j) as [[]|] eqn:Ej; try done. injection H as <-. cbn [set_task z_tasks].
      eapply Hset; [exact Ej|done|done].
    - destruct (z_tasks z !! j) as [[]|] eqn:Ej; try done. injection H as <-. cbn [set_task z_tasks].
      eapply Hset; [exact Ej|by case_match|done].
    - destruct (z_tasks z !! j) as [[]|] eqn:Ej; try done. injection H as <-. cbn [set_task z_tasks].
      eapply Hset; [exact Ej|repeat case_match; done|done].
    - destruct (z_tasks z !! j) as [[]|] eqn:Ej; try done. injection H as <-. cbn [set_task z_tasks].
      eapply Hset; [exact Ej|repeat case_match; done|done].
    - destruct (z_tasks z !! j) as [[]|] eqn:Ej; try done. injection H as <-. cbn [set_task z_tasks].
      eapply Hset; [exact Ej|repeat case_match; done|done].
    - destruct (z_tasks z !! j) as [[]|] eqn:Ej; try done. injection H as <-. cbn [z_tasks].
      eapply Hset; [exact Ej|done|done].
    - destruct (z_cache z !! kk) as [e|]; [|done]. case_match; [done|]. injection H as <-. eauto.
    - injection H as <-. eauto.
  Qed.
  Lemma ystep_about l y y' i t q : ystep l y y' -> z_tasks (y_auth K y) !! i = Some t -> about t = Some q ->
    exists t', z_tasks (y_auth K y') !! i = Some t' /\ about t' = Some q /\ forall r, t = CDone q r -> t' = t.
  Proof. intros H Ht Hq. destruct H; cbn; eauto. by eapply zstep_about. Qed.

  (** The tries of a method that judges tokens. *)
  Definition tries (c : apicall) : list try :=
    match c with
    | VRole _ tok act res => [TReq (Req MRole tok act res [] None)]
    | VAccess _ tok act res crt => [TReq (Req MAccess tok act res [] crt)]
    | VHttp _ r act res => http_tries cf r act res
    | VCert _ _ _ | VCertP _ _ _ => []
    end.
  Definition is_cert (c : apicall) : bool := match c with VCert _ _ _ | VCertP _ _ _ => true | _ => false end.
  Definition is_http (c : apicall) : bool := match c with VHttp _ _ _ _ => true | _ => false end.
  Definition went (y : sys K) (q : request) (r : outcome principal) : Prop := exists i, z_tasks (y_auth K y) !! i = Some (CDone q r).
  Definition failed (y : sys K) (ts : list try) : Prop := forall q, TReq q ∈ ts -> exists e, went y q (Err e).
  (** CheckPolicy [k] for the roles the certificates carry in domain [d]. *)
  Definition role_check (ls : list (@ylabel K O)) (certs : list cert) (act res d : str) (k : chk) : Prop :=
    chk_view ls k /\ k_dom k = d /\ k_act k = act /\ k_res k = res /\ cert_roles (v_pfx cf) certs !! d = Some (k_roles k).
  Definition refused (ls : list (@ylabel K O)) (certs : list cert) (act res d : str) : Prop :=
    exists k e, role_check ls certs act res d k /\ returned (k_st k) (Err e).
  (** The domains still to come, the others having been refused. *)
  Definition left_over (ls : list (@ylabel K O)) (certs : list cert) (act res : str) (ds : list str) : Prop :=
    forall d l, cert_roles (v_pfx cf) certs !! d = Some l -> d ∈ ds \/ refused ls certs act res d.
  Definition task_ok (ls : list (@ylabel K O)) (y : sys K) (t : atask) : Prop :=
    match t with
    | AIdle => True
    | ALoop c ts => is_cert c = false /\ exists pre, tries c = pre ++ ts /\ failed y pre /\ (is_http c = false -> exists q, ts = [TReq q])
    | AWait c i ts => is_cert c = false /\ exists pre q u, tries c = pre ++ TReq q :: ts /\ failed y pre /\ (is_http c = false -> ts = []) /\
        z_tasks (y_auth K y) !! i = Some u /\ about u = Some q
    | ADom c ds e => exists certs act res, c = VCert certs act res /\ z_policy (s_z (v_sys cf)) = true /\
        left_over ls certs act res ds /\ (forall d, d ∈ ds -> is_Some (cert_roles (v_pfx cf) certs !! d)) /\
        cert_roles (v_pfx cf) certs <> ∅
    | ACheck c ds k => exists certs act res, c = VCert certs act res /\ z_policy (s_z (v_sys cf)) = true /\
        left_over ls certs act res (k_dom k :: ds) /\ (forall d, d ∈ ds -> is_Some (cert_roles (v_pfx cf) certs !! d)) /\
        role_check ls certs act res (k_dom k) k /\ cert_roles (v_pfx cf) certs <> ∅
    | ARet c (Ok r) =>
        match c with
        | VCert certs act res => r = None /\ (z_policy (s_z (v_sys cf)) = false \/
            exists k acc, role_check ls certs act res (k_dom k) k /\ returned (k_st k) (Ok acc))
        | VCertP _ _ _ => False
        | _ => exists q p, TReq q ∈ tries c /\ went y q (Ok p) /\ r = reply_of c p
        end
    | ARet c (Err e) =>
        match c with
        | VCert certs act res => z_policy (s_z (v_sys cf)) = true /\ left_over ls certs act res [] /\
            (cert_roles (v_pfx cf) certs = ∅ -> e = ErrMsg "invalid role certificate")
        | VCertP _ _ _ => e = ErrMsg "AuthorizeRoleCert has not yet been implemented"
        | VHttp _ _ _ _ => e = ErrInvalidCredentials /\ failed y (tries c)
        | _ => exists q, tries c = [TReq q] /\ went y q (Err e)
        end
    | ARet c Panic =>
        match c with
        | VCert certs act res => exists k, role_check ls certs act res (k_dom k) k /\ returned (k_st k) Panic
        | VCertP _ _ _ => False
        | _ => exists q, TReq q ∈ tries c /\ went y q Panic
        end
    end.

  Lemma went_stays l y y' q r : ystep l y y' -> went y q r -> went y' q r.
  Proof.
    intros H [i Hi]. destruct (ystep_about _ _ _ _ _ _ H Hi eq_refl) as (t' & Ht & _ & Heq). exists i. by rewrite Ht, (Heq r).
  Qed.
  Lemma failed_stays l y y' ts : ystep l y y' -> failed y ts -> failed y' ts.
  Proof. intros H Hf q Hq. destruct (Hf _ Hq) as [e He]. exists e. by eapply went_stays. Qed.
  Lemma role_check_mono ls l certs act res d k : role_check ls certs act res d k -> role_check (ls ++ l) certs act res d k.
  Proof. intros [Hv H]. split; [by apply chk_view_mono|done]. Qed.
  Lemma left_over_mono ls l certs act res ds : left_over ls certs act res ds -> left_over (ls ++ l) certs act res ds.
  Proof.
    intros H d r Hd. destruct (H _ _ Hd) as [?|(k & e & Hk & He)]; [by left|right]. exists k, e. split; [by apply role_check_mono|done].
  Qed.
  Lemma task_ok_stays ls l y y' t : ystep l y y' -> task_ok ls y t -> task_ok (ls ++ [l]) y' t.
  Proof.
    intros H. destruct t as [|c ts|c i ts|c ds e|c ds k|c r]; cbn [task_ok].
    - done.
    - intros (Hc & pre & He & Hf & Hq). split; [done|]. exists pre. split_and!; [done| |done]. by eapply failed_stays.
    - intros (Hc & pre & q & u & He & Hf & Hh & Hu & Hq). split; [done|].
      destruct (ystep_about _ _ _ _ _ _ H Hu Hq) as (u' & Hu' & Hq' & _).
      exists pre, q, u'. split_and!; try done. by eapply failed_stays.
    - intros (certs & act & res & -> & ? & Hl & ?). exists certs, act, res. split_and!; [done|done|by apply left_over_mono|tauto..].
    - intros (certs & act & res & -> & ? & Hl & ? & Hk & ?). exists certs, act, res.
      split_and!; [done|done|by apply left_over_mono|done|by apply role_check_mono|done].
    - destruct r as [r|e|].
      + destruct c as [| | |certs act res|]; try done.
        all: try (intros (q & p & Hq & Hw & Hr); exists q, p; split_and!; [done|by eapply went_stays|done]).
        intros [-> [?|(k & acc & Hk & Hret)]]; (split; [done|]); [by left|right]. exists k, acc. split; [by apply role_check_mono|done].
      + destruct c as [| | |certs act res|]; try done.
        all: try (intros (q & Hq & Hw); exists q; split; [done|by eapply went_stays]).
        * intros [-> Hf]. split; [done|by eapply failed_stays].
        * intros (? & Hl & ?). split_and!; [done|by apply left_over_mono|done].
      + destruct c as [| | |certs act res|]; try done.
        all: try (intros (q & Hq & Hw); exists q; split; [done|by eapply went_stays]).
        intros (k & Hk & Hret). exists k. split; [by apply role_check_mono|done].
  Qed.

  Lemma tasks_ok ls s : arun ls s -> forall a t, a_tasks K s !! a = Some t -> task_ok (sys_steps ls) (a_sys K s) t.
  Proof.
    intros H. induction H as [|ls l s s' H IH Hs]; intros a t Ht.
    { cbn in Ht. by apply lookup_replicate in Ht as [-> _]. }
    rewrite sys_steps_snoc.
    assert (forall b u, a_tasks K s' = <[b := u]> (a_tasks K s) -> a_sys K s' = a_sys K s -> sys_step l = [] ->
      task_ok (sys_steps ls) (a_sys K s) u -> task_ok (sys_steps ls ++ sys_step l) (a_sys K s') t) as Hset.
    { intros b u Hb Hy Hl Hu. rewrite Hy, Hl, app_nil_r. rewrite Hb in Ht. apply list_lookup_insert_Some in Ht as [(-> & <- & _)|[_ Ht]]; [done|by eapply IH]. }
    destruct Hs; cbn [sys_step set_at a_sys a_tasks] in *.
    - eapply task_ok_stays; [done|by eapply IH].
    - eapply Hset; [done..|]. unfold enter. destruct c; cbn [task_ok tries is_cert is_http]; try done.
      + split; [done|]. exists []. split_and!; [done| |by eexists]. by intros q ?%elem_of_nil.
      + split; [done|]. exists []. split_and!; [done| |by eexists]. by intros q ?%elem_of_nil.
      + split; [done|]. exists []. split_and!; [done| |done]. by intros q ?%elem_of_nil.
      + destruct (z_policy (s_z (v_sys cf))) eqn:Ep; [|split; [done|by left]]. case_bool_decide as He.
        * split_and!; [done| |done]. intros d l. by rewrite He, lookup_empty.
        * cbn in H1. destruct H1 as [_ Hord]. eexists _, _, _. split_and!; [done..| | |done].
          -- intros d l Hd. left. apply Hord. by eexists.
          -- intros d. apply Hord.
    - pose proof (IH _ _ H0) as (Hc & pre & He & Hf & Hq). apply list_lookup_insert_Some in Ht as [(-> & <- & _)|[_ Ht]].
      + split; [done|]. inversion H1 as [? ? z Hz _ Heq1 Heq2 Heq3| | | | | | | | | | | |]; subst. cbn [set_auth y_auth]. cbn [zstep] in Hz.
        destruct (z_tasks (y_auth K (a_sys K s)) !! i) as [[]|] eqn:Ei; try done. injection Hz as <-.
        eexists pre, q, _. split; [done|]. split; [by eapply failed_stays|]. split.
        * intros Hh. destruct (Hq Hh) as [q1 Hq1]. by injection Hq1.
        * cbn [set_task z_tasks]. rewrite list_lookup_insert by (by eapply lookup_lt_Some). split; [done|]. by case_match.
      + eapply task_ok_stays; [done|by eapply IH].
    - pose proof (IH _ _ H0) as (Hc & pre & He & Hf & Hq). eapply Hset; [done..|]. split; [done|]. exists (pre ++ [TFail e]).
      rewrite <- app_assoc. split_and!; [done| |].
      + intros q Hin. rewrite elem_of_app, elem_of_list_singleton in Hin. destruct Hin as [?|?]; [by apply Hf|done].
      + intros Hh. destruct (Hq Hh) as [q1 Hq1]. done.
    - pose proof (IH _ _ H0) as (Hc & pre & He & Hf & Hq). eapply Hset; [done..|]. rewrite app_nil_r in He. cbn [task_ok].
      destruct (is_http c) eqn:Eh; [|destruct (Hq eq_refl) as [q1 Hq1]; done].
      destruct c; try done. split; [done|]. by rewrite He.
    - pose proof (IH _ _ H0) as (Hc & pre & q' & u & He & Hf & Hh & Hu & Hq). rewrite H1 in Hu. injection Hu as <-. injection Hq as ->.
      eapply Hset; [done..|].
      assert (TReq q' ∈ tries c) as Hin by (rewrite He, elem_of_app; right; left).
      assert (went (a_sys K s) q' r) as Hw by (by exists i).
      destruct r as [p|e|].
      + cbn [task_ok]. destruct c; try done; by exists q', p.
      + destruct c; try done; cbn [task_ok].
        * cbn [tries] in *. exists q'. split; [|done]. by apply elem_of_list_singleton in Hin as [= <-].
        * cbn [tries] in *. exists q'. split; [|done]. by apply elem_of_list_singleton in Hin as [= <-].
        * split; [done|]. exists (pre ++ [TReq q']). rewrite <- app_assoc. split_and!; [done| |done].
          intros q2 Hin2. rewrite elem_of_app, elem_of_list_singleton in Hin2. destruct Hin2 as [?|[= ->]]; [by apply Hf|by exists e].
      + cbn [task_ok]. destruct c; try done; by exists q'.
    - pose proof (IH _ _ H0) as (certs' & act' & res' & Heq & Hp & Hl & Hd & Hne). injection Heq as <- <- <-. eapply Hset; [done..|].
      destruct (Hd d ltac:(left)) as [l Hdl]. rewrite Hdl in H2. cbn in H2. subst roles.
      eexists _, _, _. cbn [k_dom]. split_and!; [done..| | | |done].
      + done.
      + intros d' Hin. apply Hd. by right.
      + split_and!; try done. apply chk_view_load; [|done]. by apply arun_sys.
    - pose proof (IH _ _ H0) as (certs & act & res & -> & Hp & Hl & Hd & (Hv & Hk) & Hne). eapply Hset; [done..|].
      eexists _, _, _. cbn [k_dom]. split_and!; [done..| |done]. split; [|done]. eapply chk_view_step; [by apply arun_sys|done..].
    - pose proof (IH _ _ H0) as (certs & act & res & -> & Hp & Hl & Hd & Hk & Hne). eapply Hset; [done..|]. destruct r as [acc|e|]; cbn [task_ok].
      + split; [done|]. right. by exists k, acc.
      + eexists _, _, _. split_and!; [done..| | |done].
        * intros d l Hdl. destruct (Hl _ _ Hdl) as [Hin|?]; [|by right]. apply elem_of_cons in Hin as [->|?]; [right|by left]. by exists k, e.
        * done.
      + by exists k.
    - pose proof (IH _ _ H0) as (certs & act & res & -> & Hp & Hl & Hd & Hne). eapply Hset; [done..|]. done.
  Qed.
End facts.
