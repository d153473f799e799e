(** * Properties C59, C69, C70: configuration *)
From Verif Require Import Config Prop_Authorizer.
From Verif Require Prop_Access Prop_Role Prop_Fetcher.
From Verif Require Export GoStrings.

(** ** C59 *)
(** A URL has a scheme: a letter, then letters, digits and any of + , - . up to "://". *)
Definition letters : str := B "abcdefghijklmnopqrstuvwxyzABCDEFGHIJKLMNOPQRSTUVWXYZ".
Definition scheme_chars : str := letters ++ B "0123456789+,-.".
Definition with_scheme (u : str) : Prop :=
  exists c n rest, u = c :: n ++ B "://" ++ rest /\ c ∈ letters /\ Forall (fun x => x ∈ scheme_chars) n.
(** [v] is [u] without a leading http:// or https:// *)
Definition bare (u v : str) : Prop :=
  u = B "http://" ++ v \/ u = B "https://" ++ v \/
  u = v /\ (forall w, u <> B "http://" ++ w) /\ (forall w, u <> B "https://" ++ w).

Lemma is_alpha_iff c : is_alpha c = true <-> c ∈ letters.
Proof. assert (is_alpha c = bool_decide (c ∈ letters)) as -> by (destruct c as [[] [] [] [] [] [] [] []]; vm_compute; reflexivity). apply bool_decide_eq_true. Qed.
Lemma is_scheme_char_iff c : is_scheme_char c = true <-> c ∈ scheme_chars.
Proof. assert (is_scheme_char c = bool_decide (c ∈ scheme_chars)) as -> by (destruct c as [[] [] [] [] [] [] [] []]; vm_compute; reflexivity). apply bool_decide_eq_true. Qed.
Lemma after_scheme_iff s : after_scheme s = true <-> exists n rest, s = n ++ B "://" ++ rest /\ Forall (fun x => x ∈ scheme_chars) n.
Proof.
  induction s as [|c s IH]; cbn [after_scheme].
  - split; [done|]. intros ([|] & rest & H & _); discriminate H.
  - destruct (is_scheme_char c) eqn:E.
    + rewrite IH. split.
      * intros (n & rest & -> & Hn). exists (c :: n), rest. split; [done|]. constructor; [by apply is_scheme_char_iff|done].
      * intros ([|c' n] & rest & H & Hn); [injection H as -> _; discriminate E|]. injection H as <- ->. inversion Hn; subst. by exists n, rest.
    + rewrite has_prefix_spec. split.
      * intros [t ->]. by exists [], t.
      * intros ([|c' n] & rest & H & Hn); [by exists rest|]. injection H as <- ->. inversion Hn as [|? ? Hc _]; subst. apply is_scheme_char_iff in Hc. congruence.
Qed.
Lemma has_scheme_iff u : has_scheme u = true <-> with_scheme u.
Proof.
  unfold has_scheme, with_scheme. destruct u as [|c u].
  - split; [done|]. by intros (c & n & rest & H & _).
  - rewrite andb_true_iff, is_alpha_iff, after_scheme_iff. split.
    + intros [Hc (n & rest & -> & Hn)]. by exists c, n, rest.
    + intros (c' & n & rest & H & Hc & Hn). injection H as <- ->. split; [done|]. by exists n, rest.
Qed.
Lemma trim_iff u v : trim_http_scheme u = v <-> bare u v.
Proof.
  unfold trim_http_scheme, bare. destruct (has_prefix (B "http://") u) eqn:E1.
  - apply has_prefix_spec in E1 as [t ->]. change (drop 7 (B "http://" ++ t)) with t. split; [intros ->; by left|].
    intros [H|[H|[_ [H _]]]]; [by apply app_inv_head in H|discriminate H|by destruct (H t)].
  - destruct (has_prefix (B "https://") u) eqn:E2.
    + apply has_prefix_spec in E2 as [t ->]. change (drop 8 (B "https://" ++ t)) with t. split; [intros ->; right; by left|].
      intros [H|[H|[_ [_ H]]]]; [discriminate H|by apply app_inv_head in H|by destruct (H t)].
    + rewrite has_prefix_false in E1, E2. split; [intros ->; right; right; split_and!; done|]. intros [H|[H|[H _]]]; [by apply E1 in H|by apply E2 in H|done].
Qed.
(** An Athenz URL is accepted exactly if no scheme remains after removing http:// or https://, and
    that remainder is what is stored. *)
Theorem C59_url_accepted_iff u v : athenz_url u = Ok v <-> bare u v /\ ~ with_scheme v.
Proof.
  unfold athenz_url. rewrite <- has_scheme_iff, <- trim_iff. split.
  - destruct (has_scheme (trim_http_scheme u)) eqn:E; [done|]. intros [= <-]. split; [done|]. by rewrite E.
  - intros [<- H]. by destruct (has_scheme _).
Qed.
Theorem C59_url_rejected u v : bare u v -> with_scheme v -> athenz_url u = Err ErrUnsupportedScheme.
Proof. unfold athenz_url. rewrite <- has_scheme_iff, <- trim_iff. by intros -> ->. Qed.
Lemma athenz_url_bare u : ~ with_scheme u -> athenz_url u = Ok u.
Proof.
  intros H. apply C59_url_accepted_iff. split; [|done]. right. right. split; [done|].
  split; intros w ->; apply H.
  - exists "h"%char, (B "ttp"), w. split; [done|]. split; [|repeat constructor]; refine (bool_decide_unpack _ _); vm_compute; exact I.
  - exists "h"%char, (B "ttps"), w. split; [done|]. split; [|repeat constructor]; refine (bool_decide_unpack _ _); vm_compute; exact I.
Qed.

(** ** C69 *)
(** The value the last option to set it gives a parameter. *)
Definition last_of {A} (sel : option_ -> option A) (d : A) (l : list option_) : A :=
  match last (omap sel l) with Some v => v | None => d end.
Definition sel_a_url (o : option_) : option (str) := match o with OURL u => Some (trim_http_scheme u) | _ => None end.
Definition sel_a_client (o : option_) : option (option client) := match o with OClient x => Some (Some match x with None => ClientDefault30 | Some y => y end) | _ => None end.
Definition sel_a_exp (o : option_) : option (duration) := match o with OCacheExp x => Some (x) | _ => None end.
Definition sel_a_uri_prefix (o : option_) : option (str) := match o with ORoleCertPrefix x => Some (x) | _ => None end.
Definition sel_a_no_pubkeyd (o : option_) : option (bool) := match o with OPubkeyd x => Some (negb x) | _ => None end.
Definition sel_a_pk_refresh (o : option_) : option (str) := match o with OPkRefresh x => Some (x) | _ => None end.
Definition sel_a_pk_retry (o : option_) : option (str) := match o with OPkRetry x => Some (x) | _ => None end.
Definition sel_a_pk_sys (o : option_) : option (str) := match o with OPkSys x => Some (x) | _ => None end.
Definition sel_a_pk_etag (o : option_) : option (str) := match o with OPkEtag x => Some (x) | _ => None end.
Definition sel_a_pk_purge (o : option_) : option (str) := match o with OPkPurge x => Some (x) | _ => None end.
Definition sel_a_no_policyd (o : option_) : option (bool) := match o with OPolicyd x => Some (negb x) | _ => None end.
Definition sel_a_domains (o : option_) : option (option (list str)) := match o with ODomains x => Some (x) | _ => None end.
Definition sel_a_po_margin (o : option_) : option (str) := match o with OPoMargin x => Some (x) | _ => None end.
Definition sel_a_po_refresh (o : option_) : option (str) := match o with OPoRefresh x => Some (x) | _ => None end.
Definition sel_a_po_purge (o : option_) : option (str) := match o with OPoPurge x => Some (x) | _ => None end.
Definition sel_a_po_retry (o : option_) : option (str) := match o with OPoRetry x => Some (x) | _ => None end.
Definition sel_a_po_attempts (o : option_) : option (Z) := match o with OPoAttempts x => Some (x) | _ => None end.
Definition sel_a_no_jwkd (o : option_) : option (bool) := match o with OJwkd x => Some (negb x) | _ => None end.
Definition sel_a_jk_refresh (o : option_) : option (str) := match o with OJkRefresh x => Some (x) | _ => None end.
Definition sel_a_jk_retry (o : option_) : option (str) := match o with OJkRetry x => Some (x) | _ => None end.
Definition sel_a_jk_urls (o : option_) : option (list str) := match o with OJkURLs x => Some (x) | _ => None end.
Definition sel_a_access (o : option_) : option (access_param) := match o with OAccess x => Some (x) | _ => None end.
Definition sel_a_role_token (o : option_) : option (bool) := match o with ORoleToken x => Some (x) | _ => None end.
Definition sel_a_role_header (o : option_) : option (str) := match o with ORoleHeader x => Some (x) | _ => None end.
Definition sel_a_role_cert (o : option_) : option (bool) := match o with ORoleCert x => Some (x) | _ => None end.
Definition sel_a_translator (o : option_) : option (option nat) := match o with OTranslator x => Some (x) | _ => None end.
Definition sel_a_prefix (o : option_) : option (str) := match o with OPrefix x => Some (x) | _ => None end.
Definition settle (c : authority) (l : list option_) : authority :=
  Authority (last_of sel_a_url (a_url c) l)
    (last_of sel_a_client (a_client c) l)
    (last_of sel_a_exp (a_exp c) l)
    (last_of sel_a_uri_prefix (a_uri_prefix c) l)
    (last_of sel_a_no_pubkeyd (a_no_pubkeyd c) l)
    (last_of sel_a_pk_refresh (a_pk_refresh c) l)
    (last_of sel_a_pk_retry (a_pk_retry c) l)
    (last_of sel_a_pk_sys (a_pk_sys c) l)
    (last_of sel_a_pk_etag (a_pk_etag c) l)
    (last_of sel_a_pk_purge (a_pk_purge c) l)
    (last_of sel_a_no_policyd (a_no_policyd c) l)
    (last_of sel_a_domains (a_domains c) l)
    (last_of sel_a_po_margin (a_po_margin c) l)
    (last_of sel_a_po_refresh (a_po_refresh c) l)
    (last_of sel_a_po_purge (a_po_purge c) l)
    (last_of sel_a_po_retry (a_po_retry c) l)
    (last_of sel_a_po_attempts (a_po_attempts c) l)
    (last_of sel_a_no_jwkd (a_no_jwkd c) l)
    (last_of sel_a_jk_refresh (a_jk_refresh c) l)
    (last_of sel_a_jk_retry (a_jk_retry c) l)
    (last_of sel_a_jk_urls (a_jk_urls c) l)
    (last_of sel_a_access (a_access c) l)
    (last_of sel_a_role_token (a_role_token c) l)
    (last_of sel_a_role_header (a_role_header c) l)
    (last_of sel_a_role_cert (a_role_cert c) l)
    (last_of sel_a_translator (a_translator c) l)
    (last_of sel_a_prefix (a_prefix c) l).
Lemma last_of_cons {A} sel (d : A) o l : last_of sel d (o :: l) = last_of sel (match sel o with Some v => v | None => d end) l.
Proof.
  unfold last_of. assert (omap sel (o :: l) = match sel o with Some y => y :: omap sel l | None => omap sel l end) as -> by reflexivity.
  destruct (sel o) as [v|]; [|done]. destruct (omap sel l) as [|x xs] eqn:E; [done|].
  rewrite last_cons_cons. destruct (last (x :: xs)) eqn:E2; [done|]. by apply last_None in E2.
Qed.
Definition urls_ok (l : list option_) : Prop := forall u v, OURL u ∈ l -> bare u v -> ~ with_scheme v.
(** The parameters are those of the last option setting each; an unsupported Athenz URL anywhere is
    an error. *)
Theorem C69_last_option_wins l c c' : apply_all opt_apply l c = Ok c' <-> urls_ok l /\ c' = settle c l.
Proof.
  revert c. induction l as [|o l IH]; intros c.
  - cbn [apply_all]. split; [intros [= <-]; split; [intros u v H; by apply elem_of_nil in H|by destruct c]|]. intros [_ ->]. by destruct c.
  - cbn [apply_all]. assert (forall c2, opt_apply o c = Ok c2 -> settle c2 l = settle c (o :: l)) as Hs.
    { intros c2 Ho. unfold settle. rewrite !last_of_cons. destruct o; cbn [opt_apply] in Ho; try (injection Ho as <-; reflexivity).
      unfold athenz_url in Ho. destruct (has_scheme _); [discriminate Ho|]. cbn [obind] in Ho. injection Ho as <-. reflexivity. }
    assert (urls_ok (o :: l) <-> is_ok (opt_apply o c) = true /\ urls_ok l) as Hu.
    { unfold urls_ok. split.
      - intros H. split; [|intros u v Hin; apply H; by right]. destruct o; try done. cbn [opt_apply].
        assert (athenz_url u = Ok (trim_http_scheme u)) as ->; [|done]. apply C59_url_accepted_iff. assert (bare u (trim_http_scheme u)) as Hb by (by apply trim_iff).
        split; [done|]. eapply H; [left|done].
      - intros [H1 H2] u v Hin Hb. apply elem_of_cons in Hin as [<- |Hin]; [|by eapply H2]. cbn [opt_apply] in H1. intros Hw.
        by rewrite (C59_url_rejected _ _ Hb Hw) in H1. }
    rewrite Hu. destruct (opt_apply o c) as [c2|e|] eqn:Ho; cbn [obind is_ok].
    + rewrite IH, (Hs c2 eq_refl). tauto.
    + split; [done|]. by intros [[? _] _].
    + split; [done|]. by intros [[? _] _].
Qed.
(** A text option left empty means the default. *)
Definition or_default (t dflt : str) : str := if bool_decide (t = []) then dflt else t.
(** A text denotes a duration. *)
Definition denotes (E : parsers) (t : str) (d : duration) : Prop := parse_duration E t = Some d.
(** time.ParseDuration accepts the texts used as defaults. *)
Definition sane (E : parsers) : Prop :=
  Forall (fun t => is_Some (parse_duration E t)) [B "24h"; B "168h"; B "84h"; B "1m"; B "3h"; B "30m"; B "1h"].
(** What the children must look like for given parameters. *)
Definition pub_for (E : parsers) (c : authority) (pk : pk_conf) : Prop :=
  pk_url pk = a_url c /\ pk_sys pk = or_default (a_pk_sys c) (B "sys.auth") /\ pk_client pk = a_client c /\
  denotes E (or_default (a_pk_refresh c) (B "24h")) (pk_refresh pk) /\ denotes E (or_default (a_pk_retry c) (B "1m")) (pk_retry pk) /\
  denotes E (or_default (a_pk_etag c) (B "168h")) (pk_etag pk) /\ denotes E (or_default (a_pk_purge c) (B "84h")) (pk_purge pk).
Definition pol_for (E : parsers) (c : authority) (po : pol_conf) : Prop :=
  po_url po = a_url c /\ po_domains po = match a_domains c with Some ds => ds | None => [] end /\ po_client po = a_client c /\
  po_attempts po = (if a_po_attempts c =? 0 then 2 else a_po_attempts c) /\ po_pkp po = negb (a_no_pubkeyd c) /\
  denotes E (or_default (a_po_margin c) (B "3h")) (po_margin po) /\ denotes E (or_default (a_po_refresh c) (B "30m")) (po_refresh po) /\
  denotes E (or_default (a_po_purge c) (B "1h")) (po_purge po) /\ denotes E (or_default (a_po_retry c) (B "1m")) (po_retry po).
Definition jwk_for (E : parsers) (c : authority) (jk : jwk_conf) : Prop :=
  a_url c <> [] /\ jk_athenz jk = B "https://" ++ a_url c ++ B "/oauth2/keys?rfc=true" /\ jk_client jk = a_client c /\
  jk_urls jk = a_jk_urls c /\ (forall u, u ∈ a_jk_urls c -> uri_scheme E u = Some (B "http") \/ uri_scheme E u = Some (B "https")) /\
  denotes E (or_default (a_jk_refresh c) (B "24h")) (jk_refresh jk) /\ denotes E (or_default (a_jk_retry c) (B "1m")) (jk_retry jk).
(** A duration text of the access token parameters, in seconds; empty means 0. *)
Definition seconds (E : parsers) (t : str) (n : Z) : Prop :=
  t = [] /\ n = 0 \/ t <> [] /\ exists d, denotes E t d /\ n = whole_seconds E d.
Definition acc_for (E : parsers) (c : authority) (ac : acc_conf) : Prop :=
  ac_jwk ac = negb (a_no_jwkd c) /\ a_bound (ac_conf ac) = ap_bound (a_access c) /\ a_verify_client (ac_conf ac) = ap_verify_client (a_access c) /\
  a_clients (ac_conf ac) = ap_clients (a_access c) /\ seconds E (ap_back (a_access c)) (a_back (ac_conf ac)) /\ seconds E (ap_offset (a_access c)) (a_offset (ac_conf ac)).
Definition child {A} (enabled : bool) (P : A -> Prop) (x : option A) : Prop :=
  if enabled then exists a, x = Some a /\ P a else x = None.
Definition configured (E : parsers) (c : authority) (a : authorizer) : Prop :=
  au_conf a = c /\
  child (negb (a_no_pubkeyd c)) (pub_for E c) (au_pub a) /\
  child (negb (a_no_policyd c)) (pol_for E c) (au_pol a) /\
  child (negb (a_no_jwkd c)) (jwk_for E c) (au_jwk a) /\
  child (a_role_token c) (fun p => p = negb (a_no_pubkeyd c)) (au_role a) /\
  child (ap_enable (a_access c)) (acc_for E c) (au_access a) /\
  au_kinds a <> [] /\
  au_kinds a = (if a_role_cert c then [0%nat] else []) ++ (if ap_enable (a_access c) then [1%nat] else []) ++ (if a_role_token c then [2%nat] else []).

Lemma opt_duration_ok {A} E m t (set : duration -> A -> A) a a' :
  opt_duration E m t set a = Ok a' <-> t = [] /\ a' = a \/ t <> [] /\ exists d, denotes E t d /\ a' = set d a.
Proof.
  unfold opt_duration, denotes. destruct t as [|x t].
  - split; [intros [= <-]; by left|]. intros [[_ ->]|[? _]]; done.
  - destruct (parse_duration E (x :: t)) as [d|].
    + split; [intros [= <-]; right; split; [done|]; by exists d|]. intros [[? _]|[_ (d' & [= <-] & ->)]]; done.
    + split; [done|]. intros [[? _]|[_ (d' & ? & _)]]; done.
Qed.
Lemma opt_duration_def {A} E m t dflt d0 (set : duration -> A -> A) a : parse_duration E dflt = Some d0 -> set d0 a = a ->
  opt_duration E m t set a = match parse_duration E (or_default t dflt) with Some d => Ok (set d a) | None => Err (ErrMsg m) end.
Proof. intros Hd Ha. unfold opt_duration, or_default. destruct t; [by rewrite bool_decide_eq_true_2, Hd, Ha|by rewrite bool_decide_eq_false_2]. Qed.
Lemma obind_ok {A C} (x : outcome A) (k : A -> outcome C) c : obind x k = Ok c <-> exists a, x = Ok a /\ k a = Ok c.
Proof. destruct x; cbn; split; [intros H; by exists a|by intros (? & [= <-] & ?)|done|by intros (? & ? & _)|done|by intros (? & ? & _)]. Qed.
Ltac norm := cbv beta iota delta [obind set_pk_url set_pk_sys set_pk_etag set_pk_purge set_pk_refresh set_pk_retry set_pk_client pk_url pk_sys pk_client pk_refresh pk_retry pk_etag pk_purge
  set_po_url set_po_domains set_po_margin set_po_refresh set_po_purge set_po_retry set_po_attempts set_po_client set_po_pkp po_url po_domains po_margin po_refresh po_purge po_retry po_attempts po_client po_pkp
  set_jk_athenz set_jk_refresh set_jk_retry set_jk_urls set_jk_client jk_athenz jk_urls jk_refresh jk_retry jk_client].
Ltac dur d0 H0 := erewrite (opt_duration_def _ _ _ _ d0 _ _ H0) by reflexivity;
  match goal with |- context [parse_duration ?E ?x] =>
    let e := fresh "e" in let He := fresh "He" in destruct (parse_duration E x) as [e|] eqn:He; [norm|split; [done|]; unfold denotes; naive_solver] end.
Lemma pubkey_new_iff E c pk : sane E -> ~ with_scheme (a_url c) ->
  pubkey_new E [PkURL (a_url c); PkSys (a_pk_sys c); PkEtag (a_pk_etag c); PkPurge (a_pk_purge c); PkRefresh (a_pk_refresh c); PkRetry (a_pk_retry c); PkClient (a_client c)] = Ok pk
  <-> pub_for E c pk.
Proof.
  intros Hs Hu. unfold sane in Hs. rewrite !Forall_cons in Hs. destruct Hs as ([d1 H1] & [d2 H2] & [d3 H3] & [d4 H4] & _).
  unfold pubkey_new, pk_defaults. cbn [app apply_all pk_apply]. unfold opt_duration at 1 2 3 4. rewrite H1, H2, H3, H4. rewrite athenz_url_bare by done. cbn [B list_ascii_of_string]; norm.
  unfold pub_for. set (sys := or_default (a_pk_sys c) _).
  replace (match a_pk_sys c with [] => _ | _ :: _ => _ end) with (PkConf (a_url c) sys d1 d4 (Some ClientPackage) d2 d3).
  2:{ unfold sys, or_default. destruct (a_pk_sys c) as [|x t]; [by rewrite bool_decide_eq_true_2|by rewrite bool_decide_eq_false_2]. }
  dur d2 H2. dur d3 H3. dur d1 H1. dur d4 H4. unfold denotes. destruct pk as [p1 p2 p3 p4 p5 p6 p7]; norm. split; [intros [= <- <- <- <- <- <- <-]; done|]. intros (-> & -> & -> & ? & ? & ? & ?). congruence.
Qed.
Lemma policy_new_iff E c b po : sane E -> ~ with_scheme (a_url c) -> b = negb (a_no_pubkeyd c) -> is_Some (a_client c) ->
  policy_new E [PoURL (a_url c); PoDomains (a_domains c); PoMargin (a_po_margin c); PoRefresh (a_po_refresh c); PoPurge (a_po_purge c); PoRetry (a_po_retry c);
     PoAttempts (a_po_attempts c); PoClient (a_client c); PoKeys b] = Ok po
  <-> pol_for E c po.
Proof.
  intros Hs Hu -> [cl Hcl]. unfold sane in Hs. rewrite !Forall_cons in Hs. destruct Hs as (_ & _ & _ & [d1 H1] & [d2 H2] & [d3 H3] & [d4 H4] & _).
  unfold policy_new, pol_defaults. cbn [app apply_all pol_apply]. unfold opt_duration at 1 2 3 4. rewrite H1, H2, H3, H4. rewrite athenz_url_bare by done. cbn [B list_ascii_of_string]; norm.
  unfold pol_for. set (ds := match a_domains c with Some ds => ds | None => [] end). change (2 =? 0) with false. cbn [negb].
  replace (match a_domains c with None => _ | Some _ => _ end) with (PolConf (a_url c) ds d2 d3 d4 d1 2 (Some ClientPackage) false) by (unfold ds; by destruct (a_domains c)).
  dur d2 H2. dur d3 H3. dur d4 H4. dur d1 H1. rewrite Hcl. unfold denotes. destruct po as [p1 p2 p3 p4 p5 p6 p7 p8 p9].
  destruct (a_po_attempts c =? 0), (a_no_pubkeyd c); cbn [negb]; norm;
    (split; [intros H; injection H; intros; subst; done|]; intros (-> & -> & -> & -> & -> & ? & ? & ? & ?); congruence).
Qed.
Lemma check_urls_iff E us : check_urls E us = Ok tt <-> forall u, u ∈ us -> uri_scheme E u = Some (B "http") \/ uri_scheme E u = Some (B "https").
Proof.
  induction us as [|u us IH]; cbn [check_urls].
  - split; [intros _ u Hu; by apply elem_of_nil in Hu|done].
  - destruct (uri_scheme E u) as [s|] eqn:Eu.
    + destruct (bool_decide_reflect (s = B "http")) as [H1|H1], (bool_decide_reflect (s = B "https")) as [H2|H2]; cbn [negb andb]; try rewrite IH.
      1-3: split; [intros H u' [-> |Hu]%elem_of_cons; [rewrite Eu; first [left; congruence|right; congruence]|by apply H]|intros H u' Hu; apply H; by right].
      split; [done|]. intros H. destruct (H u) as [H'|H']; [left|rewrite Eu in H'; injection H' as Hs; by destruct (H1 Hs)|rewrite Eu in H'; injection H' as Hs; by destruct (H2 Hs)].
    + split; [done|]. intros H. destruct (H u) as [H'|H']; [left|by rewrite Eu in H'..].
Qed.
Lemma jwk_new_iff E c jk : sane E -> ~ with_scheme (a_url c) ->
  jwk_new E [JkAthenz (a_url c); JkRefresh (a_jk_refresh c); JkRetry (a_jk_retry c); JkURLs (a_jk_urls c); JkClient (a_client c)] = Ok jk <-> jwk_for E c jk.
Proof.
  intros Hs Hu. unfold sane in Hs. rewrite !Forall_cons in Hs. destruct Hs as ([d1 H1] & _ & _ & [d2 H2] & _).
  unfold jwk_new, jwk_defaults. cbn [app apply_all jwk_apply]. unfold opt_duration at 1 2. rewrite H1, H2. cbn [obind]. rewrite athenz_url_bare by done.
  unfold jwk_for. case_bool_decide as He; [split; [done|]; by intros [? _]|]. cbn [B list_ascii_of_string]; norm.
  dur d1 H1. dur d2 H2. destruct (check_urls E (a_jk_urls c)) as [[]|e1|] eqn:Ec; cbn [obind].
  - pose proof (proj1 (check_urls_iff _ _) Ec) as Hc. unfold denotes. destruct jk as [p1 p2 p3 p4 p5]. norm. split; [intros H; injection H; intros; subst; done|]. intros (_ & -> & -> & -> & _ & ? & ?).
    cbn [B list_ascii_of_string] in *. congruence.
  - split; [done|]. intros (_ & _ & _ & _ & H & _). apply check_urls_iff in H. congruence.
  - split; [done|]. intros (_ & _ & _ & _ & H & _). apply check_urls_iff in H. congruence.
Qed.
Lemma access_new_iff E c b ac : b = negb (a_no_jwkd c) ->
  access_new E [AcJwk b; AcBound (ap_bound (a_access c)); AcVerifyClient (ap_verify_client (a_access c)); AcClients (ap_clients (a_access c));
     AcBack (ap_back (a_access c)); AcOffset (ap_offset (a_access c))] = Ok ac <-> acc_for E c ac.
Proof.
  intros ->. unfold access_new, acc_for, seconds, denotes. cbn [app apply_all acc_apply obind ac_conf ac_jwk a_bound a_back a_offset a_verify_client a_clients].
  destruct ac as [[x1 x2 x3 x4 x5] x6]. cbn [ac_conf ac_jwk a_bound a_back a_offset a_verify_client a_clients].
  rewrite obind_ok. setoid_rewrite opt_duration_ok. cbn [ac_conf ac_jwk a_bound a_back a_offset a_verify_client a_clients]. setoid_rewrite obind_ok. setoid_rewrite opt_duration_ok. unfold denotes. split.
  - intros (y & Hy & z & Hz & [= ->]). destruct Hy as [[Hb ->]|[Hb (d & Hd & ->)]], Hz as [[Ho Hz]|[Ho (d' & Hd' & Hz)]]; injection Hz; intros; subst;
      (split_and!; try done; [first [by left|right; split; [done|]; by eexists]|first [by left|right; split; [done|]; by eexists]]).
  - intros (-> & -> & -> & -> & Hb & Ho). destruct Hb as [[Hb ->]|[Hb (d & Hd & ->)]].
    + eexists. split; [by left|]. destruct Ho as [[Ho ->]|[Ho (d' & Hd' & ->)]]; eexists; (split; [|reflexivity]); [by left|right]. split; [done|]. by exists d'.
    + eexists. split; [right; split; [done|]; by exists d|]. destruct Ho as [[Ho ->]|[Ho (d' & Hd' & ->)]]; eexists; (split; [|reflexivity]); [by left|right]. split; [done|]. by exists d'.
Qed.
Lemma when_iff {A} b (x : outcome A) (P : A -> Prop) r : (b = true -> forall a, x = Ok a <-> P a) -> when b x = Ok r <-> child b P r.
Proof.
  intros H. unfold when, child. destruct b.
  - rewrite obind_ok. split; [intros (a & Ha & [= <-]); exists a; split; [done|]; by apply H|]. intros (a & -> & Ha). exists a. split; [by apply H|done].
  - split; [by intros [= <-]|by intros ->].
Qed.
Lemma child_some {A} b (P : A -> Prop) x : child b P x -> is_some x = b.
Proof. unfold child. destruct b; [by intros (a & -> & _)|by intros ->]. Qed.
(** The defaults, then the user's options. *)
Definition parameters (opts : list option_) : authority := settle zero_authority (default_options ++ opts).
Lemma parameters_client opts : is_Some (a_client (parameters opts)).
Proof.
  unfold parameters. cbn [settle a_client]. unfold last_of. destruct (last _) as [v|] eqn:E.
  - apply last_Some in E as [l E]. assert (v ∈ omap sel_a_client (default_options ++ opts)) as Hv by (rewrite E; apply elem_of_app; right; left).
    apply elem_of_list_omap in Hv as (o & _ & Ho). destruct o; cbn in Ho; try discriminate Ho. injection Ho as <-. by eexists.
  - apply last_None in E. rewrite omap_app in E. apply app_eq_nil in E as [E _]. vm_compute in E. discriminate E.
Qed.
Lemma parameters_url opts : urls_ok (default_options ++ opts) -> ~ with_scheme (a_url (parameters opts)).
Proof.
  intros H. unfold parameters. cbn [settle a_url]. unfold last_of. destruct (last _) as [v|] eqn:E.
  - apply last_Some in E as [l E]. assert (v ∈ omap sel_a_url (default_options ++ opts)) as Hv by (rewrite E; apply elem_of_app; right; left).
    apply elem_of_list_omap in Hv as (o & Hin & Ho). destruct o; cbn in Ho; try discriminate Ho. injection Ho as <-. eapply H; [exact Hin|]. by apply trim_iff.
  - apply last_None in E. rewrite omap_app in E. apply app_eq_nil in E as [E _]. vm_compute in E. discriminate E.
Qed.
(** New succeeds exactly for acceptable options, and its result is configured as they say. *)
Theorem C69_new_iff E opts a : sane E -> new E opts = Ok a <-> urls_ok opts /\ configured E (parameters opts) a.
Proof.
  intros Hs. unfold new. rewrite obind_ok. setoid_rewrite C69_last_option_wins. fold (parameters opts).
  assert (urls_ok (default_options ++ opts) <-> urls_ok opts) as Hu.
  { unfold urls_ok. setoid_rewrite elem_of_app. split; [intros H u v Hin; apply H; by right|]. intros H u v [Hin|Hin]; [|by apply H]. intros Hb Hw.
    assert (u = B "athenz.io/zts/v1") as ->. { unfold default_options in Hin. rewrite !elem_of_cons in Hin. destruct Hin as [[= ->]|Hin]; [done|]. repeat (destruct Hin as [[=]|Hin]). by apply elem_of_nil in Hin. }
    apply trim_iff in Hb. subst v. apply has_scheme_iff in Hw. vm_compute in Hw. discriminate Hw. }
  rewrite <- Hu. set (c := parameters opts). pose proof (parameters_client opts) as Hcl. fold c in Hcl.
  assert ((exists a0, (urls_ok (default_options ++ opts) /\ a0 = c) /\
    (let! pub := when (negb (a_no_pubkeyd a0)) (pubkey_new E [PkURL (a_url a0); PkSys (a_pk_sys a0); PkEtag (a_pk_etag a0); PkPurge (a_pk_purge a0); PkRefresh (a_pk_refresh a0); PkRetry (a_pk_retry a0); PkClient (a_client a0)]) in
     let! pol := when (negb (a_no_policyd a0)) (policy_new E [PoURL (a_url a0); PoDomains (a_domains a0); PoMargin (a_po_margin a0); PoRefresh (a_po_refresh a0); PoPurge (a_po_purge a0); PoRetry (a_po_retry a0); PoAttempts (a_po_attempts a0); PoClient (a_client a0); PoKeys (is_some pub)]) in
     let! jw := when (negb (a_no_jwkd a0)) (jwk_new E [JkAthenz (a_url a0); JkRefresh (a_jk_refresh a0); JkRetry (a_jk_retry a0); JkURLs (a_jk_urls a0); JkClient (a_client a0)]) in
     let! ac := when (ap_enable (a_access a0)) (access_new E [AcJwk (is_some jw); AcBound (ap_bound (a_access a0)); AcVerifyClient (ap_verify_client (a_access a0)); AcClients (ap_clients (a_access a0)); AcBack (ap_back (a_access a0)); AcOffset (ap_offset (a_access a0))]) in
     let! kinds := init_authorizers a0 in
     Ok (Auth a0 pub pol jw (if a_role_token a0 then Some (is_some pub) else None) ac kinds)) = Ok a) <->
    (urls_ok (default_options ++ opts) /\ configured E c a)) as Hx; [|exact Hx].
  pose proof (parameters_url opts) as Hurl. fold c in Hurl. clearbody c. split.
  - intros (a0 & [Hok ->] & H). split; [done|]. pose proof (Hurl Hok) as Hns.
    apply obind_ok in H as (pub & Hpub & H). apply (when_iff _ _ (pub_for E c)) in Hpub; [|intros _ x; by apply pubkey_new_iff].
    apply obind_ok in H as (pol & Hpol & H). apply (when_iff _ _ (pol_for E c)) in Hpol; [|intros _ x; apply policy_new_iff; [done..|by eapply child_some|done]].
    apply obind_ok in H as (jw & Hjw & H). apply (when_iff _ _ (jwk_for E c)) in Hjw; [|intros _ x; by apply jwk_new_iff].
    apply obind_ok in H as (ac & Hac & H). apply (when_iff _ _ (acc_for E c)) in Hac; [|intros _ x; apply access_new_iff; by eapply child_some].
    apply obind_ok in H as (kinds & Hk & H). injection H as <-. unfold configured. cbn [au_conf au_pub au_pol au_jwk au_role au_access au_kinds]. split_and!; try done.
    + pose proof (child_some _ _ _ Hpub) as Hp. unfold child. destruct (a_role_token c); [|done]. by exists (is_some pub).
    + clear -Hk. unfold init_authorizers in Hk. destruct (a_role_cert c), (ap_enable (a_access c)), (a_role_token c); cbn in *; congruence.
    + clear -Hk. unfold init_authorizers in Hk. destruct (a_role_cert c), (ap_enable (a_access c)), (a_role_token c); cbn in *; congruence.
  - intros [Hok (Hc & Hpub & Hpol & Hjw & Hrole & Hac & Hk1 & Hk2)]. exists c. split; [done|]. pose proof (Hurl Hok) as Hns.
    apply obind_ok. exists (au_pub a). split; [apply (when_iff _ _ (pub_for E c)); [intros _ x; by apply pubkey_new_iff|done]|].
    apply obind_ok. exists (au_pol a). split; [apply (when_iff _ _ (pol_for E c)); [intros _ x; apply policy_new_iff; [done..|by eapply child_some|done]|done]|].
    apply obind_ok. exists (au_jwk a). split; [apply (when_iff _ _ (jwk_for E c)); [intros _ x; by apply jwk_new_iff|done]|].
    apply obind_ok. exists (au_access a). split; [apply (when_iff _ _ (acc_for E c)); [intros _ x; apply access_new_iff; by eapply child_some|done]|].
    apply obind_ok. exists (au_kinds a). split.
    + unfold init_authorizers. rewrite <- Hk2. by destruct (au_kinds a).
    + rewrite (child_some _ _ _ Hpub). destruct a as [a1 a2 a3 a4 a5 a6 a7]. cbn [au_conf au_pub au_pol au_jwk au_role au_access au_kinds] in *. subst a1. f_equal. f_equal.
      unfold child in Hrole. destruct (a_role_token c); [by destruct Hrole as (x & -> & ->)|done].
Qed.

(** ** C59, continued *)
Theorem C59_only_https E opts a : sane E -> new E opts = Ok a -> let u := a_url (au_conf a) in ~ with_scheme u /\
  (forall pk env, au_pub a = Some pk -> pubkey_url pk env = B "https://" ++ u ++ B "/domain/" ++ pk_sys pk ++ B "/service/" ++ env) /\
  (forall po d, au_pol a = Some po -> policy_url po d = B "https://" ++ u ++ B "/domain/" ++ d ++ B "/signed_policy_data") /\
  (forall jk t, au_jwk a = Some jk -> t ∈ targets (JConf (jk_athenz jk) (jk_urls jk)) ->
     t = B "https://" ++ u ++ B "/oauth2/keys?rfc=true" \/ t ∈ a_jk_urls (au_conf a) /\ (uri_scheme E t = Some (B "http") \/ uri_scheme E t = Some (B "https"))).
Proof.
  intros Hs H. unfold new in H. apply obind_ok in H as H0. destruct H0 as (c & Hc & _). apply C69_last_option_wins in Hc as [Hok _].
  apply C69_new_iff in H as [_ (Hconf & Hpub & Hpol & Hjw & _)]; [|done]. cbv zeta. rewrite Hconf. split_and!.
  - by apply parameters_url.
  - intros pk env Hpk. rewrite Hpk in Hpub. unfold child in Hpub. destruct (negb _); [|done]. destruct Hpub as (? & [= <-] & H1 & _). unfold pubkey_url. by rewrite H1.
  - intros po d Hpo. rewrite Hpo in Hpol. unfold child in Hpol. destruct (negb (a_no_policyd _)); [|done]. destruct Hpol as (? & [= <-] & H1 & _). unfold policy_url. by rewrite H1.
  - intros jk t Hjk Ht. rewrite Hjk in Hjw. unfold child in Hjw. destruct (negb (a_no_jwkd _)); [|done]. destruct Hjw as (? & [= <-] & _ & H1 & _ & H2 & H3 & _).
    unfold targets in Ht. cbn [j_urls j_athenz] in Ht. rewrite H1, H2 in Ht. destruct (is_contain _ _).
    + right. split; [done|]. by apply H3.
    + apply elem_of_cons in Ht as [-> |Ht]; [by left|]. right. split; [done|]. by apply H3.
Qed.
Theorem C59_bad_url_rejected E opts u v : OURL u ∈ opts -> bare u v -> with_scheme v -> new E opts = Err ErrUnsupportedScheme.
Proof.
  intros Hin Hb Hw. unfold new. assert (apply_all opt_apply (default_options ++ opts) zero_authority = Err ErrUnsupportedScheme) as ->; [|done].
  assert (OURL u ∈ default_options ++ opts) as Hin' by (apply elem_of_app; by right). clear Hin. generalize zero_authority. induction (default_options ++ opts) as [|o l IH]; intros c; [by apply elem_of_nil in Hin'|].
  cbn [apply_all]. apply elem_of_cons in Hin' as [<- |Hin].
  - cbn [opt_apply]. by rewrite (C59_url_rejected _ _ Hb Hw).
  - destruct o; cbn [opt_apply obind]; try (by apply IH). unfold athenz_url. destruct (has_scheme _); cbn [obind]; [done|by apply IH].
Qed.
Definition E0 : parsers := Parsers (fun t => match t with "x"%char :: _ => None | _ => Some (Z.of_nat (length t)) end) (fun d => d)
  (fun u => if has_prefix (B "http://") u then Some (B "http") else if has_prefix (B "https://") u then Some (B "https") else None).
Lemma sane_E0 : sane E0.
Proof. unfold sane. repeat constructor; vm_compute; by eexists. Qed.
Definition opts1 : list option_ :=
  [OURL (B "https://zts.example/v1"); ODomains (Some [B "dom"]); OPkRefresh (B "5m"); OURL (B "http://other/v2"); OPoAttempts 0; OPkSys []; OJkURLs [B "http://keys"]].
Definition made (E : parsers) (opts : list option_) : authorizer :=
  match new E opts with Ok a => a | _ => Auth zero_authority None None None None None [] end.
Lemma made_ok E opts : is_ok (new E opts) = true -> new E opts = Ok (made E opts).
Proof. unfold made. by destruct (new E opts). Qed.
(** Key sets may be fetched without TLS: WithJwkURLs accepts plain http. *)
Theorem C59_user_key_set_may_be_plain_http : exists E opts a jk, sane E /\ new E opts = Ok a /\ au_jwk a = Some jk /\
  B "http://keys" ∈ targets (JConf (jk_athenz jk) (jk_urls jk)) /\ uri_scheme E (B "http://keys") = Some (B "http").
Proof.
  exists E0, opts1, (made E0 opts1), (match au_jwk (made E0 opts1) with Some j => j | None => JwkConf [] [] 0 0 None end).
  split_and!; [exact sane_E0|apply made_ok; vm_compute; reflexivity|vm_compute; reflexivity| |vm_compute; reflexivity].
  refine (bool_decide_unpack _ _). vm_compute. exact I.
Qed.
Example C59_nonvacuous : is_ok (new E0 opts1) = true /\ a_url (au_conf (made E0 opts1)) = B "other/v2" /\
  option_map (fun pk => pubkey_url pk (B "zts")) (au_pub (made E0 opts1)) = Some (B "https://other/v2/domain/sys.auth/service/zts") /\
  option_map (fun po => policy_url po (B "dom")) (au_pol (made E0 opts1)) = Some (B "https://other/v2/domain/dom/signed_policy_data") /\
  option_map (fun jk => targets (JConf (jk_athenz jk) (jk_urls jk))) (au_jwk (made E0 opts1)) = Some [B "https://other/v2/oauth2/keys?rfc=true"; B "http://keys"] /\
  new E0 [OURL (B "ftp://x"); OURL (B "y")] = Err ErrUnsupportedScheme /\ new E0 [OURL (B "http://https://x")] = Err ErrUnsupportedScheme /\
  athenz_url (B "HTTPS://x") = Err ErrUnsupportedScheme /\ athenz_url (B "a,b://x") = Err ErrUnsupportedScheme /\ athenz_url (B "1a://x") = Ok (B "1a://x").
Proof. split_and!; vm_compute; reflexivity. Qed.
Example C69_nonvacuous : is_ok (new E0 opts1) = true /\ urls_ok opts1 /\ configured E0 (parameters opts1) (made E0 opts1) /\
  option_map pk_refresh (au_pub (made E0 opts1)) = Some 2 /\ option_map po_attempts (au_pol (made E0 opts1)) = Some 2 /\
  is_ok (new E0 [OPkRefresh (B "x")]) = false /\ is_ok (new E0 [OPkRefresh (B "x"); OPubkeyd false]) = true /\
  is_ok (new E0 [OURL []]) = false /\ is_ok (new E0 [OURL []; OJwkd false]) = true /\
  new E0 [ORoleCert false; ORoleToken false; OAccess (AccessParam false true [] [] false ∅)] = Err (ErrMsg "error no authorizers").
Proof.
  assert (new E0 opts1 = Ok (made E0 opts1)) as H by (apply made_ok; vm_compute; reflexivity). pose proof H as H'. apply C69_new_iff in H as [H1 H2]; [|exact sane_E0].
  split_and!; [by rewrite H'|done|done|vm_compute; reflexivity..].
Qed.

(** What New uses when it is given no options: the documented values, and nothing else. *)
Theorem C69_defaults : parameters [] =
  Authority (B "athenz.io/zts/v1") (Some ClientDefault30) 60000000000 (B "athenz://role/")
    false [] [] [] [] [] false None [] [] [] [] 0 false [] [] []
    (AccessParam true true (B "1h") (B "1h") false ∅) true (B "Athenz-Role-Auth") true None [].
Proof. vm_compute. reflexivity. Qed.
(** What requests are handled with is what the options say: the switch of the policy daemon, the
    chosen translator, the resource prefix, the lifetime of cached results, the kinds of tokens and
    the access token parameters. *)
Theorem C69_options_take_effect {O} (tr : nat -> O -> str -> str -> str -> str -> outcome (str * str)) E opts a : sane E -> new E opts = Ok a ->
  let p := parameters opts in let z := run_conf tr a in
  z_policy z = negb (a_no_policyd p) /\ z_prefix z = a_prefix p /\ z_exp z = a_exp p /\
  z_role z = a_role_token p /\ z_access z = ap_enable (a_access p) /\
  (a_translator p = None -> z_trans z = None) /\ (forall n, a_translator p = Some n -> z_trans z = Some (tr n)) /\
  (z_access z = true -> a_bound (z_aconf z) = ap_bound (a_access p) /\ a_verify_client (z_aconf z) = ap_verify_client (a_access p) /\
     a_clients (z_aconf z) = ap_clients (a_access p) /\ seconds E (ap_back (a_access p)) (a_back (z_aconf z)) /\ seconds E (ap_offset (a_access p)) (a_offset (z_aconf z))).
Proof.
  intros Hs Hn p z. apply C69_new_iff in Hn as [_ (Hc & _ & _ & _ & Hro & Hac & _)]; [|done]. fold p in Hc, Hro, Hac.
  unfold z, run_conf. cbn [z_policy z_prefix z_exp z_role z_access z_trans z_aconf]. rewrite Hc, (child_some _ _ _ Hro), (child_some _ _ _ Hac). split_and!; try done.
  - by intros ->.
  - by intros n ->.
  - unfold child in Hac. intros He. rewrite He in Hac. destruct Hac as (ac & -> & _ & ?). done.
Qed.
Print Assumptions C69_defaults.
Print Assumptions C69_options_take_effect.

(** ** C70 *)
(** The key providers the running authorizer has: those of its daemons. *)
Definition providers_of {K} (a : authorizer) (ks : keys K) : Prop :=
  is_some (ks_pub K ks) = is_some (au_pub a) /\ is_some (ks_jwk K ks) = is_some (au_jwk a).
Lemma process_no_panic {K X} {O} (tr : nat -> O -> str -> str -> str -> str -> outcome (str * str)) E opts a ks now q : sane E -> new E opts = Ok a -> providers_of a ks ->
  match q_mode q with
  | MRole => a_role_token (au_conf a) = true /\ a_no_pubkeyd (au_conf a) = false
  | MAccess => ap_enable (a_access (au_conf a)) = true /\ a_no_jwkd (au_conf a) = false
  end -> process K X (run_conf tr a) ks now q <> Panic.
Proof.
  intros Hs Hn [Hk1 Hk2] Hm. apply C69_new_iff in Hn as [_ (Hc & Hpub & _ & Hjw & Hro & Hac & _)]; [|done]. rewrite <- Hc in *.
  unfold process, run_conf. cbn [z_role z_access z_aconf]. destruct (q_mode q), Hm as [H1 H2].
  - rewrite (child_some _ _ _ Hro), H1. rewrite (child_some _ _ _ Hpub), H2 in Hk1. destruct (ks_pub K ks) as [pkp|]; [|done].
    destruct (parse_and_validate K (Some pkp) now (q_tok q)) eqn:E1; [done|done|by apply Prop_Role.C35_never_panics in E1].
  - rewrite (child_some _ _ _ Hac), H1. rewrite (child_some _ _ _ Hjw), H2 in Hk2. destruct (ks_jwk K ks) as [jwkp|]; [|done].
    destruct (parse_access X _ (Some jwkp) now (q_tok q) (q_cert q)) eqn:E1; [done|done|by apply Prop_Access.C37_never_panics in E1].
Qed.
(** Environments in which the parts outside this file do not panic. *)
Definition calm {K} {O} (tr : nat -> O -> str -> str -> str -> str -> outcome (str * str)) (a : authorizer) (e : @env K O) : Prop :=
  providers_of a (e_keys K e) /\ (forall d rs ac re, e_check K e d rs ac re <> Panic) /\
  forall n o d m p q, tr n o d m p q <> Panic.
Lemma authorize_no_panic {K X} {O} (tr : nat -> O -> str -> str -> str -> str -> outcome (str * str)) E opts a e q c : sane E -> new E opts = Ok a -> calm tr a e ->
  match q_mode q with
  | MRole => a_role_token (au_conf a) = true /\ a_no_pubkeyd (au_conf a) = false
  | MAccess => ap_enable (a_access (au_conf a)) = true /\ a_no_jwkd (au_conf a) = false
  end -> fst (authorize K X (run_conf tr a) e q c) <> Panic.
Proof.
  intros Hs Hn (Hp & Hc & Ht) Hm. unfold authorize. destruct (empty_params _ _); [done|]. destruct (g_get _ _ _); [done|].
  pose proof (process_no_panic (K:=K) (X:=X) tr E opts a (e_keys K e) (e_now K e) q Hs Hn Hp Hm) as Hpr.
  destruct (process K X (run_conf tr a) (e_keys K e) (e_now K e) q) as [p|er|]; cbn [obind]; [|done|done].
  destruct (z_policy (run_conf tr a)); [|done]. unfold target.
  assert (match z_trans (run_conf tr a) with Some t => t (e_order K e) (pr_domain p) (q_act q) (q_res q) (q_query q) | None => Ok (q_act q, q_res q) end <> Panic) as Htr.
  { cbn [z_trans run_conf]. destruct (a_translator (au_conf a)); cbn [option_map]; [apply Ht|done]. }
  destruct (match z_trans _ with Some _ => _ | None => _ end) as [ar|er|]; cbn [obind]; [|done|done].
  pose proof (Hc (pr_domain p) (pr_roles p) (fst ar) (z_prefix (run_conf tr a) ++ snd ar)) as Hck. cbn [fst snd].
  destruct (e_check K e _ _ _ _); cbn [obind fst]; done.
Qed.
(** With the daemons each enabled credential needs, no HTTP request panics. *)
Theorem C70_requests_safe_partial {K X} {O} (tr : nat -> O -> str -> str -> str -> str -> outcome (str * str)) E opts a r act res fs es c :
  sane E -> new E opts = Ok a -> (forall n, calm tr a (es n)) ->
  (a_role_token (au_conf a) = true -> a_no_pubkeyd (au_conf a) = false) ->
  (ap_enable (a_access (au_conf a)) = true -> a_no_jwkd (au_conf a) = false) ->
  authorizers K X (a_role_cert (au_conf a)) (run_conf tr a) r act res = Some fs ->
  fst (verify_loop K (run_conf tr a) fs es c) <> Panic /\ fst (authorize_loop K (run_conf tr a) fs es c) <> Panic.
Proof.
  intros Hs Hn Hcalm Hr Ha Hfs.
  assert (Forall (fun f => forall e c, calm tr a e -> fst (f (run_conf tr a) e c) <> Panic) fs) as Hall.
  { unfold authorizers in Hfs. pose proof Hn as Hn'. apply C69_new_iff in Hn' as [_ (Hc & _ & _ & _ & Hro & Hac & _)]; [|done]. rewrite <- Hc in *.
    assert (z_access (run_conf tr a) = ap_enable (a_access (au_conf a))) as E1 by (exact (child_some _ _ _ Hac)).
    assert (z_role (run_conf tr a) = a_role_token (au_conf a)) as E2 by (exact (child_some _ _ _ Hro)).
    assert (fs = (if a_role_cert (au_conf a) then [rc_authorizer K r act res] else []) ++ (if z_access (run_conf tr a) then [at_authorizer K X r act res] else []) ++
                 (if z_role (run_conf tr a) then [rt_authorizer K X r act res] else [])) as ->.
    { match type of Hfs with match ?l with _ => _ end = _ => assert (fs = l) as -> by (destruct l; [done|by injection Hfs as <-]) end. done. }
    apply Forall_app; split; [|apply Forall_app; split].
    - destruct (a_role_cert _); [|constructor]. constructor; [|constructor]. intros e c' _. done.
    - rewrite E1. destruct (ap_enable _) eqn:Ee; [|constructor]. constructor; [|constructor]. intros e c' He. unfold at_authorizer.
      destruct (extract_token (h_authz r)) as [tk|er|] eqn:Et; [|done|].
      + apply (authorize_no_panic tr E opts a e); [done..|]. cbn [q_mode]. auto.
      + unfold extract_token in Et. destruct (h_authz r); [done|]. by destruct (_ && _).
    - rewrite E2. destruct (a_role_token _) eqn:Ee; [|constructor]. constructor; [|constructor]. intros e c' He. unfold rt_authorizer.
      apply (authorize_no_panic tr E opts a e); [done..|]. cbn [q_mode]. auto. }
  clear Hfs. revert c. induction fs as [|f fs IH]; intros c; [done|]. inversion Hall as [|? ? Hf Hfs]; subst. cbn [verify_loop authorize_loop].
  specialize (Hf (es (length fs)) c (Hcalm _)). destruct (f _ _ c) as [[p|er|] c'] eqn:Ef; [done| |done]. by apply IH.
Qed.
(** Role tokens without the public key daemon: every unexpired token of the right form panics. *)
Theorem C70_no_pubkeyd_panics {K X} {O} (tr : nat -> O -> str -> str -> str -> str -> outcome (str * str)) E opts a e q c t : sane E -> new E opts = Ok a -> calm tr a e ->
  a_role_token (au_conf a) = true -> a_no_pubkeyd (au_conf a) = true ->
  q_mode q = MRole -> empty_params (run_conf tr a) q = false -> g_get (e_now K e) (cache_key (run_conf tr a) q) c = None ->
  parse_token (q_tok q) = Ok t -> e_now K e <= rt_expiry t ->
  fst (authorize K X (run_conf tr a) e q c) = Panic.
Proof.
  intros Hs Hn ([Hk _] & _) Hr Hp Hm He Hg Ht Hx. unfold authorize. rewrite He, Hg. unfold process. rewrite Hm.
  apply C69_new_iff in Hn as [_ (Hc & Hpub & _ & _ & Hro & _)]; [|done]. rewrite <- Hc in *.
  assert (z_role (run_conf tr a) = true) as -> by (cbn; by rewrite (child_some _ _ _ Hro)).
  rewrite (child_some _ _ _ Hpub), Hp in Hk. destruct (ks_pub K (e_keys K e)); [done|].
  assert (parse_and_validate K None (e_now K e) (q_tok q) = Panic) as ->; [|done]. apply Prop_Role.C35_nil_provider_panics. by exists t.
Qed.
(** A disabled credential kind panics when called directly (AuthorizeRoleToken, AuthorizeAccessToken). *)
Theorem C70_disabled_kind_panics {K X} {O} (tr : nat -> O -> str -> str -> str -> str -> outcome (str * str)) E opts a e q c : sane E -> new E opts = Ok a ->
  match q_mode q with MRole => a_role_token (au_conf a) = false | MAccess => ap_enable (a_access (au_conf a)) = false end ->
  empty_params (run_conf tr a) q = false -> g_get (e_now K e) (cache_key (run_conf tr a) q) c = None ->
  fst (authorize K X (run_conf tr a) e q c) = Panic.
Proof.
  intros Hs Hn Hm He Hg. unfold authorize. rewrite He, Hg. unfold process.
  apply C69_new_iff in Hn as [_ (Hc & _ & _ & _ & Hro & Hac & _)]; [|done]. rewrite <- Hc in *. cbn [run_conf z_role z_access].
  destruct (q_mode q); [by rewrite (child_some _ _ _ Hro), Hm|by rewrite (child_some _ _ _ Hac), Hm].
Qed.
(** The policy daemon without the public key daemon: every unexpired policy panics in its verifier. *)
Theorem C70_policy_without_keys_panics K E opts a now sp d ex : sane E -> new E opts = Ok a -> a_no_policyd (au_conf a) = false -> a_no_pubkeyd (au_conf a) = true ->
  option_map po_pkp (au_pol a) = Some false /\
  (sp_data sp = Some d -> sd_expires d = Some ex -> 0 < time_sub ex now -> sp_verify_with K None now (Some sp) = Panic).
Proof.
  intros Hs Hn H1 H2. apply C69_new_iff in Hn as [_ (Hc & _ & Hpol & _)]; [|done]. rewrite <- Hc in *. split.
  - unfold child in Hpol. rewrite H1 in Hpol. destruct Hpol as (po & -> & _ & _ & _ & _ & H & _). cbn. by rewrite H, H2.
  - intros H3 H4 H5. cbn [sp_verify_with]. rewrite H3, H4. by destruct (Z.leb_spec (time_sub ex now) 0); [lia|].
Qed.
Definition tr0 : nat -> unit -> str -> str -> str -> str -> outcome (str * str) := fun _ _ _ a r _ => Ok (a, r).
Definition env_of (pub jw : bool) (t : time) : @env K1 unit :=
  Env K1 t (Keys K1 (if pub then Some Prop_Fetcher.keys1 else None) (if jw then Some Prop_Access.p0 else None)) tt (fun _ rs _ _ => Ok rs).
Definition no_pub : list option_ := [OPubkeyd false; OPolicyd false].
Definition no_jwk : list option_ := [OJwkd false].
(** Accepted configurations in which a request panics. *)
Theorem C70_no_panic_refuted :
  (exists a, new E0 no_pub = Ok a /\ calm tr0 a (env_of false true (50 * second)) /\
    fst (authorize K1 X0 (run_conf tr0 a) (env_of false true (50 * second)) (Req MRole rtok [] [] [] None) ∅) = Panic) /\
  (exists a, new E0 no_jwk = Ok a /\ calm tr0 a (env_of true false (150 * second)) /\
    fst (authorize K1 X0 (run_conf tr0 a) (env_of true false (150 * second)) (Req MAccess atok (B "get") (B "/a") [] None) ∅) = Panic).
Proof.
  split.
  - exists (made E0 no_pub). split_and!; [apply made_ok; vm_compute; reflexivity| |vm_compute; reflexivity]. by split_and!.
  - exists (made E0 no_jwk). split_and!; [apply made_ok; vm_compute; reflexivity| |vm_compute; reflexivity]. by split_and!.
Qed.
Definition ask1 (t : time) : outcome unit :=
  match authorizers K1 X0 (a_role_cert (au_conf (made E0 []))) (run_conf tr0 (made E0 [])) (HReq None [] rtok []) (B "get") (B "/a") with
  | Some fs => fst (verify_loop K1 (run_conf tr0 (made E0 [])) fs (fun _ => env_of true true t) ∅)
  | None => Panic
  end.
Example C70_nonvacuous : new E0 [] = Ok (made E0 []) /\ calm tr0 (made E0 []) (env_of true true (50 * second)) /\
  a_role_token (au_conf (made E0 [])) = true /\ a_no_pubkeyd (au_conf (made E0 [])) = false /\
  ap_enable (a_access (au_conf (made E0 []))) = true /\ a_no_jwkd (au_conf (made E0 [])) = false /\
  ask1 (50 * second) = Ok tt /\ ask1 (200 * second) = Err ErrInvalidCredentials.
Proof. split_and!; [apply made_ok; vm_compute; reflexivity|by split_and!|vm_compute; reflexivity..]. Qed.

Print Assumptions C59_url_accepted_iff.
Print Assumptions C59_url_rejected.
(** The HTTP client: policy.New ignores a nil client, pubkey.New and jwk.New take whatever comes last. *)
Definition policy_client (opts : list pol_opt) : client := fold_left (fun x o => match o with PoClient (Some y) => y | _ => x end) opts ClientPackage.
Definition pubkey_client (opts : list pk_opt) : option client := fold_left (fun x o => match o with PkClient y => y | _ => x end) opts (Some ClientPackage).
Definition jwk_client (opts : list jwk_opt) : option client := fold_left (fun x o => match o with JkClient y => y | _ => x end) opts (Some ClientPackage).
Lemma apply_all_fold {O C X} (f : O -> C -> outcome C) (get : C -> X) (upd : X -> O -> X) (Hf : forall o c c', f o c = Ok c' -> get c' = upd (get c) o) opts :
  forall c c', apply_all f opts c = Ok c' -> get c' = fold_left upd opts (get c).
Proof.
  induction opts as [|o opts IH]; intros c c' H; cbn [apply_all] in H; [by injection H as ->|]. cbn [fold_left].
  destruct (f o c) as [c1| |] eqn:E; [|done..]. apply Hf in E. rewrite <- E. by apply IH.
Qed.
Theorem C69_clients E : (forall opts c, policy_new E opts = Ok c -> po_client c = Some (policy_client opts)) /\
  (forall opts c, pubkey_new E opts = Ok c -> pk_client c = pubkey_client opts) /\ forall opts c, jwk_new E opts = Ok c -> jk_client c = jwk_client opts.
Proof.
  split; [|split]; intros opts c H.
  - apply (apply_all_fold _ po_client (fun x o => match o with PoClient (Some y) => Some y | _ => x end)) in H.
    + rewrite H, fold_left_app. cbn [pol_defaults fold_left po_client]. unfold policy_client. generalize ClientPackage. clear. induction opts as [|o opts IH]; intros x; [done|].
      cbn [fold_left]. destruct o as [| | | | | | |[y|]|]; apply IH.
    + clear. intros o c c' H. destruct o as [u|[ds|]|t|t|t|t|n|[y|]|[]]; cbn [pol_apply] in H;
        try (apply opt_duration_ok in H as [[_ ->]|(_ & d & _ & ->)]; done); try (by injection H as <-).
      * apply obind_ok in H as (u' & _ & [= <-]). done.
      * destruct (n =? 0); by injection H as <-.
  - apply (apply_all_fold _ pk_client (fun x o => match o with PkClient y => y | _ => x end)) in H.
    + by rewrite H, fold_left_app.
    + clear. intros o c c' H. destruct o as [u|d|t|t|t|t|y]; cbn [pk_apply] in H;
        try (apply opt_duration_ok in H as [[_ ->]|(_ & x & _ & ->)]; done).
      * apply obind_ok in H as (u' & _ & [= <-]). done.
      * destruct d; by injection H as <-.
      * by injection H as <-.
  - apply (apply_all_fold _ jk_client (fun x o => match o with JkClient y => y | _ => x end)) in H.
    + by rewrite H, fold_left_app.
    + clear. intros o c c' H. destruct o as [u|t|t|us|y]; cbn [jwk_apply] in H;
        try (apply opt_duration_ok in H as [[_ ->]|(_ & x & _ & ->)]; done).
      * destruct (bool_decide _); [done|]. apply obind_ok in H as (u' & _ & [= <-]). done.
      * apply obind_ok in H as (u' & _ & [= <-]). done.
      * by injection H as <-.
Qed.
Print Assumptions C69_clients.
Print Assumptions C69_last_option_wins.
Print Assumptions C69_new_iff.
Print Assumptions C59_only_https.
Print Assumptions C59_bad_url_rejected.
Print Assumptions C59_user_key_set_may_be_plain_http.
Print Assumptions C59_nonvacuous.
Print Assumptions C69_nonvacuous.
Print Assumptions C70_requests_safe_partial.
Print Assumptions C70_no_pubkeyd_panics.
Print Assumptions C70_disabled_kind_panics.
Print Assumptions C70_policy_without_keys_panics.
Print Assumptions C70_no_panic_refuted.
Print Assumptions C70_nonvacuous.
