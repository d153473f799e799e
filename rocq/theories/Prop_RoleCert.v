(** * Property C50 (and C49): role certificates *)
From Verif Require Import Authorizer RoleCert.
From Verif Require Prop_Authorizer.

(** ** What a certificate says *)
(** [d ":role." r], split at the first delimiter. *)
Definition names_role (cn d r : str) : Prop :=
  cn = d ++ B ":role." ++ r /\ forall a b, cn = a ++ B ":role." ++ b -> (length d <= length a)%nat.
(** [pfx d "/" r], split at the first slash. *)
Definition locates_role (pfx uri d r : str) : Prop := uri = pfx ++ d ++ "/"%char :: r /\ "/"%char ∉ d.
Definition carries (pfx : str) (certs : list cert) (d r : str) : Prop :=
  exists c, c ∈ certs /\ (names_role (c_cn c) d r \/ exists u, u ∈ c_uris c /\ locates_role pfx u d r).
(** No two different pairs read the same when glued together. *)
Definition unambiguous (pfx : str) (certs : list cert) : Prop :=
  forall d r d' r', carries pfx certs d r -> carries pfx certs d' r' -> d ++ r = d' ++ r' -> d = d'.
(** [l] lists the roles carried in [d], each once. *)
Definition roles_in (pfx : str) (certs : list cert) (d : str) (l : list str) : Prop :=
  NoDup l /\ forall r, r ∈ l <-> carries pfx certs d r.

(** ** Proofs *)
(** The pairs in the order the code meets them. *)
Definition cn_pairs (cn : str) : list (str * str) := match cut (B ":role.") cn with Some p => [p] | None => [] end.
Definition uri_pairs (pfx u : str) : list (str * str) :=
  if has_prefix pfx u then match cut (B "/") (trim_prefix pfx u) with Some p => [p] | None => [] end else [].
Definition pairs_of (pfx : str) (c : cert) : list (str * str) := cn_pairs (c_cn c) ++ flat_map (uri_pairs pfx) (c_uris c).
Definition all_pairs (pfx : str) (certs : list cert) : list (str * str) := flat_map (pairs_of pfx) certs.

Lemma cn_pairs_spec cn d r : (d, r) ∈ cn_pairs cn <-> names_role cn d r.
Proof.
  unfold cn_pairs. destruct (cut (B ":role.") cn) as [[a b]|] eqn:E.
  - rewrite elem_of_list_singleton. apply cut_some in E as [He Hf]. split.
    + intros [= -> ->]. by split.
    + intros [H1 H2]. specialize (H2 _ _ He). specialize (Hf _ _ H1).
      rewrite H1 in He. apply app_inj_1 in He as [-> He]; [|lia]. apply app_inv_head in He as ->. done.
  - split; [by intros ?%elem_of_nil|]. intros [H _]. eapply cut_none in E. by destruct E.
Qed.
Lemma uri_pairs_spec pfx u d r : (d, r) ∈ uri_pairs pfx u <-> locates_role pfx u d r.
Proof.
  unfold uri_pairs, locates_role. destruct (has_prefix pfx u) eqn:E.
  - apply has_prefix_spec in E as [t ->]. rewrite trim_prefix_app.
    assert ((d, r) ∈ (match cut (B "/") t with Some p => [p] | None => [] end) <-> cut (B "/") t = Some (d, r)) as ->.
    { destruct (cut (B "/") t) as [p|]; [rewrite elem_of_list_singleton; split; [by intros ->|by intros [= ->]]|split; [by intros ?%elem_of_nil|done]]. }
    change (B "/") with ["/"%char]. rewrite cut_char_some. split; [by intros [-> ?]|]. intros [H ?]. by apply app_inv_head in H.
  - split; [by intros ?%elem_of_nil|]. intros [-> _]. by rewrite has_prefix_app in E.
Qed.
Lemma all_pairs_spec pfx certs d r : (d, r) ∈ all_pairs pfx certs <-> carries pfx certs d r.
Proof.
  unfold all_pairs, carries. rewrite elem_of_list_In, in_flat_map. split.
  - intros (c & Hc & Hin). exists c. split; [by apply elem_of_list_In|]. unfold pairs_of in Hin. apply in_app_or in Hin as [Hin|Hin].
    + left. apply cn_pairs_spec. by apply elem_of_list_In.
    + right. apply in_flat_map in Hin as (u & Hu & Hin). exists u. split; [by apply elem_of_list_In|]. apply uri_pairs_spec. by apply elem_of_list_In.
  - intros (c & Hc & [H|(u & Hu & H)]); exists c; (split; [by apply elem_of_list_In|]); unfold pairs_of; apply in_or_app.
    + left. apply elem_of_list_In. by apply cn_pairs_spec.
    + right. apply in_flat_map. exists u. split; [by apply elem_of_list_In|]. apply elem_of_list_In. by apply uri_pairs_spec.
Qed.
Definition add_pair (s : rcst) (p : str * str) : rcst := add_domain_roles s [fst p; snd p].
Lemma split_n2_pairs sep t s : add_domain_roles s (split_n2 sep t) =
  fold_left add_pair (match cut sep t with Some p => [p] | None => [] end) s.
Proof. unfold split_n2. by destruct (cut sep t) as [[a b]|]. Qed.
Lemma cert_roles_pairs pfx certs : cert_roles pfx certs = rc_roles (fold_left add_pair (all_pairs pfx certs) (RcSt ∅ ∅)).
Proof.
  unfold cert_roles. f_equal. generalize (RcSt ∅ ∅). induction certs as [|c certs IH]; intros s; [done|].
  cbn [fold_left all_pairs flat_map]. rewrite fold_left_app. rewrite IH. f_equal. clear IH.
  unfold pairs_of, add_cert. rewrite fold_left_app. rewrite split_n2_pairs. fold (cn_pairs (c_cn c)).
  generalize (fold_left add_pair (cn_pairs (c_cn c)) s). induction (c_uris c) as [|u us IH]; intros s'; [done|].
  cbn [fold_left flat_map]. rewrite fold_left_app. rewrite IH. f_equal. unfold add_uri, uri_pairs. destruct (has_prefix pfx u); [|done].
  by rewrite split_n2_pairs.
Qed.

(** The state after a list of pairs. *)
Record rc_inv (ps : list (str * str)) (s : rcst) : Prop := {
  inv_seen : forall x, x ∈ rc_seen s <-> exists d r, (d, r) ∈ ps /\ x = d ++ r;
  inv_sub : forall d l, rc_roles s !! d = Some l -> l <> [] /\ NoDup l /\ forall r, r ∈ l -> (d, r) ∈ ps;
  inv_some : forall x, x ∈ rc_seen s -> exists d r l, x = d ++ r /\ rc_roles s !! d = Some l /\ r ∈ l }.
Lemma rc_invariant ps : rc_inv ps (fold_left add_pair ps (RcSt ∅ ∅)).
Proof.
  induction ps as [|[d r] ps IH] using rev_ind.
  - split; cbn.
    + intros x. split; [by intros ?%elem_of_empty|]. by intros (d & r & ?%elem_of_nil & _).
    + intros d l. by rewrite lookup_empty.
    + by intros x ?%elem_of_empty.
  - rewrite fold_left_app. cbn [fold_left]. set (s := fold_left add_pair ps (RcSt ∅ ∅)) in *. clearbody s. destruct IH as [I1 I2 I3].
    unfold add_pair. cbn [add_domain_roles fst snd]. case_bool_decide as Hseen.
    + split; [|intros d' l Hl; destruct (I2 _ _ Hl) as (? & ? & H); split_and!; [done..|]; intros r' Hr; apply elem_of_app; left; by apply H|done].
      intros x. rewrite I1. split.
      * intros (d' & r' & H & ->). exists d', r'. split; [|done]. apply elem_of_app. by left.
      * intros (d' & r' & H & ->). apply elem_of_app in H as [H|H]; [by exists d', r'|]. apply elem_of_list_singleton in H as [= -> ->]. by apply I1.
    + split; cbn [rc_seen rc_roles].
      * intros x. rewrite elem_of_union, elem_of_singleton, I1. split.
        -- intros [->|(d' & r' & H & ->)]; [exists d, r|exists d', r']; (split; [|done]); apply elem_of_app; [right; left|by left].
        -- intros (d' & r' & H & ->). apply elem_of_app in H as [H|H]; [right; by exists d', r'|left]. by apply elem_of_list_singleton in H as [= -> ->].
      * intros d' l Hl. destruct (decide (d' = d)) as [->|Hne].
        -- rewrite lookup_insert in Hl. injection Hl as <-. destruct (rc_roles s !! d) as [l|] eqn:E; cbn.
           ++ destruct (I2 _ _ E) as (Hn & Hnd & Hin). split_and!.
              ** by destruct l.
              ** apply NoDup_app. split_and!; [done| |apply NoDup_singleton]. intros x Hx ->%elem_of_list_singleton. apply Hseen. apply I1. exists d, r. split; [by apply Hin|done].
              ** intros x Hx. apply elem_of_app in Hx as [Hx| ->%elem_of_list_singleton]; apply elem_of_app; [left; by apply Hin|right; left].
           ++ split_and!; [done|apply NoDup_singleton|]. intros x ->%elem_of_list_singleton. apply elem_of_app. right. left.
        -- rewrite lookup_insert_ne in Hl by done. destruct (I2 _ _ Hl) as (Hn & Hnd & Hin). split_and!; [done..|]. intros x Hx. apply elem_of_app. left. by apply Hin.
      * intros x Hx. apply elem_of_union in Hx as [->%elem_of_singleton|Hx].
        -- exists d, r. eexists. split; [done|]. split; [apply lookup_insert|]. apply elem_of_app. right. left.
        -- destruct (I3 _ Hx) as (d' & r' & l & -> & Hl & Hr). destruct (decide (d' = d)) as [->|Hne].
           ++ exists d, r', (l ++ [r]). split; [done|]. split; [rewrite lookup_insert; f_equal; f_equal; exact (f_equal (default []) Hl)|]. apply elem_of_app. by left.
           ++ exists d', r', l. split; [done|]. split; [by rewrite lookup_insert_ne|done].
Qed.
Lemma cert_roles_spec pfx certs : unambiguous pfx certs ->
  (forall d l, cert_roles pfx certs !! d = Some l -> l <> [] /\ roles_in pfx certs d l) /\
  (forall d r, carries pfx certs d r -> is_Some (cert_roles pfx certs !! d)).
Proof.
  intros Hun. rewrite cert_roles_pairs. destruct (rc_invariant (all_pairs pfx certs)) as [I1 I2 I3].
  set (s := fold_left add_pair (all_pairs pfx certs) (RcSt ∅ ∅)) in *. clearbody s.
  assert (forall d r, carries pfx certs d r -> exists l, rc_roles s !! d = Some l /\ r ∈ l) as Hall.
  { intros d r Hc. destruct (I3 (d ++ r)) as (d' & r' & l & Heq & Hl & Hr).
    - apply I1. exists d, r. split; [by apply all_pairs_spec|done].
    - assert (d = d') as ->.
      { eapply Hun; [exact Hc| |exact Heq]. apply all_pairs_spec. by eapply I2. }
      apply app_inv_head in Heq as ->. by exists l. }
  split.
  - intros d l Hl. destruct (I2 _ _ Hl) as (Hn & Hnd & Hin). split; [done|]. split; [done|]. intros r. split; [intros Hr; apply all_pairs_spec; by apply Hin|].
    intros Hc. destruct (Hall _ _ Hc) as (l' & Hl' & Hr). rewrite Hl in Hl'. by injection Hl' as ->.
  - intros d r Hc. destruct (Hall _ _ Hc) as (l & Hl & _). by exists l.
Qed.
Lemma check_domains_ok check m i order last :
  check_domains check m i order last = Ok tt <-> exists k d, order !! k = Some d /\ check (i + k)%nat d (default [] (m !! d)) = None.
Proof.
  revert i last. induction order as [|d order IH]; intros i last; cbn [check_domains].
  - split; [done|]. by intros (k & d & ? & _).
  - destruct (check i d (default [] (m !! d))) as [e|] eqn:E.
    + rewrite IH. split.
      * intros (k & d' & Hk & Hc). exists (S k), d'. split; [done|]. by rewrite Nat.add_succ_r, <- Nat.add_succ_l.
      * intros ([|k] & d' & Hk & Hc); cbn in Hk.
        -- injection Hk as ->. rewrite Nat.add_0_r in Hc. by rewrite E in Hc.
        -- exists k, d'. split; [done|]. by rewrite Nat.add_succ_l, <- Nat.add_succ_r.
    + split; [|done]. intros _. exists O, d. split; [done|]. by rewrite Nat.add_0_r.
Qed.
Lemma no_roles_empty pfx certs : cert_roles pfx certs = ∅ <-> forall d r, ~ carries pfx certs d r.
Proof.
  rewrite cert_roles_pairs. destruct (rc_invariant (all_pairs pfx certs)) as [I1 I2 I3].
  set (s := fold_left add_pair (all_pairs pfx certs) (RcSt ∅ ∅)) in *. clearbody s. split.
  - intros He d r Hc. destruct (I3 (d ++ r)) as (d' & r' & l & _ & Hl & _); [apply I1; exists d, r; split; [by apply all_pairs_spec|done]|].
    by rewrite He, lookup_empty in Hl.
  - intros Hn. apply map_eq. intros d. rewrite lookup_empty. destruct (rc_roles s !! d) as [l|] eqn:E; [|done].
    destruct (I2 _ _ E) as (Hne & _ & Hin). destruct l as [|r l]; [done|]. destruct (Hn d r). apply all_pairs_spec. apply Hin. left.
Qed.

(** ** C50 *)
(** Accepted iff the roles of some domain pass CheckPolicy, whatever the iteration order. *)
Theorem C50_accepts_exactly_partial pfx check order certs : unambiguous pfx certs -> valid_order pfx certs order ->
  exists f : str -> list str, (forall d, (exists r, carries pfx certs d r) -> roles_in pfx certs d (f d)) /\
    (verify_role_cert false pfx check order certs = Ok tt <->
     exists k d r, order !! k = Some d /\ carries pfx certs d r /\ check k d (f d) = None).
Proof.
  intros Hun [_ Hord]. destruct (cert_roles_spec _ _ Hun) as [H1 H2]. exists (fun d => default [] (cert_roles pfx certs !! d)). split.
  - intros d [r Hr]. destruct (H2 _ _ Hr) as [l Hl]. rewrite Hl. cbn. by apply H1.
  - unfold verify_role_cert. case_bool_decide as He.
    + split; [done|]. intros (k & d & r & _ & Hc & _). by eapply no_roles_empty in He.
    + rewrite check_domains_ok. split.
      * intros (k & d & Hk & Hc). assert (is_Some (cert_roles pfx certs !! d)) as [l Hl].
        { apply Hord. by eapply elem_of_list_lookup_2. }
        destruct (H1 _ _ Hl) as [Hne [_ Hin]]. destruct l as [|r l]; [done|]. exists k, d, r. split_and!; [done| |done]. apply Hin. left.
      * intros (k & d & r & Hk & _ & Hc). by exists k, d.
Qed.
(** With a fixed policy the order does not matter. *)
Theorem C50_order_independent pfx check order order' certs : valid_order pfx certs order -> valid_order pfx certs order' ->
  (verify_role_cert false pfx (fun _ => check) order certs = Ok tt <-> verify_role_cert false pfx (fun _ => check) order' certs = Ok tt).
Proof.
  intros [_ H] [_ H']. unfold verify_role_cert. case_bool_decide; [done|]. rewrite !check_domains_ok. split; intros (k & d & Hk & Hc).
  - apply elem_of_list_lookup_2, H, H', elem_of_list_lookup in Hk as [k' Hk']. by exists k', d.
  - apply elem_of_list_lookup_2, H', H, elem_of_list_lookup in Hk as [k' Hk']. by exists k', d.
Qed.
(** In every case an acceptance rests on a check of roles the certificates carry in one domain. *)
Theorem C50_success_is_backed pfx check order certs : valid_order pfx certs order ->
  verify_role_cert false pfx check order certs = Ok tt ->
  exists k d l, check k d l = None /\ l <> [] /\ NoDup l /\ forall r, r ∈ l -> carries pfx certs d r.
Proof.
  intros [_ Hord]. unfold verify_role_cert. case_bool_decide as He; [done|]. intros (k & d & Hk & Hc)%check_domains_ok.
  assert (is_Some (cert_roles pfx certs !! d)) as [l Hl]. { apply Hord. by eapply elem_of_list_lookup_2. }
  exists k, d, l. rewrite Hl in Hc. cbn in Hc. split; [done|]. rewrite cert_roles_pairs in Hl.
  destruct (rc_invariant (all_pairs pfx certs)) as [_ I2 _]. destruct (I2 _ _ Hl) as (Hne & Hnd & Hin). split_and!; [done..|].
  intros r Hr. apply all_pairs_spec. by apply Hin.
Qed.
Theorem C50_no_roles_rejected pfx check order certs : (forall d r, ~ carries pfx certs d r) ->
  verify_role_cert false pfx check order certs = Err (ErrMsg "invalid role certificate").
Proof. intros H. unfold verify_role_cert. rewrite bool_decide_eq_true_2; [done|]. by apply no_roles_empty. Qed.
Theorem C50_disabled_accepts pfx check order certs : verify_role_cert true pfx check order certs = Ok tt.
Proof. done. Qed.

(** Role deny of domain ab is lost: "a" ++ "bdeny" reads like "ab" ++ "deny". *)
Definition bad_certs : list cert :=
  [Cert (B "a:role.bdeny") (B "ca") [] 0 [B "athenz://role/ab/deny"; B "athenz://role/ab/user"]].
Definition bad_check (d : str) (l : list str) : option error :=
  if bool_decide (d = B "ab") then
    if existsb (str_eqb (B "deny")) l then Some ErrDenyByPolicy else if existsb (str_eqb (B "user")) l then None else Some ErrNoMatch
  else Some ErrNoMatch.
Theorem C50_all_roles_checked_refuted : ~ forall pfx check order certs, valid_order pfx certs order ->
  verify_role_cert false pfx (fun _ => check) order certs = Ok tt ->
  exists d, (exists r, carries pfx certs d r) /\ forall l, roles_in pfx certs d l -> check d l = None.
Proof.
  intros H. destruct (H (B "athenz://role/") bad_check [B "a"; B "ab"] bad_certs) as (d & (r0 & Hr0) & Hl); [|vm_compute; reflexivity|].
  - split.
    + apply NoDup_cons. split; [by intros ?%elem_of_list_singleton|apply NoDup_singleton].
    + assert (cert_roles (B "athenz://role/") bad_certs = {[ B "a" := [B "bdeny"]; B "ab" := [B "user"] ]}) as -> by (refine (bool_decide_unpack _ _); vm_compute; exact I).
      intros d. rewrite !elem_of_cons, elem_of_nil. split.
      * intros [->|[->|[]]]; [by exists [B "bdeny"]|by exists [B "user"]].
      * intros [l Hl]. apply lookup_insert_Some in Hl as [[<- _]|[_ Hl]]; [by left|]. apply lookup_singleton_Some in Hl as [<- _]. right. by left.
  - assert (forall d r, carries (B "athenz://role/") bad_certs d r <-> (d, r) ∈ [(B "a", B "bdeny"); (B "ab", B "deny"); (B "ab", B "user")]) as Hcar.
    { intros d' r'. rewrite <- all_pairs_spec. assert (all_pairs (B "athenz://role/") bad_certs = [(B "a", B "bdeny"); (B "ab", B "deny"); (B "ab", B "user")]) as -> by (vm_compute; reflexivity). done. }
    apply Hcar in Hr0. rewrite !elem_of_cons, elem_of_nil in Hr0. destruct Hr0 as [[= -> ->]|Hr0].
    + specialize (Hl [B "bdeny"]). discriminate Hl. split; [apply NoDup_singleton|]. intros r. rewrite Hcar, elem_of_list_singleton, !elem_of_cons, elem_of_nil. split.
      * intros ->. by left.
      * intros [[= ->]|[[=]|[[=]|[]]]]. done.
    + assert (d = B "ab") as -> by (destruct Hr0 as [[= -> ->]|[[= -> ->]|[]]]; done). clear Hr0.
      specialize (Hl [B "deny"; B "user"]). discriminate Hl. split.
      * apply NoDup_cons. split; [by intros ?%elem_of_list_singleton|apply NoDup_singleton].
      * intros r. rewrite Hcar, !elem_of_cons, !elem_of_nil. split.
        -- intros [->|[->|[]]]; [by right; left|by right; right; left].
        -- intros [H1|[H1|[H1|[]]]]; [discriminate H1|injection H1 as ->; by left|injection H1 as ->; by right; left].
Qed.

(** ** C49: a certificate that VerifyRoleCert accepts does not authorize a request *)
Definition good_cert : cert := Cert (B "dom:role.r1") (B "ca") [] 0 [B "athenz://role/dom/r2"; B "athenz://role/dom/r1"; B "spiffe://x/y"].
Definition good_check (d : str) (l : list str) : option error :=
  if bool_decide (d = B "dom" /\ l = [B "r1"; B "r2"]) then None else Some ErrNoMatch.
Example C50_nonvacuous :
  cert_roles (B "athenz://role/") [good_cert] = {[ B "dom" := [B "r1"; B "r2"] ]} /\
  verify_role_cert false (B "athenz://role/") (fun _ => good_check) [B "dom"] [good_cert] = Ok tt /\
  verify_role_cert false (B "athenz://role/") (fun _ => good_check) [] [Cert (B "svc") (B "ca") [] 0 [B "spiffe://x/y"]] = Err (ErrMsg "invalid role certificate") /\
  verify_role_cert false (B "athenz://role/") (fun _ => bad_check) [B "a"; B "ab"] [Cert (B "ab:role.user") (B "ca") [] 0 [B "athenz://role/a/b"]] = Ok tt.
Proof. split_and!; [refine (bool_decide_unpack _ _); vm_compute; exact I|vm_compute; reflexivity..]. Qed.
Theorem C49_role_certificate_request_refuted : ~ forall pfx check order certs r now,
  h_tls r = Some certs -> verify_role_cert false pfx check order certs = Ok tt ->
  is_ok (Prop_Authorizer.http true false false r (B "/a") now) = true.
Proof.
  intros H. specialize (H (B "athenz://role/") (fun _ => good_check) [B "dom"] [good_cert] (HReq (Some [good_cert]) [] [] []) 0 eq_refl).
  specialize (H ltac:(vm_compute; reflexivity)). vm_compute in H. discriminate H.
Qed.

Print Assumptions C49_role_certificate_request_refuted.
Print Assumptions C50_accepts_exactly_partial.
Print Assumptions C50_order_independent.
Print Assumptions C50_success_is_backed.
Print Assumptions C50_no_roles_rejected.
Print Assumptions C50_disabled_accepts.
Print Assumptions C50_all_roles_checked_refuted.
