(** * Properties C37-C42: access tokens *)
From Verif Require Import Access.
From Verif Require Prop_Jwk.

(** ** What is required of a token: spec *)
(** The signing method and the key are of one family. *)
Inductive family : method -> key -> str -> Prop :=
| fam_hmac h b : family (MHMAC h) (KOct b) b
| fam_rsa h b : family (MRSA h) (KRSA b) b
| fam_pss h b : family (MPSS h) (KRSA b) b
| fam_ec h b : family (MECDSA h) (KEC b) b
| fam_ed b : family MEd (KEd b) b.
(** Three dot-free segments. *)
Definition segments (tok p0 p1 p2 : str) : Prop :=
  tok = p0 ++ "."%char :: p1 ++ "."%char :: p2 /\ "."%char ∉ p0 /\ "."%char ∉ p1 /\ "."%char ∉ p2.
(** The token's header, and its claims. *)
Definition header_of (X : jwt_ext) (tok : str) (h : gmap str json) : Prop :=
  exists p0 p1 p2 hb, segments tok p0 p1 p2 /\ decode_segment X p0 = Some hb /\ json_header X hb = Some h.
Definition claims_of (X : jwt_ext) (tok : str) (c : claims) : Prop :=
  exists p0 p1 p2 cb, segments tok p0 p1 p2 /\ decode_segment X p1 = Some cb /\ json_claims X cb = Some c.
(** The header selects key [k]: a string kid, and a jku that is a string or absent (then empty). *)
Definition selects (jwkp : str -> str -> option key) (h : gmap str json) (k : key) : Prop :=
  exists kid jku, h !! B "kid" = Some (JStr kid) /\
    (h !! B "jku" = Some (JStr jku) \/ h !! B "jku" = None /\ jku = []) /\ jwkp kid jku = Some k.
(** The algorithms of RFC 7518 and RFC 8037, with their hashes (bits of SHA-2). *)
Definition sha2 (t : str) (n : Z) : Prop := t = B "256" /\ n = 256 \/ t = B "384" /\ n = 384 \/ t = B "512" /\ n = 512.
Inductive registered : str -> method -> Prop :=
  | reg_none : registered (B "none") MNone
  | reg_hmac t n : sha2 t n -> registered (B "HS" ++ t) (MHMAC n)
  | reg_rsa t n : sha2 t n -> registered (B "RS" ++ t) (MRSA n)
  | reg_pss t n : sha2 t n -> registered (B "PS" ++ t) (MPSS n)
  | reg_ecdsa t n : sha2 t n -> registered (B "ES" ++ t) (MECDSA n)
  | reg_ed : registered (B "EdDSA") MEd.
(** The signature of the first two segments verifies under [k], with the method the header names,
    which must be of the key's family. *)
Definition signed_by (X : jwt_ext) (tok : str) (h : gmap str json) (k : key) : Prop :=
  exists p0 p1 p2 alg m b, segments tok p0 p1 p2 /\ h !! B "alg" = Some (JStr alg) /\ registered alg m /\
    family m k b /\ raw_verify X m b (p0 ++ "."%char :: p1) p2 = true.
(** Dates, with the claims read as Go reads them. *)
Definition dates_ok (now : time) (c : claims) : Prop :=
  cl_exp c <> 0 /\ time_unix (unix_of now) < time_unix (cl_exp c) /\
  (cl_iat c <> 0 -> time_unix (cl_iat c) <= time_unix (unix_of now)) /\
  (cl_nbf c <> 0 -> time_unix (cl_nbf c) <= time_unix (unix_of now)).

(** ** Lemmas *)
Lemma segments_split tok p0 p1 p2 : split "."%char tok = [p0; p1; p2] <-> segments tok p0 p1 p2.
Proof.
  split.
  - intros H. pose proof (join_split "."%char tok) as Hj. rewrite H in Hj. cbn [join] in Hj.
    pose proof (split_no_sep "."%char tok) as Hs. rewrite H in Hs. inversion Hs as [|? ? H1 Hs1]; subst. inversion Hs1 as [|? ? H2 Hs2]; subst.
    inversion Hs2; subst. split; [|done]. done.
  - intros (-> & H0 & H1 & H2). rewrite split_app by done. rewrite split_app by done. by rewrite split_no.
Qed.
Lemma segments_fun tok p0 p1 p2 q0 q1 q2 : segments tok p0 p1 p2 -> segments tok q0 q1 q2 -> p0 = q0 /\ p1 = q1 /\ p2 = q2.
Proof. intros H1 H2. apply segments_split in H1, H2. rewrite H1 in H2. by injection H2 as -> -> ->. Qed.
Lemma method_iff alg m : get_signing_method alg = Some m <-> registered alg m.
Proof.
  transitivity ((alg, m) ∈ methods).
  - unfold get_signing_method, methods. cbn [assoc]. rewrite !elem_of_cons, elem_of_nil. split.
    + repeat (match goal with |- context [bool_decide (?x = alg)] => destruct (bool_decide_reflect (x = alg)); [subst alg; intros [= <-]; tauto|] end).
      done.
    + intros H. repeat (destruct H as [[= -> ->]|H]; [by vm_compute|]). done.
  - unfold methods. rewrite !elem_of_cons, elem_of_nil. split.
    + intros H. repeat (destruct H as [[= -> ->]|H]; [first [constructor|apply (reg_hmac (B _))|apply (reg_rsa (B _))|apply (reg_pss (B _))|apply (reg_ecdsa (B _))]; unfold sha2; tauto|]). done.
    + destruct 1 as [|t n [[-> ->]|[[-> ->]|[-> ->]]]|t n [[-> ->]|[[-> ->]|[-> ->]]]|t n [[-> ->]|[[-> ->]|[-> ->]]]|t n [[-> ->]|[[-> ->]|[-> ->]]]|]; cbn; tauto.
Qed.
Lemma sig_verify_iff X m k text sig : sig_verify X m k text sig = true <-> exists b, family m k b /\ raw_verify X m b text sig = true.
Proof.
  split.
  - destruct m, k; cbn; try done; intros H; eexists; (split; [constructor|done]).
  - intros (b & Hf & Hr). by destruct Hf.
Qed.
Lemma key_func_iff jwkp h k : key_func (Some jwkp) h = Ok k <-> selects jwkp h k.
Proof.
  unfold key_func, header_string, selects. split.
  - destruct (h !! B "kid") as [[kid| |]|]; try done. destruct (h !! B "jku") as [[jku| |]|] eqn:Ej; try done.
    + destruct (jwkp kid jku) eqn:E; [|done]. intros [= ->]. exists kid, jku. auto.
    + destruct (jwkp kid []) eqn:E; [|done]. intros [= ->]. exists kid, []. auto.
  - intros (kid & jku & -> & [-> | [-> ->]] & ->); done.
Qed.
Lemma claims_valid_iff now c : claims_valid now c = true <-> dates_ok now c.
Proof.
  unfold claims_valid, verify_exp, verify_iat, dates_ok, before. rewrite !andb_true_iff.
  destruct (Z.eqb_spec (cl_exp c) 0), (Z.eqb_spec (cl_iat c) 0), (Z.eqb_spec (cl_nbf c) 0); rewrite ?negb_true_iff, ?Z.ltb_lt, ?Z.ltb_ge; intuition (try done; try lia).
Qed.
Lemma parse_iff X jwkp now tok c : parse_with_claims X (Some jwkp) now tok = Ok c <->
  claims_of X tok c /\ dates_ok now c /\ exists h k, header_of X tok h /\ selects jwkp h k /\ signed_by X tok h k.
Proof.
  rewrite <- claims_valid_iff. unfold parse_with_claims. split.
  - destruct (split "."%char tok) as [|p0 [|p1 [|p2 [|]]]] eqn:Es; try done. apply segments_split in Es.
    destruct (decode_segment X p0) as [hb|] eqn:E1; [|done]. destruct (json_header X hb) as [h|] eqn:E2; [|done].
    destruct (decode_segment X p1) as [cb|] eqn:E3; [|done]. destruct (json_claims X cb) as [c'|] eqn:E4; [|done].
    destruct (header_string h (B "alg")) as [alg|] eqn:E5; [|done]. destruct (get_signing_method alg) as [m|] eqn:E6; [|done].
    destruct (key_func (Some jwkp) h) as [k| |] eqn:E7; try done. cbn [obind].
    destruct (claims_valid now c') eqn:E8; [|done]. destruct (sig_verify X m k _ p2) eqn:E9; [|done]. cbn [andb]. intros [= <-].
    split; [by exists p0, p1, p2, cb|]. split; [done|]. exists h, k. split; [by exists p0, p1, p2, hb|]. split; [by apply key_func_iff|].
    apply sig_verify_iff in E9 as (b & Hf & Hr). exists p0, p1, p2, alg, m, b. apply method_iff in E6. split_and!; try done.
    unfold header_string in E5. destruct (h !! B "alg") as [[]|]; try done. by injection E5 as ->.
  - intros (Hc & Hd & h & k & Hh & Hk & Hs). destruct Hc as (p0 & p1 & p2 & cb & Hseg & H3 & H4).
    destruct Hh as (q0 & q1 & q2 & hb & Hseg' & H1 & H2). destruct (segments_fun _ _ _ _ _ _ _ Hseg Hseg') as (<- & <- & <-). clear Hseg'.
    destruct Hs as (q0 & q1 & q2 & alg & m & b & Hseg' & H5 & H6 & Hf & Hr). destruct (segments_fun _ _ _ _ _ _ _ Hseg Hseg') as (<- & <- & <-).
    apply segments_split in Hseg as ->. rewrite H1, H2, H3, H4. unfold header_string at 1. rewrite H5. apply method_iff in H6 as ->.
    apply key_func_iff in Hk as ->. cbn [obind]. rewrite Hd. rewrite (proj2 (sig_verify_iff X m k _ p2)); [done|]. by exists b.
Qed.

(** Reading a claim as a time: exact up to the wrap at the end of the int64 range. *)
Lemma time_unix_exact i : min_int64 <= i <= max_int64 - unix_to_internal -> time_unix i = i * second.
Proof. intros H. unfold time_unix. rewrite wrap64_id; [f_equal; lia|]. unfold unix_to_internal, min_int64, max_int64, two63 in *. lia. Qed.
Lemma time_unix_wraps i : max_int64 - unix_to_internal < i <= max_int64 -> time_unix i = (i - two64) * second.
Proof.
  intros H. unfold time_unix. f_equal. unfold wrap64, unix_to_internal, max_int64, two63, two64 in *.
  replace (i + 62135596800 + 9223372036854775808) with (i + 62135596800 + 9223372036854775808 - 18446744073709551616 + 1 * 18446744073709551616) by lia.
  rewrite Z.mod_add by lia. rewrite Z.mod_small by lia. lia.
Qed.
Lemma time_unix_le_int i : min_int64 <= i <= max_int64 -> time_unix i <= i * second.
Proof.
  intros H. destruct (decide (i <= max_int64 - unix_to_internal)); [rewrite time_unix_exact by lia; lia|].
  rewrite time_unix_wraps by lia. unfold two64, second. lia.
Qed.

(** A clock between the years -292e9 and +292e9: what time.Now gives. *)
Definition sane_clock (now : time) : Prop := min_int64 <= now / second <= max_int64 - unix_to_internal.
Definition int_claims (c : claims) : Prop :=
  min_int64 <= cl_exp c <= max_int64 /\ min_int64 <= cl_iat c <= max_int64 /\ min_int64 <= cl_nbf c <= max_int64.

(** ** C37 *)
Theorem C37_accept_iff X jwkp now tok c : parse_with_claims X (Some jwkp) now tok = Ok c <->
  claims_of X tok c /\ dates_ok now c /\ exists h k, header_of X tok h /\ selects jwkp h k /\ signed_by X tok h k.
Proof. apply parse_iff. Qed.
(** Whatever the settings, an accepted token passed that check. *)
Theorem C37_accepted_is_signed X cf jwkp now tok ct c : parse_access X cf (Some jwkp) now tok ct = Ok c ->
  claims_of X tok c /\ dates_ok now c /\ exists h k, header_of X tok h /\ selects jwkp h k /\ signed_by X tok h k.
Proof.
  unfold parse_access. intros H. apply parse_iff. destruct (parse_with_claims X (Some jwkp) now tok) as [c'| |]; cbn [obind] in H; try done.
  destruct (if a_verify_client cf then _ else _); cbn [obind] in H; try done. destruct (if a_bound cf then _ else _); cbn [obind] in H; try done.
Qed.
(** exp is present and in the future as an integer, whatever its size: overflow cannot revive a token. *)
Theorem C37_not_expired X cf jwkp now tok ct c : sane_clock now -> int_claims c -> parse_access X cf (Some jwkp) now tok ct = Ok c ->
  cl_exp c <> 0 /\ now < cl_exp c * second.
Proof.
  intros Hn (He & _ & _) H. apply C37_accepted_is_signed in H as (_ & (Hne & Hlt & _) & _). split; [done|].
  unfold sane_clock in Hn. unfold unix_of in Hlt.
  rewrite wrap64_id in Hlt by (unfold unix_to_internal, max_int64 in *; lia). rewrite time_unix_exact in Hlt by done.
  pose proof (time_unix_le_int _ He). assert (now / second < cl_exp c) as Hd by (unfold second in *; lia).
  pose proof (Z.div_mod now second). pose proof (Z.mod_pos_bound now second). unfold second in *. lia.
Qed.
(** iat and nbf are not in the future, for claims below 2^63 - 62135596800. *)
Theorem C37_already_valid_partial X cf jwkp now tok ct c : sane_clock now -> int_claims c ->
  cl_iat c <= max_int64 - unix_to_internal -> cl_nbf c <= max_int64 - unix_to_internal ->
  parse_access X cf (Some jwkp) now tok ct = Ok c ->
  (cl_iat c <> 0 -> cl_iat c * second <= now) /\ (cl_nbf c <> 0 -> cl_nbf c * second <= now).
Proof.
  intros Hn (_ & Hi & Hb) Hi' Hb' H. apply C37_accepted_is_signed in H as (_ & (_ & _ & H1 & H2) & _).
  unfold sane_clock in Hn. unfold unix_of in *.
  rewrite wrap64_id in H1, H2 by (unfold unix_to_internal, max_int64 in *; lia). rewrite !(time_unix_exact (now / second)) in H1, H2 by done.
  rewrite time_unix_exact in H1, H2 by lia. pose proof (Z.div_mod now second). pose proof (Z.mod_pos_bound now second).
  unfold second in *. split; intros Hne; [specialize (H1 Hne)|specialize (H2 Hne)]; lia.
Qed.

(** An instance for the examples: segments are not encoded, the header is the algorithm, key id and
    set URL separated by commas, the claims are picked by name, signatures are the key followed by the text without dots. *)
Definition hdr0 (s : str) : option (gmap str json) :=
  match split ","%char s with
  | [a; k] => Some {[ B "alg" := JStr a; B "kid" := JStr k ]}
  | [a; k; j] => Some {[ B "alg" := JStr a; B "kid" := JStr k; B "jku" := JStr j ]}
  | [a] => Some {[ B "alg" := JStr a; B "kid" := JOther ]}
  | _ => None
  end.
Definition cl0 (s : str) : option claims :=
  assoc [(B "A", Claims (B "svc") [B "r1"; B "r2"] {[ B "x5t#S256" := JStr (B "TRAW") ]} (B "dom") (B "user") 200 100 0);
         (B "B", Claims (B "svc") [B "r1"] {[ B "proxy-principals#spiffe" := JArr [JOther; JStr (B "spiffe://p")] ]} (B "dom") (B "user") 200 0 100);
         (B "N", Claims (B "svc") [B "r1"] ∅ (B "dom") (B "user") 200 0 max_int64)] s.
Definition X0 : jwt_ext := JwtExt Some hdr0 cl0 (fun m k t s => bool_decide (s = k ++ List.filter (fun c => negb (bool_decide (c = "."%char))) t)) (fun r => B "T" ++ r).
Definition p0 : str -> str -> option key := fun kid jku =>
  if bool_decide (jku = []) then (if bool_decide (kid = B "1") then Some (KRSA (B "K1")) else if bool_decide (kid = B "o") then Some (KOct (B "K1")) else None) else None.
Definition cf0 : aconf := AConf false 0 0 false ∅.
Definition out {A} (o : outcome A) : nat := match o with Ok _ => 0 | Err _ => 1 | Panic => 2 end.
Example C37_nonvacuous :
  let f t now := out (parse_access X0 cf0 (Some p0) (now * second) t None) in
  f (B "RS256,1.A.K1RS256,1A") 150 = 0%nat /\ f (B "RS256,1.A.K1RS256,1A") 199 = 0%nat /\
  f (B "RS256,1.A.K1RS256,1A") 200 = 1%nat /\ f (B "RS256,1.A.K1RS256,1A") 100 = 0%nat /\ f (B "RS256,1.A.K1RS256,1A") 99 = 1%nat /\
  f (B "RS256,1.B.K1RS256,1B") 100 = 0%nat /\ f (B "RS256,1.B.K1RS256,1B") 99 = 1%nat /\
  f (B "RS256,1.A.forged") 150 = 1%nat /\ f (B "RS256,1.A") 150 = 1%nat /\ f (B "RS256,2.A.K1RS256,2A") 150 = 1%nat.
Proof. split_and!; vm_compute; reflexivity. Qed.
(** A not-before time so large that time.Unix wraps is accepted although it lies in the future. *)
Theorem C37_already_valid_refuted : ~ forall X cf jwkp now tok ct c, sane_clock now -> int_claims c ->
  parse_access X cf (Some jwkp) now tok ct = Ok c -> cl_nbf c <> 0 -> cl_nbf c * second <= now.
Proof.
  intros H. destruct (parse_access X0 cf0 (Some p0) (150 * second) (B "RS256,1.N.K1RS256,1N") None) as [c| |] eqn:E; [|by vm_compute in E..].
  assert (cl_nbf c = max_int64 /\ cl_exp c = 200 /\ cl_iat c = 0) as (Hc & He & Hi).
  { change c with (match Ok c with Ok x => x | _ => c end). rewrite <- E. split_and!; vm_compute; reflexivity. }
  specialize (H X0 cf0 p0 (150 * second) (B "RS256,1.N.K1RS256,1N") None c). rewrite Hc in H. unfold int_claims in H. rewrite Hc, He, Hi in H.
  assert (max_int64 * second <= 150 * second) as Hf; [|by vm_compute in Hf].
  apply H; [by vm_compute|by vm_compute|exact E|by vm_compute].
Qed.
(** No token makes the processor panic, unless it has no key provider. *)
Theorem C37_never_panics X cf jwkp now tok ct : parse_access X cf (Some jwkp) now tok ct <> Panic.
Proof.
  unfold parse_access, parse_with_claims, key_func, validate_client_id, validate_bound. repeat (case_match; try done); simpl in *; repeat (case_match; simpl in *; try done).
Qed.

(** ** C38, C39 *)
(** The rotation rule, sums as in int64. *)
Definition rotation (cf : aconf) (ct : cert) (c : claims) : Prop :=
  a_offset cf <> 0 /\ c_cn ct <> [] /\ c_cn ct = cl_client c /\
  cl_iat c <= wrap64 (unix_of (c_not_before ct) + a_back cf) <= wrap64 (cl_iat c + a_offset cf).
Definition bound_to (X : jwt_ext) (cf : aconf) (ct : cert) (c : claims) : Prop :=
  (exists t, cl_confirm c !! B "x5t#S256" = Some (JStr t) /\ (thumbprint X (c_raw ct) = t \/ rotation cf ct c)) \/
  (exists l u, cl_confirm c !! B "proxy-principals#spiffe" = Some (JArr l) /\ JStr u ∈ l /\ u ∈ c_uris ct).
Lemma principal_iff cf ct c : validate_cert_principal cf ct c = Ok tt <-> rotation cf ct c.
Proof.
  unfold validate_cert_principal, rotation.
  destruct (Z.eqb_spec (a_offset cf) 0); [split; [done|]; by intros (? & _)|].
  destruct (bool_decide_reflect (c_cn ct = [])); [split; [done|]; by intros (_ & ? & _)|].
  destruct (bool_decide_reflect (cl_client c = [])); [split; [done|]; intros (_ & ? & ? & _); congruence|].
  destruct (bool_decide_reflect (c_cn ct = cl_client c)); [|split; [done|]; by intros (_ & _ & ? & _)]. cbn [negb].
  destruct (Z.ltb_spec (wrap64 (unix_of (c_not_before ct) + a_back cf)) (cl_iat c)); [split; [done|]; intros (_ & _ & _ & ?); lia|].
  destruct (Z.ltb_spec (wrap64 (cl_iat c + a_offset cf)) (wrap64 (unix_of (c_not_before ct) + a_back cf))); [split; [done|]; intros (_ & _ & _ & ?); lia|].
  by split.
Qed.
Lemma json_strings_iff l u : u ∈ json_strings l <-> JStr u ∈ l.
Proof.
  induction l as [|[s|l'|] l IH]; cbn [json_strings]; rewrite ?elem_of_cons, ?elem_of_nil, ?IH; [done| |by intuition..].
  split; [intros [->|?]; auto|intros [[= ->]|?]; auto].
Qed.
Lemma bound_iff X cf ct c : validate_bound X cf (Some ct) c = Ok tt <-> bound_to X cf ct c.
Proof.
  unfold validate_bound.
  set (a := match cl_confirm c !! B "x5t#S256" with Some (JStr t) => _ | _ => _ end).
  set (b := match cl_confirm c !! B "proxy-principals#spiffe" with Some (JArr l) => _ | _ => _ end).
  assert (a = true <-> exists t, cl_confirm c !! B "x5t#S256" = Some (JStr t) /\ (thumbprint X (c_raw ct) = t \/ rotation cf ct c)) as Ha.
  { unfold a. destruct (cl_confirm c !! B "x5t#S256") as [[t| |]|]; try (split; [done|]; by intros (? & ? & _)).
    rewrite orb_true_iff, bool_decide_eq_true. pose proof (principal_iff cf ct c) as Hp. split.
    - intros H. exists t. split; [done|]. destruct H as [|H]; [by left|]. right. destruct (validate_cert_principal cf ct c) as [[]| |]; try done. by apply Hp.
    - intros (t' & [= <-] & [H|H]); [by left|]. right. apply Hp in H. by rewrite H. }
  assert (b = true <-> exists l u, cl_confirm c !! B "proxy-principals#spiffe" = Some (JArr l) /\ JStr u ∈ l /\ u ∈ c_uris ct) as Hb.
  { unfold b. destruct (cl_confirm c !! B "proxy-principals#spiffe") as [[|l|]|]; try (split; [done|]; by intros (? & ? & ? & _)).
    rewrite existsb_exists. split.
    - intros (u & Hu & Hl). apply bool_decide_eq_true, json_strings_iff in Hl. apply elem_of_list_In in Hu. by exists l, u.
    - intros (l' & u & [= <-] & Hl & Hu). exists u. split; [by apply elem_of_list_In|]. by apply bool_decide_eq_true, json_strings_iff. }
  unfold bound_to. rewrite <- Ha, <- Hb. destruct a, b; cbn; intuition done.
Qed.
Theorem C38_binding_exact X cf jwkp now tok ct c : a_bound cf = true ->
  (parse_access X cf jwkp now tok ct = Ok c <->
   parse_access X (AConf false (a_back cf) (a_offset cf) (a_verify_client cf) (a_clients cf)) jwkp now tok ct = Ok c /\
   exists crt, ct = Some crt /\ bound_to X cf crt c).
Proof.
  intros Hb. unfold parse_access, validate_client_id. cbn [a_bound a_verify_client a_clients]. rewrite Hb.
  destruct (parse_with_claims X jwkp now tok) as [c'| |]; cbn [obind]; [|by split; [|intros [? _]]..].
  set (vc := if a_verify_client cf then _ else _). destruct vc; cbn [obind]; [|by split; [|intros [? _]]..].
  destruct ct as [crt|]; [|by split; [|intros (_ & ? & ? & _)]].
  destruct (validate_bound X cf (Some crt) c') as [[]|e|] eqn:E; cbn [obind].
  - apply bound_iff in E. split; [intros [= <-]; split; [done|]; by exists crt|by intros [? _]].
  - split; [done|]. intros ([= ->] & crt' & [= <-] & H). apply bound_iff in H. congruence.
  - split; [done|]. intros ([= ->] & crt' & [= <-] & H). apply bound_iff in H. congruence.
Qed.
Definition crt0 : cert := Cert (B "svc") (B "ca") (B "RAW") (120 * second) [B "spiffe://p"].
Example C38_nonvacuous :
  let f t cf ct := out (parse_access X0 cf (Some p0) (150 * second) t ct) in
  let A := B "RS256,1.A.K1RS256,1A" in let Bt := B "RS256,1.B.K1RS256,1B" in
  let other := Cert (B "svc") (B "ca") (B "NEW") (120 * second) [] in
  f A (AConf true 0 0 false ∅) (Some crt0) = 0%nat /\ f A (AConf true 0 0 false ∅) None = 1%nat /\
  f A (AConf true 0 0 false ∅) (Some other) = 1%nat /\ f A (AConf true 0 20 false ∅) (Some other) = 0%nat /\
  f A (AConf true 0 19 false ∅) (Some other) = 1%nat /\ f A (AConf true (-21) 30 false ∅) (Some other) = 1%nat /\
  f Bt (AConf true 0 0 false ∅) (Some crt0) = 0%nat /\ f Bt (AConf true 0 0 false ∅) (Some other) = 1%nat.
Proof. split_and!; vm_compute; reflexivity. Qed.

Theorem C39_client_id_exact X cf jwkp now tok ct c : a_verify_client cf = true ->
  (parse_access X cf jwkp now tok ct = Ok c <->
   parse_access X (AConf (a_bound cf) (a_back cf) (a_offset cf) false (a_clients cf)) jwkp now tok ct = Ok c /\
   exists crt ids, ct = Some crt /\ a_clients cf !! c_cn crt = Some ids /\ cl_client c ∈ ids).
Proof.
  intros Hb. unfold parse_access. cbn [a_bound a_verify_client a_clients]. rewrite Hb.
  destruct (parse_with_claims X jwkp now tok) as [c'| |]; cbn [obind]; [|by split; [|intros [? _]]..].
  assert (validate_client_id cf ct c' = Ok tt <-> exists crt ids, ct = Some crt /\ a_clients cf !! c_cn crt = Some ids /\ cl_client c' ∈ ids) as Hv.
  { unfold validate_client_id. destruct ct as [crt|]; [|by split; [|intros (? & ? & ? & _)]].
    destruct (existsb _ _) eqn:E.
    - split; [intros _|done]. apply existsb_exists in E as (x & Hx & Heq). apply bool_decide_eq_true in Heq as ->.
      destruct (a_clients cf !! c_cn crt) as [ids|] eqn:Ei; [|done]. exists crt, ids. split; [done|]. split; [done|]. by apply elem_of_list_In.
    - split; [done|]. intros (crt' & ids & [= <-] & Hi & Hin). exfalso.
      assert (existsb (fun v => bool_decide (v = cl_client c')) (default [] (a_clients cf !! c_cn crt)) = true) as Ht; [|congruence].
      apply existsb_exists. exists (cl_client c'). rewrite Hi. split; [by apply elem_of_list_In|by apply bool_decide_eq_true]. }
  assert (forall cf' , a_back cf' = a_back cf -> a_offset cf' = a_offset cf -> validate_bound X cf' ct c' = validate_bound X cf ct c') as Hvb.
  { intros cf' H1 H2. unfold validate_bound, validate_cert_principal. by rewrite H1, H2. }
  destruct (validate_client_id cf ct c') as [[]|e|] eqn:E; cbn [obind].
  - rewrite (Hvb (AConf _ _ _ _ _)) by done. split; [|by intros [? _]]. intros H. split; [done|].
    destruct (if a_bound cf then _ else _); try done. cbn in H. injection H as <-. by apply Hv.
  - split; [done|]. intros [H Hex]. destruct (if a_bound cf then _ else _); try done. cbn in H. injection H as <-. apply Hv in Hex. done.
  - split; [done|]. intros [H Hex]. destruct (if a_bound cf then _ else _); try done. cbn in H. injection H as <-. apply Hv in Hex. done.
Qed.
Example C39_nonvacuous :
  let f cf ct := out (parse_access X0 cf (Some p0) (150 * second) (B "RS256,1.A.K1RS256,1A") ct) in
  let m := {[ B "svc" := [B "x"; B "svc"]; B "web" := [B "x"] ]} in
  f (AConf false 0 0 true m) (Some crt0) = 0%nat /\ f (AConf false 0 0 true m) None = 1%nat /\
  f (AConf false 0 0 true m) (Some (Cert (B "web") (B "ca") (B "RAW") 0 [])) = 1%nat /\ f (AConf false 0 0 true ∅) (Some crt0) = 1%nat.
Proof. split_and!; vm_compute; reflexivity. Qed.
(** With both switches off the certificate plays no role. *)
Theorem C39_switches_off X cf jwkp now tok ct : a_bound cf = false -> a_verify_client cf = false ->
  parse_access X cf jwkp now tok ct = parse_with_claims X jwkp now tok.
Proof. intros H1 H2. unfold parse_access. rewrite H1, H2. by destruct (parse_with_claims X jwkp now tok). Qed.

(** ** C40 *)
(** Certificate dates are in the years 0-9999 (RFC 5280 cannot express others) and the settings are
    durations of at most 292 years, as parsed by time.ParseDuration. *)
Definition cert_range (ct : cert) : Prop := -62167219200 <= c_not_before ct / second <= 253402300799.
Definition duration_seconds (z : Z) : Prop := -9223372037 <= z <= 9223372037.
Definition rotation_math (cf : aconf) (ct : cert) (c : claims) : Prop :=
  a_offset cf <> 0 /\ c_cn ct <> [] /\ c_cn ct = cl_client c /\
  cl_iat c <= c_not_before ct / second + a_back cf <= cl_iat c + a_offset cf.
Theorem C40_rotation_no_overflow_partial cf ct c : cert_range ct -> duration_seconds (a_back cf) -> duration_seconds (a_offset cf) ->
  0 <= a_offset cf -> min_int64 <= cl_iat c <= max_int64 -> (rotation cf ct c <-> rotation_math cf ct c).
Proof.
  unfold cert_range, duration_seconds, rotation, rotation_math, unix_of. intros Hc Hb Ho Hpos Hi.
  rewrite (wrap64_id (c_not_before ct / second)) by (unfold min_int64, max_int64, two63; lia).
  rewrite (wrap64_id (c_not_before ct / second + a_back cf)) by (unfold min_int64, max_int64, two63; lia).
  destruct (decide (cl_iat c + a_offset cf <= max_int64)) as [H|H].
  - rewrite wrap64_id by lia. tauto.
  - split; intros (? & ? & ? & H1 & H2); exfalso; unfold max_int64, two63 in *; lia.
Qed.
(** A negative offset admits tokens issued at the very beginning of the int64 range. *)
Theorem C40_negative_offset_refuted : ~ forall cf ct c, cert_range ct -> duration_seconds (a_back cf) -> duration_seconds (a_offset cf) ->
  min_int64 <= cl_iat c <= max_int64 -> rotation cf ct c -> rotation_math cf ct c.
Proof.
  intros H. specialize (H (AConf true 0 (-100) false ∅) crt0 (Claims (B "svc") [] ∅ [] [] 200 (min_int64 + 50) 0)).
  assert (rotation_math (AConf true 0 (-100) false ∅) crt0 (Claims (B "svc") [] ∅ [] [] 200 (min_int64 + 50) 0)) as (_ & _ & _ & H1 & H2).
  { apply H; clear H; [by vm_compute|by vm_compute|by vm_compute|by vm_compute|]. split; [done|]. split; [done|]. split; [done|]. by vm_compute. }
  by vm_compute in H2.
Qed.
Example C40_nonvacuous :
  let cl i := Claims (B "svc") [] ∅ [] [] 200 i 0 in
  rotation (AConf true 10 50 false ∅) crt0 (cl 80) /\ rotation (AConf true 10 50 false ∅) crt0 (cl 130) /\
  ~ rotation (AConf true 10 50 false ∅) crt0 (cl 131) /\ ~ rotation (AConf true 10 50 false ∅) crt0 (cl 79) /\
  ~ rotation (AConf true 10 50 false ∅) crt0 (cl max_int64).
Proof. cbn. split_and!; rewrite <- principal_iff; by vm_compute. Qed.

(** ** C41 *)
Definition asymmetric (k : key) : Prop := match k with KRSA _ | KEC _ | KEd _ => True | _ => False end.
Definition asymmetric_algs : list str :=
  map B ["RS256"; "RS384"; "RS512"; "PS256"; "PS384"; "PS512"; "ES256"; "ES384"; "ES512"; "EdDSA"]%string.
Theorem C41_asymmetric_only X cf jwkp now tok ct c : (forall kid jku k, jwkp kid jku = Some k -> asymmetric k) ->
  parse_access X cf (Some jwkp) now tok ct = Ok c ->
  exists h alg, header_of X tok h /\ h !! B "alg" = Some (JStr alg) /\ alg ∈ asymmetric_algs.
Proof.
  intros Ha H. apply C37_accepted_is_signed in H as (_ & _ & h & k & Hh & (kid & jku & _ & _ & Hk) & (q0 & q1 & q2 & alg & m & b & _ & Halg & Hm & Hf & _)).
  exists h, alg. split; [done|]. split; [done|]. apply Ha in Hk.
  unfold asymmetric_algs. cbn [map]. rewrite !elem_of_cons.
  destruct Hm as [|t n _|t n [[-> _]|[[-> _]|[-> _]]]|t n [[-> _]|[[-> _]|[-> _]]]|t n [[-> _]|[[-> _]|[-> _]]]|]; try (inversion Hf; subst; done); cbn; tauto.
Qed.
(** Whatever the keys, alg none is refused. *)
Theorem C41_none_refused X cf jwkp now tok ct h : header_of X tok h -> h !! B "alg" = Some (JStr (B "none")) ->
  exists e, parse_access X cf (Some jwkp) now tok ct = Err e.
Proof.
  intros Hh Hn. destruct (parse_access X cf (Some jwkp) now tok ct) as [c|e|] eqn:E; [|by exists e|by apply C37_never_panics in E].
  exfalso. apply C37_accepted_is_signed in E as (_ & _ & h' & k & Hh' & _ & (q0 & q1 & q2 & alg & m & b & _ & Halg & Hm & Hf & _)).
  destruct Hh as (a0 & a1 & a2 & hb & Hs & H1 & H2). destruct Hh' as (b0 & b1 & b2 & hb' & Hs' & H1' & H2').
  destruct (segments_fun _ _ _ _ _ _ _ Hs Hs') as (<- & <- & <-). rewrite H1 in H1'. injection H1' as <-. rewrite H2 in H2'. injection H2' as <-.
  rewrite Hn in Halg. injection Halg as <-. apply method_iff in Hm. vm_compute in Hm. injection Hm as <-. inversion Hf.
Qed.
Example C41_nonvacuous :
  let f t := out (parse_access X0 cf0 (Some p0) (150 * second) t None) in
  f (B "HS256,1.A.K1HS256,1A") = 1%nat /\ f (B "none,1.A.") = 1%nat /\ f (B "none,1.A.K1none,1A") = 1%nat /\
  f (B "PS512,1.A.K1PS512,1A") = 0%nat /\ f (B "HS256,o.A.K1HS256,oA") = 0%nat /\ f (B "RS256,o.A.K1RS256,oA") = 1%nat /\
  f (B "rs256,1.A.K1rs256,1A") = 1%nat.
Proof. split_and!; vm_compute; reflexivity. Qed.

(** ** C42 *)
Theorem C42_bad_kid_refused X cf jwkp now tok ct h : header_of X tok h -> (forall s, h !! B "kid" <> Some (JStr s)) ->
  exists e, parse_access X cf (Some jwkp) now tok ct = Err e.
Proof.
  intros Hh Hn. destruct (parse_access X cf (Some jwkp) now tok ct) as [c|e|] eqn:E; [|by exists e|by apply C37_never_panics in E].
  exfalso. apply C37_accepted_is_signed in E as (_ & _ & h' & k & Hh' & (kid & jku & Hk & _) & _).
  destruct Hh as (a0 & a1 & a2 & hb & Hs & H1 & H2). destruct Hh' as (b0 & b1 & b2 & hb' & Hs' & H1' & H2').
  destruct (segments_fun _ _ _ _ _ _ _ Hs Hs') as (<- & <- & <-). rewrite H1 in H1'. injection H1' as <-. rewrite H2 in H2'. injection H2' as <-.
  by apply Hn in Hk.
Qed.
Theorem C42_bad_jku_refused X cf jwkp now tok ct h v : header_of X tok h -> h !! B "jku" = Some v -> (forall s, v <> JStr s) ->
  exists e, parse_access X cf (Some jwkp) now tok ct = Err e.
Proof.
  intros Hh Hv Hn. destruct (parse_access X cf (Some jwkp) now tok ct) as [c|e|] eqn:E; [|by exists e|by apply C37_never_panics in E].
  exfalso. apply C37_accepted_is_signed in E as (_ & _ & h' & k & Hh' & (kid & jku & _ & Hj & _) & _).
  destruct Hh as (a0 & a1 & a2 & hb & Hs & H1 & H2). destruct Hh' as (b0 & b1 & b2 & hb' & Hs' & H1' & H2').
  destruct (segments_fun _ _ _ _ _ _ _ Hs Hs') as (<- & <- & <-). rewrite H1 in H1'. injection H1' as <-. rewrite H2 in H2'. injection H2' as <-.
  rewrite Hv in Hj. destruct Hj as [[= ->]|[? _]]; [by eapply Hn|done].
Qed.
(** With the jwk daemon as provider, after any history of downloads: an accepted token is signed
    by the first key with its kid in the key set last downloaded from a configured URL: the one the
    header names, or the Athenz URL if it names none. *)
Theorem C42_key_from_configured_set X cf jcf ls n (s : @jst key) now tok ct c : jrun jcf ls (jinit n) = Some s ->
  parse_access X cf (Some (get_key jcf s)) now tok ct = Ok c ->
  exists h kid url set k, header_of X tok h /\ h !! B "kid" = Some (JStr kid) /\ kid <> [] /\
    (h !! B "jku" = Some (JStr url) \/ (h !! B "jku" = None \/ h !! B "jku" = Some (JStr [])) /\ url = j_athenz jcf) /\
    (url = j_athenz jcf \/ url ∈ j_urls jcf) /\
    Prop_Jwk.last_download ls url set /\ Prop_Jwk.first_entry set kid k /\ signed_by X tok h k.
Proof.
  intros Hr H. apply C37_accepted_is_signed in H as (_ & _ & h & k & Hh & (kid & jku & Hk & Hj & Hg) & Hs).
  pose proof (Prop_Jwk.C31_only_configured_urls _ _ _ _ _ _ _ Hr Hg) as Hu.
  apply (Prop_Jwk.C31_key_iff _ _ _ _ _ _ _ Hr) in Hg as (Hne & set & Hd & Hf).
  exists h, kid, (Prop_Jwk.effective_url jcf jku), set, k. split_and!; try done.
  destruct Hj as [Hj|[Hj ->]]; [|by right; split; [left|]]. destruct jku as [|x jku]; [right; split; [by right|done]|by left].
Qed.
Example C42_nonvacuous :
  let jcf := JConf (B "https://a") [B "https://b"] in
  match jrun jcf [JBegin 0; JFetch 0 (B "https://a") (Some [(B "1", Some (KRSA (B "K1")))]);
                  JFetch 0 (B "https://b") (Some [(B "1", Some (KRSA (B "K2")))])] (jinit 1) with
  | Some s =>
      let f t := out (parse_access X0 cf0 (Some (get_key jcf s)) (150 * second) t None) in
      (f (B "RS256,1.A.K1RS256,1A"), f (B "RS256,1,https://b.A.K2RS256,1,https://bA"),
       f (B "RS256,1,https://b.A.K1RS256,1,https://bA"), f (B "RS256,1,https://c.A.K1RS256,1,https://cA"), f (B "RS256.A.K1RS256A"))
  | None => (9, 9, 9, 9, 9)%nat
  end = (0, 0, 1, 1, 1)%nat.
Proof. vm_compute. reflexivity. Qed.

Print Assumptions C37_accept_iff.
Print Assumptions C37_accepted_is_signed.
Print Assumptions C37_not_expired.
Print Assumptions C37_already_valid_partial.
Print Assumptions C37_already_valid_refuted.
Print Assumptions C37_never_panics.
Print Assumptions C38_binding_exact.
Print Assumptions C39_client_id_exact.
Print Assumptions C39_switches_off.
Print Assumptions C40_rotation_no_overflow_partial.
Print Assumptions C40_negative_offset_refuted.
Print Assumptions C41_asymmetric_only.
Print Assumptions C41_none_refused.
Print Assumptions C42_bad_kid_refused.
Print Assumptions C42_bad_jku_refused.
Print Assumptions C42_key_from_configured_set.
