(** * Properties C33-C36: role tokens *)
From Verif Require Import RoleProofs.
From Verif Require Prop_Fetcher.

(** ** C33 *)
Lemma last_value_unique fs k v : (k, v) ∈ fs -> (forall v', (k, v') ∈ fs -> v' = v) -> last_value fs k = Some v.
Proof.
  induction fs as [|[k' v'] fs IH]; intros Hin Hu; [by apply elem_of_nil in Hin|]. cbn [last_value].
  destruct (last_value fs k) as [w|] eqn:E.
  - f_equal. apply Hu. right. apply last_value_spec in E as (l1 & l2 & -> & _). apply elem_of_app. right. left.
  - apply elem_of_cons in Hin as [[= <- <-]|Hin]; [by rewrite bool_decide_eq_true_2|].
    assert (None = Some v) as [=]. apply IH; [done|]. intros x Hx. apply Hu. by right.
Qed.
Lemma last_value_absent fs k : (forall v, (k, v) ∉ fs) -> last_value fs k = None.
Proof.
  intros H. destruct (last_value fs k) as [w|] eqn:E; [|done]. apply last_value_spec in E as (l1 & l2 & -> & _).
  destruct (H w). apply elem_of_app. right. left.
Qed.

(** The keys the parser interprets. *)
Definition known_keys : list str := [B "d"; B "r"; B "p"; B "t"; B "e"; B "k"; B "s"].
(** Standard fields in any order, mixed with unknown fields. *)
Definition standard_fields (d : str) (roles : list str) (p : str) (t e : Z) (k : str) : list (str * str) :=
  [(B "d", d); (B "r", join [","%char] roles); (B "p", p); (B "t", dec t); (B "e", dec e); (B "k", k)].
Definition semi_free (s : str) : Prop := ";"%char ∉ s.

Lemma join_semi_free roles : Forall semi_free roles -> semi_free (join [","%char] roles).
Proof.
  unfold semi_free. induction roles as [|r [|r' roles] IH]; intros H; [by apply not_elem_of_nil|by inversion H|].
  inversion H as [|? ? H1 H2]; subst. specialize (IH H2). cbn [join] in *. rewrite elem_of_app, elem_of_app.
  intros [?|[Hc|?]]; [done| |done]. by apply elem_of_list_singleton in Hc.
Qed.

Theorem C33_parse_inverts_rendering d roles p t e k extra fs sig :
  fs ≡ₚ standard_fields d roles p t e k ++ extra ->
  (forall x v, (x, v) ∈ extra -> x ∉ known_keys /\ "="%char ∉ x /\ semi_free x /\ semi_free v) ->
  semi_free d -> semi_free p -> semi_free k -> roles <> [] -> Forall (fun r => semi_free r /\ ","%char ∉ r) roles ->
  min_int64 <= t <= max_int64 -> min_int64 <= e <= max_int64 ->
  parse_token (token_text fs sig) =
    Ok (Token d roles p (time_unix t) (time_unix e) k sig (signed_text fs)).
Proof.
  intros Hp Hx Hd Hpr Hk Hrne Hr Ht He.
  assert (forall x v, (x, v) ∈ fs <-> (x, v) ∈ standard_fields d roles p t e k \/ (x, v) ∈ extra) as Hin.
  { intros x v. by rewrite Hp, elem_of_app. }
  assert (forall x v v', x ∈ known_keys -> (x, v) ∈ fs -> (x, v') ∈ standard_fields d roles p t e k -> v = v') as Huniq.
  { intros x v v' Hkn Hv Hv'. apply Hin in Hv as [Hv|Hv]; [|by destruct (Hx _ _ Hv)].
    unfold standard_fields in Hv, Hv'. rewrite !elem_of_cons in Hv, Hv'.
    destruct Hv as [[= -> ->]|[[= -> ->]|[[= -> ->]|[[= -> ->]|[[= -> ->]|[[= -> ->]|Hv]]]]]]; [..|by apply elem_of_nil in Hv];
      destruct Hv' as [[= Heq]|[[= Heq]|[[= Heq]|[[= Heq]|[[= Heq]|[[= Heq]|Hv']]]]]]; try done; by apply elem_of_nil in Hv'. }
  assert (forall x v, x ∈ known_keys -> (x, v) ∈ standard_fields d roles p t e k -> last_value fs x = Some v) as Hlast.
  { intros x v Hkn Hv. apply last_value_unique; [apply Hin; by left|]. intros v' Hv'. by eapply Huniq. }
  assert (forall v, (B "s", v) ∉ fs) as Hs.
  { intros v Hv. apply Hin in Hv as [Hv|Hv].
    - unfold standard_fields in Hv. rewrite !elem_of_cons in Hv. destruct Hv as [?|[?|[?|[?|[?|[?|Hv]]]]]]; try done. by apply elem_of_nil in Hv.
    - destruct (Hx _ _ Hv) as [H _]. destruct H. unfold known_keys. rewrite !elem_of_cons. tauto. }
  apply parse_token_iff. exists fs, sig. split; [done|]. split; [|split].
  - split; [intros ->; apply Permutation_nil in Hp; done|]. split.
    + intros x v Hv. apply Hin in Hv as [Hv|Hv]; [|by destruct (Hx _ _ Hv) as (_ & ? & ? & ?)].
      assert (semi_free (dec t)) as Hdt by (intros Hc; by apply dec_plain in Hc as (_ & ? & _)).
      assert (semi_free (dec e)) as Hde by (intros Hc; by apply dec_plain in Hc as (_ & ? & _)).
      assert (semi_free (join [","%char] roles)) as Hdr.
      { apply join_semi_free. eapply Forall_impl; [exact Hr|]. intros r H. by destruct H. }
      unfold standard_fields in Hv. rewrite !elem_of_cons in Hv.
      destruct Hv as [[= -> ->]|[[= -> ->]|[[= -> ->]|[[= -> ->]|[[= -> ->]|[[= -> ->]|Hv]]]]]]; [..|by apply elem_of_nil in Hv];
        (split; [|split; [|done]]; by rewrite elem_of_list_singleton).
    + intros x v Hv ->. apply (Hs v). destruct fs; [by apply elem_of_nil in Hv|]. by right.
  - intros x v Hv Hte. assert (exists i, v = dec i /\ min_int64 <= i <= max_int64) as (i & -> & Hi).
    { destruct Hte as [-> | ->].
      - exists e. split; [|done]. apply (Huniq (B "e")); [| |].
        + unfold known_keys. rewrite !elem_of_cons. tauto.
        + done.
        + unfold standard_fields. rewrite !elem_of_cons. tauto.
      - exists t. split; [|done]. apply (Huniq (B "t")); [| |].
        + unfold known_keys. rewrite !elem_of_cons. tauto.
        + done.
        + unfold standard_fields. rewrite !elem_of_cons. tauto. }
    by rewrite parse_int_dec.
  - unfold token_of, upd. cbn [rt_domain rt_roles rt_principal rt_time rt_expiry rt_key rt_sig rt_unsigned].
    rewrite (Hlast (B "d") d), (Hlast (B "r") (join [","%char] roles)), (Hlast (B "p") p), (Hlast (B "t") (dec t)),
      (Hlast (B "e") (dec e)), (Hlast (B "k") k), (last_value_absent fs (B "s") Hs)
      by (unfold known_keys, standard_fields; rewrite !elem_of_cons; tauto).
    cbn [default time_of]. unfold time_of. rewrite !parse_int_dec by done. f_equal.
    symmetry. apply split_join; [done|]. eapply Forall_impl; [exact Hr|]. intros r H. by destruct H.
Qed.
Example C33_nonvacuous :
  parse_token (B "v=Z1;d=coretech;r=admin,users;p=u.x;h=host;t=100;e=-7;k=0;s=a;s=b") =
    Ok (Token (B "coretech") [B "admin"; B "users"] (B "u.x") (time_unix 100) (time_unix (-7)) (B "0") (B "a;s=b")
          (B "v=Z1;d=coretech;r=admin,users;p=u.x;h=host;t=100;e=-7;k=0")) /\
  token_text ((B "v", B "Z1") :: standard_fields (B "coretech") [B "admin"; B "users"] (B "u.x") 100 (-7) (B "0")) (B "a;s=b") =
    B "v=Z1;d=coretech;r=admin,users;p=u.x;t=100;e=-7;k=0;s=a;s=b".
Proof. split; vm_compute; reflexivity. Qed.

(** Parsing succeeds exactly on renderings of well-formed field lists with int64 times;
    a field not interpreted has no effect on the token but for the signed text. *)
Theorem C33_parse_exact tok t : parse_token tok = Ok t <->
  exists fs sig, tok = token_text fs sig /\ well_formed fs /\ times_ok fs /\ t = token_of fs sig.
Proof. apply parse_token_iff. Qed.
Theorem C33_unknown_fields_ignored l1 x v l2 sig t t' : x ∉ known_keys ->
  parse_token (token_text (l1 ++ (x, v) :: l2) sig) = Ok t -> parse_token (token_text (l1 ++ l2) sig) = Ok t' ->
  well_formed (l1 ++ (x, v) :: l2) -> well_formed (l1 ++ l2) ->
  (rt_domain t, rt_roles t, rt_principal t, rt_time t, rt_expiry t, rt_key t, rt_sig t) =
  (rt_domain t', rt_roles t', rt_principal t', rt_time t', rt_expiry t', rt_key t', rt_sig t').
Proof.
  intros Hx H H' Hw Hw'.
  assert (forall k, k ∈ known_keys -> last_value (l1 ++ (x, v) :: l2) k = last_value (l1 ++ l2) k) as Heq.
  { intros k Hk. induction l1 as [|[a b] l1 IH]; cbn [app last_value]; [|].
    - rewrite bool_decide_eq_false_2 by (intros ->; done). by destruct (last_value l2 k).
    - assert (forall l, last_value ((a, b) :: l) k = match last_value l k with Some w => Some w | None => if bool_decide (a = k) then Some b else None end) as Hl by done.
      clear IH. enough (last_value (l1 ++ (x, v) :: l2) k = last_value (l1 ++ l2) k) as -> by done.
      clear -Hx Hk. induction l1 as [|[a b] l1 IH]; cbn [app last_value]; [|by rewrite IH].
      rewrite bool_decide_eq_false_2 by (intros ->; done). by destruct (last_value l2 k). }
  assert (forall fs t, well_formed fs -> parse_token (token_text fs sig) = Ok t -> t = upd (Token [] [] [] zero_time zero_time [] sig (signed_text fs)) fs) as Hdet.
  { intros fs t0 Hwf H0. unfold parse_token, split_n2 in H0. rewrite cut_token in H0 by done. destruct Hwf as (Hne & Hsep & _).
    rewrite split_signed_text in H0; [|done|intros k w Hin; by destruct (Hsep _ _ Hin) as (_ & ? & ?)].
    apply set_pairs_ok in H0 as (fs' & Hfs & Hk & _ & ->).
    assert (fs' = fs) as ->; [|done]. clear -Hfs Hk Hsep. revert fs' Hfs Hk. induction fs as [|[k v] fs IH]; intros [|[k' v'] fs'] Hfs Hk; try done.
    cbn [map] in Hfs. injection Hfs as Hf Hfs. f_equal.
    - pose proof (cut_field k v) as H1. pose proof (cut_field k' v') as H2. rewrite Hf, H2 in H1 by (eapply Hk; left).
      destruct (Hsep k v) as [Hkk _]; [left|]. by injection (H1 Hkk) as -> ->.
    - apply IH; [intros; eapply Hsep; by right|done|intros; eapply Hk; by right]. }
  apply Hdet in H; [|done]. apply Hdet in H'; [|done]. subst t t'. unfold upd. cbn.
  rewrite !Heq by (unfold known_keys; rewrite !elem_of_cons; tauto). done.
Qed.
Example C33_unknown_nonvacuous :
  let f l := match parse_token (token_text l (B "sg")) with Ok t => Some (rt_domain t, rt_key t, rt_sig t) | _ => None end in
  f [(B "d", B "x"); (B "zz", B "y=1"); (B "k", B "0")] = Some (B "x", B "0", B "sg") /\
  f [(B "d", B "x"); (B "k", B "0")] = Some (B "x", B "0", B "sg") /\ B "zz" ∉ known_keys.
Proof. split_and!; [vm_compute; reflexivity..|]. unfold known_keys. rewrite !elem_of_cons, elem_of_nil. intros H. by repeat (destruct H as [?|H]). Qed.

(** ** C34 *)
(** Acceptance is exactly: well-formed, int64 times, unexpired, and the signed text verifies
    under the ZTS key it names. *)
Theorem C34_accept_iff K pkp now tok t : parse_and_validate K (Some pkp) now tok = Ok t <->
  exists fs sig v, tok = token_text fs sig /\ well_formed fs /\ times_ok fs /\ t = token_of fs sig /\
    now <= time_of zero_time (last_value fs (B "e")) /\
    pkp EnvZTS (default [] (last_value fs (B "k"))) = Some v /\
    vfy K v (signed_text fs) (default sig (last_value fs (B "s"))) = true.
Proof.
  rewrite parse_and_validate_iff. rewrite parse_token_iff. split.
  - intros ((fs & sig & -> & Hw & Hto & ->) & Hle & v & Hv & Hs). exists fs, sig, v. done.
  - intros (fs & sig & v & -> & Hw & Hto & -> & Hle & Hv & Hs). split; [by exists fs, sig|]. split; [done|]. by exists v.
Qed.
Lemma time_unix_le i : min_int64 <= i -> time_unix i <= i * second.
Proof.
  intros H. unfold time_unix. apply Z.mul_le_mono_nonneg_r; [unfold second; lia|].
  assert (wrap64 (i + unix_to_internal) <= i + unix_to_internal); [|lia].
  unfold wrap64, unix_to_internal, min_int64, two63, two64 in *.
  pose proof (Z.mod_le (i + 62135596800 + 9223372036854775808) 18446744073709551616). lia.
Qed.
Lemma parse_int_range s i : parse_int s = Some i -> min_int64 <= i <= max_int64.
Proof.
  unfold parse_int. intros H.
  assert (in_int64 i = true) as Hi.
  { repeat case_match; try done; injection H as <-; done. }
  unfold in_int64 in Hi. apply andb_true_iff in Hi. rewrite !Z.leb_le in Hi. lia.
Qed.
(** Any clock after year 1: the expiry field is present, and as a mathematical integer it is not
    in the past: no overflow can revive a token. *)
Theorem C34_expiry_present_and_not_past K pkp now tok t : zero_time < now ->
  parse_and_validate K (Some pkp) now tok = Ok t ->
  exists fs sig es e, tok = token_text fs sig /\ well_formed fs /\
    last_value fs (B "e") = Some es /\ parse_int es = Some e /\ now <= e * second /\ rt_expiry t = time_unix e.
Proof.
  intros Hn H. apply C34_accept_iff in H as (fs & sig & v & -> & Hw & Hto & -> & Hle & _).
  unfold time_of in Hle. destruct (last_value fs (B "e")) as [es|] eqn:Ee; [|lia].
  destruct (parse_int es) as [e|] eqn:Ep; [|lia]. exists fs, sig, es, e. split_and!; try done.
  - pose proof (parse_int_range _ _ Ep). pose proof (time_unix_le e). lia.
  - unfold token_of, upd. cbn [rt_expiry]. rewrite Ee. unfold time_of. by rewrite Ep.
Qed.
(** Every field but the signature is a function of the signed text, which is the token up to the
    first separator. *)
Theorem C34_fields_from_signed_text K pkp pkp' now now' tok tok' t t' :
  parse_and_validate K (Some pkp) now tok = Ok t -> parse_and_validate K (Some pkp') now' tok' = Ok t' ->
  rt_unsigned t = rt_unsigned t' ->
  (rt_domain t, rt_roles t, rt_principal t, rt_time t, rt_expiry t, rt_key t) =
  (rt_domain t', rt_roles t', rt_principal t', rt_time t', rt_expiry t', rt_key t').
Proof.
  intros H H' Heq. apply C34_accept_iff in H as (fs & sig & v & _ & Hw & _ & -> & _).
  apply C34_accept_iff in H' as (fs' & sig' & v' & _ & Hw' & _ & -> & _).
  cbn in Heq. assert (map field_text fs = map field_text fs') as Hm.
  { destruct Hw as (Hne & Hsep & _), Hw' as (Hne' & Hsep' & _).
    rewrite <- (split_signed_text fs), <- (split_signed_text fs'), Heq; try done;
      intros k w Hin; [by destruct (Hsep' _ _ Hin) as (_ & ? & ?)|by destruct (Hsep _ _ Hin) as (_ & ? & ?)]. }
  assert (fs = fs') as ->; [|done]. destruct Hw as (_ & Hsep & _), Hw' as (_ & Hsep' & _). clear -Hm Hsep Hsep'.
  revert fs' Hm Hsep'. induction fs as [|[k v] fs IH]; intros [|[k' v'] fs'] Hfs Hk; try done.
  cbn [map] in Hfs. injection Hfs as Hf Hfs. f_equal.
  - pose proof (cut_field k v) as H1. pose proof (cut_field k' v') as H2. destruct (Hsep k v) as [Hkk _]; [left|].
    destruct (Hk k' v') as [Hkk' _]; [left|]. rewrite Hf, H2 in H1 by done. by injection (H1 Hkk) as -> ->.
  - apply IH; [intros; eapply Hsep; by right|done|intros; eapply Hk; by right].
Qed.
Theorem C34_unsigned_is_prefix K pkp now tok t : parse_and_validate K (Some pkp) now tok = Ok t ->
  exists sig, tok = rt_unsigned t ++ B ";s=" ++ sig /\
    forall a b, tok = a ++ B ";s=" ++ b -> (length (rt_unsigned t) <= length a)%nat.
Proof.
  intros H. apply C34_accept_iff in H as (fs & sig & v & -> & Hw & _ & -> & _). exists sig.
  pose proof (cut_token fs sig Hw) as Hc. apply cut_some in Hc. exact Hc.
Qed.
Example C34_nonvacuous :
  let tok := B "d=x;r=a;p=u;t=1;e=100;k=0;s=ZTSKEYd=x;r=a;p=u;t=1;e=100;k=0" in
  let f now := match parse_and_validate Prop_Fetcher.K1 (Some Prop_Fetcher.keys1) now tok with Ok t => Ok (rt_domain t, rt_roles t) | Err e => Err e | Panic => Panic end in
  f (100 * second) = Ok (B "x", [B "a"]) /\ f (100 * second + 1) = Err ErrRoleTokenExpired /\
  (let tok := B "d=x;e=9223372036854775807;k=0;s=ZTSKEYd=x;e=9223372036854775807;k=0" in
   parse_and_validate Prop_Fetcher.K1 (Some Prop_Fetcher.keys1) 0 tok = Err ErrRoleTokenExpired) /\
  (let tok := B "d=x;e=100;k=1;s=ZTSKEYd=x;e=100;k=1" in
   parse_and_validate Prop_Fetcher.K1 (Some Prop_Fetcher.keys1) 0 tok = Err ErrRoleTokenInvalid) /\
  (let tok := B "d=x;e=100;k=0;s=ZTSKEYd=y;e=100;k=0" in
   parse_and_validate Prop_Fetcher.K1 (Some Prop_Fetcher.keys1) 0 tok = Err (ErrMsg "signature verification failed")).
Proof. split_and!; vm_compute; reflexivity. Qed.

(** ** C35 *)
Theorem C35_no_signature K pkp now tok : (forall a b, tok <> a ++ B ";s=" ++ b) ->
  parse_and_validate K pkp now tok = Err ErrRoleTokenInvalid.
Proof.
  intros H. apply cut_none in H. unfold parse_and_validate, parse_token, split_n2. by rewrite H.
Qed.
(** A piece of the signed text without an equals sign, or a t or e piece that is no int64. *)
Definition bad_piece (p : str) : Prop :=
  "="%char ∉ p \/ exists v, (p = B "e=" ++ v \/ p = B "t=" ++ v) /\ parse_int v = None.
Theorem C35_bad_piece_refused K pkp now a p b sig : ";"%char ∉ p -> bad_piece p ->
  (forall x y, (a ++ p ++ b) <> x ++ B ";s=" ++ y) -> (a = [] \/ exists a', a = a' ++ B ";") -> (b = [] \/ exists b', b = B ";" ++ b') ->
  exists e, parse_and_validate K pkp now ((a ++ p ++ b) ++ B ";s=" ++ sig) = Err e.
Proof.
  intros Hsemi Hbad Hno Ha Hb. unfold parse_and_validate.
  destruct (parse_token ((a ++ p ++ b) ++ B ";s=" ++ sig)) as [t|e|] eqn:E.
  - exfalso. unfold parse_token, split_n2 in E.
    destruct (cut (B ";s=") ((a ++ p ++ b) ++ B ";s=" ++ sig)) as [[u s']|] eqn:Ec; [|done].
    apply cut_some in Ec as [Heq Hmin]. specialize (Hmin _ _ eq_refl).
    destruct (app_split_cases u (B ";s=" ++ s') (a ++ p ++ b) (B ";s=" ++ sig) (eq_sym Heq) Hmin) as (x & Hu & Hx).
    assert (u = a ++ p ++ b) as ->.
    { destruct x as [|c0 x]; [by rewrite app_nil_r in Hu|]. destruct x as [|c1 x]; [by injection Hx|]. destruct x as [|c2 x]; [by injection Hx|].
      cbn in Hx. injection Hx as <- <- <- Hx. by destruct (Hno u x). }
    apply set_pairs_ok in E as (fs & Hfs & Hk & Hto & _).
    assert (p ∈ split ";"%char (a ++ p ++ b)) as Hp.
    { assert (p ∈ split ";"%char (p ++ b)) as Hpb.
      { destruct Hb as [-> | [b' ->]]; [rewrite app_nil_r, split_no by done; left|].
        cbn. rewrite split_app_gen, split_no by done. left. }
      destruct Ha as [-> | [a' ->]]; [done|]. rewrite <- app_assoc. cbn. rewrite split_app_gen. apply elem_of_app. by right. }
    rewrite Hfs in Hp. apply elem_of_list_In, in_map_iff in Hp as ([k v] & <- & Hin). apply elem_of_list_In in Hin.
    destruct Hbad as [Hbad|(v' & Hv' & Hpi)].
    + apply Hbad. unfold field_text. cbn. rewrite elem_of_app, elem_of_cons. tauto.
    + assert ("="%char ∉ k) as Hkk by (by eapply Hk). unfold field_text in Hv'. cbn in Hv'.
      assert (forall c, k ++ "="%char :: v = c :: "="%char :: v' -> c <> "="%char -> k = [c] /\ v = v') as Hkv.
      { intros c Hc Hcn. destruct k as [|k0 k]; cbn in Hc; [injection Hc as ? ?; congruence|]. injection Hc as -> Hc.
        destruct k as [|k1 k]; cbn in Hc; [by injection Hc as ->|]. injection Hc as -> _. destruct Hkk. right. left. }
      destruct Hv' as [Hv'|Hv']; apply Hkv in Hv' as [-> ->]; try done; eapply Hto; eauto.
  - cbn. eauto.
  - by apply parse_token_no_panic in E.
Qed.
Theorem C35_never_panics K pkp now tok : parse_and_validate K (Some pkp) now tok <> Panic.
Proof.
  unfold parse_and_validate. destruct (parse_token tok) as [t|e|] eqn:E; cbn [obind]; [|done|by apply parse_token_no_panic in E].
  unfold rt_validate. destruct (rt_expired now t); [done|]. destruct (pkp EnvZTS (rt_key t)); [|done]. by destruct (vfy K _ _ _).
Qed.
(** Without a key provider an unexpired token does panic (New without the public key daemon). *)
Theorem C35_nil_provider_panics K now tok : parse_and_validate K None now tok = Panic <->
  exists t, parse_token tok = Ok t /\ now <= rt_expiry t.
Proof.
  unfold parse_and_validate. destruct (parse_token tok) as [t|e|] eqn:E; cbn [obind].
  - unfold rt_validate, rt_expired, after. destruct (Z.ltb_spec (rt_expiry t) now); cbn [obind].
    + split; [done|]. intros (t' & [= <-] & ?). lia.
    + split; [|done]. intros _. by exists t.
  - split; [done|]. by intros (? & ? & _).
  - by apply parse_token_no_panic in E.
Qed.
Example C35_nonvacuous :
  let f s := match parse_token s with Ok _ => None | Err e => Some e | Panic => Some ErrCanceled end in
  f (B "d=x;e=1;s") = Some ErrRoleTokenInvalid /\ f (B "") = Some ErrRoleTokenInvalid /\
  f (B "d=x;;e=1;s=q") = Some ErrRoleTokenInvalid /\ f (B ";s=") = Some ErrRoleTokenInvalid /\
  f (B "d=x;e=9223372036854775808;s=q") = Some (ErrMsg "invalid expiry time") /\
  f (B "d=x;t=1.5;s=q") = Some (ErrMsg "invalid timestamp") /\ f (B "d=x;s=q") = None.
Proof. split_and!; vm_compute; reflexivity. Qed.

(** ** C36 *)
(** Unless the signed text starts with s=, the signature is the text after the first separator. *)
Theorem C36_signature_partial tok t : parse_token tok = Ok t -> (forall x, rt_unsigned t <> B "s=" ++ x) ->
  tok = rt_unsigned t ++ B ";s=" ++ rt_sig t.
Proof.
  intros H Hn. apply parse_token_iff in H as (fs & sig & -> & (Hne & Hsep & Htail) & _ & ->).
  unfold token_text, token_of, upd in *. cbn [rt_sig rt_unsigned] in *. rewrite last_value_absent; [done|].
  intros v Hin. destruct fs as [|[k w] fs]; [by apply elem_of_nil in Hin|]. apply elem_of_cons in Hin as [[= <- <-]|Hin]; [|by eapply Htail].
  destruct fs as [|f fs]; [apply (Hn v)|eapply (Hn (v ++ ";"%char :: signed_text (f :: fs)))]; done.
Qed.
(** Otherwise it is the value of that first field: what the token says after the separator is ignored. *)
Theorem C36_leading_s_wins k v fs sig : k = B "s" -> well_formed ((k, v) :: fs) -> times_ok ((k, v) :: fs) ->
  exists t, parse_token (token_text ((k, v) :: fs) sig) = Ok t /\ rt_sig t = v.
Proof.
  intros -> Hw Hto. eexists. split; [apply parse_token_iff; by exists ((B "s", v) :: fs), sig|].
  unfold token_of, upd. cbn [rt_sig last_value]. rewrite last_value_absent; [done|].
  intros x Hin. destruct Hw as (_ & _ & Ht). by eapply Ht.
Qed.
Theorem C36_signature_refuted : ~ forall tok t, parse_token tok = Ok t -> tok = rt_unsigned t ++ B ";s=" ++ rt_sig t.
Proof.
  intros H. specialize (H (B "s=forged;d=x;s=real")). destruct (parse_token (B "s=forged;d=x;s=real")) as [t|e|] eqn:E;
    [|by vm_compute in E..]. specialize (H t eq_refl). vm_compute in E. injection E as <-. by vm_compute in H.
Qed.
Example C36_nonvacuous :
  let f s := match parse_token s with Ok t => Some (rt_unsigned t, rt_sig t) | _ => None end in
  f (B "d=x;ss=1;s=real;s=two") = Some (B "d=x;ss=1", B "real;s=two") /\ f (B "s=forged;d=x;s=real") = Some (B "s=forged;d=x", B "forged").
Proof. split; vm_compute; reflexivity. Qed.

Print Assumptions C33_parse_inverts_rendering.
Print Assumptions C33_parse_exact.
Print Assumptions C33_unknown_fields_ignored.
Print Assumptions C34_accept_iff.
Print Assumptions C34_expiry_present_and_not_past.
Print Assumptions C34_fields_from_signed_text.
Print Assumptions C34_unsigned_is_prefix.
Print Assumptions C35_no_signature.
Print Assumptions C35_bad_piece_refused.
Print Assumptions C35_never_panics.
Print Assumptions C35_nil_provider_panics.
Print Assumptions C36_signature_partial.
Print Assumptions C36_leading_s_wins.
Print Assumptions C36_signature_refuted.
