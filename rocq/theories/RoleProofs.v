(** * Role token parsing: proofs *)
From Verif Require Export Role RoleSpec GoStrings GoStringsFacts.

(** ** Decimal integers *)
Lemma digit_val_char d : 0 <= d < 10 -> digit_val (digit_char d) = Some d.
Proof.
  intros H. assert (d = 0 \/ d = 1 \/ d = 2 \/ d = 3 \/ d = 4 \/ d = 5 \/ d = 6 \/ d = 7 \/ d = 8 \/ d = 9) as Hd by lia.
  repeat (destruct Hd as [->|Hd]; [done|]). by subst.
Qed.
Lemma digits_go_app acc s t : digits_go acc (s ++ t) = match digits_go acc s with Some a => digits_go a t | None => None end.
Proof. revert acc. induction s as [|c s IH]; intros acc; cbn [digits_go app]; [done|]. by destruct (digit_val c). Qed.
Lemma dec_go_digits fuel n : 0 <= n < 10 ^ Z.of_nat fuel -> digits_go 0 (dec_go fuel n) = Some n.
Proof.
  revert n. induction fuel as [|fuel IH]; intros n Hn; [cbn in *; f_equal; lia|]. cbn [dec_go].
  destruct (Z.ltb_spec n 10).
  - cbn [digits_go]. rewrite digit_val_char by lia. done.
  - rewrite digits_go_app, IH.
    + cbn [digits_go]. rewrite digit_val_char by (apply Z.mod_pos_bound; lia). f_equal.
      rewrite (Z.div_mod n 10) at 3 by lia. lia.
    + rewrite Nat2Z.inj_succ, Z.pow_succ_r in Hn by lia. split; [apply Z.div_pos; lia|].
      apply Z.div_lt_upper_bound; lia.
Qed.
Lemma dec_go_cons fuel n : exists c s, dec_go (S fuel) n = c :: s /\ (0 <= n -> exists d, 0 <= d < 10 /\ c = digit_char d).
Proof.
  revert n. induction fuel as [|fuel IH]; intros n.
  - cbn [dec_go]. destruct (Z.ltb_spec n 10).
    + exists (digit_char n), []. split; [done|]. intros ?. exists n. split; [lia|done].
    + exists (digit_char (n mod 10)), []. split; [done|]. intros _. exists (n mod 10). split; [apply Z.mod_pos_bound; lia|done].
  - remember (S fuel) as f eqn:Ef. cbn [dec_go]. subst f. destruct (Z.ltb_spec n 10).
    + exists (digit_char n), []. split; [done|]. intros ?. exists n. split; [lia|done].
    + destruct (IH (n / 10)) as (c & s & -> & Hc). exists c, (s ++ [digit_char (n mod 10)]). split; [done|].
      intros _. apply Hc. apply Z.div_pos; lia.
Qed.
Lemma digits_dec n : 0 <= n < 10 ^ 20 -> digits (dec_go 20 n) = Some n.
Proof.
  intros H. unfold digits. destruct (dec_go_cons 19 n) as (c & s & Heq & _). rewrite Heq, <- Heq. by apply dec_go_digits.
Qed.
Lemma digit_char_plain d : 0 <= d < 10 -> digit_char d <> "-"%char /\ digit_char d <> "+"%char.
Proof.
  intros H. assert (d = 0 \/ d = 1 \/ d = 2 \/ d = 3 \/ d = 4 \/ d = 5 \/ d = 6 \/ d = 7 \/ d = 8 \/ d = 9) as Hd by lia.
  repeat (destruct Hd as [->|Hd]; [done|]). by subst.
Qed.
Lemma parse_int_dec z : min_int64 <= z <= max_int64 -> parse_int (dec z) = Some z.
Proof.
  intros H. assert (in_int64 z = true) as Hin.
  { unfold in_int64. apply andb_true_iff. rewrite !Z.leb_le. lia. }
  unfold min_int64, max_int64, two63 in H. unfold parse_int, dec. destruct (Z.ltb_spec z 0).
  - rewrite bool_decide_eq_true_2 by done. rewrite digits_dec by lia. cbn [option_map]. rewrite Z.opp_involutive. by rewrite Hin.
  - destruct (dec_go_cons 19 z) as (c & s & Heq & Hc). rewrite Heq. destruct (Hc H0) as (d & Hd & ->).
    destruct (digit_char_plain d Hd) as [H1 H2]. rewrite !bool_decide_eq_false_2 by done.
    rewrite <- Heq, digits_dec by lia. by rewrite Hin.
Qed.
Lemma dec_plain z c : c ∈ dec z -> c <> "="%char /\ c <> ";"%char /\ c <> ","%char.
Proof.
  assert (forall d, 0 <= d < 10 -> digit_char d <> "="%char /\ digit_char d <> ";"%char /\ digit_char d <> ","%char) as Hd.
  { intros d H. assert (d = 0 \/ d = 1 \/ d = 2 \/ d = 3 \/ d = 4 \/ d = 5 \/ d = 6 \/ d = 7 \/ d = 8 \/ d = 9) as Hd by lia.
    repeat (destruct Hd as [->|Hd]; [done|]). by subst. }
  assert (forall fuel n, 0 <= n -> c ∈ dec_go fuel n -> c <> "="%char /\ c <> ";"%char /\ c <> ","%char) as Hgo.
  { induction fuel as [|fuel IH]; intros n Hn Hc; cbn [dec_go] in Hc; [by apply elem_of_nil in Hc|].
    destruct (Z.ltb_spec n 10).
    - apply elem_of_list_singleton in Hc as ->. apply Hd. lia.
    - apply elem_of_app in Hc as [Hc|Hc]; [eapply IH; [|exact Hc]; apply Z.div_pos; lia|].
      apply elem_of_list_singleton in Hc as ->. apply Hd. apply Z.mod_pos_bound. lia. }
  unfold dec. destruct (Z.ltb_spec z 0); intros Hc.
  - apply elem_of_cons in Hc as [->|Hc]; [done|]. eapply Hgo; [|exact Hc]. lia.
  - by eapply Hgo.
Qed.

(** ** Splitting *)
Lemma split_app_gen c a b : split c (a ++ c :: b) = split c a ++ split c b.
Proof.
  induction a as [|x a IH]; cbn [app split].
  - by rewrite bool_decide_eq_true_2.
  - destruct (bool_decide (x = c)); [by rewrite IH|]. rewrite IH. destruct (split c a) as [|p ps] eqn:E; [|done].
    by apply split_not_nil in E.
Qed.
Lemma signed_text_join fs : signed_text fs = join [";"%char] (map field_text fs).
Proof. induction fs as [|f [|f' fs] IH]; [done|done|]. cbn [signed_text map join] in *. by rewrite IH. Qed.
Lemma split_signed_text fs : fs <> [] -> (forall k v, (k, v) ∈ fs -> ";"%char ∉ k /\ ";"%char ∉ v) ->
  split ";"%char (signed_text fs) = map field_text fs.
Proof.
  intros Hne H. rewrite signed_text_join. apply split_join; [by destruct fs|].
  apply Forall_forall. intros p Hp. apply elem_of_list_In, in_map_iff in Hp as ([k v] & <- & Hin). apply elem_of_list_In in Hin.
  destruct (H _ _ Hin) as [H1 H2]. unfold field_text. cbn. rewrite elem_of_app, elem_of_cons. intros [?|[?|?]]; done.
Qed.
Lemma cut_field k v : "="%char ∉ k -> split_n2 (B "=") (field_text (k, v)) = [k; v].
Proof.
  intros H. unfold split_n2, field_text. cbn [fst snd]. change (B "=") with ["="%char].
  by rewrite (proj2 (cut_char_some "="%char _ k v)).
Qed.
Lemma split_n2_field p k v : split_n2 (B "=") p = [k; v] -> p = field_text (k, v) /\ "="%char ∉ k.
Proof.
  unfold split_n2. change (B "=") with ["="%char]. destruct (cut ["="%char] p) as [[a b]|] eqn:E; [|done].
  intros [= -> ->]. by apply cut_char_some in E.
Qed.

(** ** The loop *)
Definition time_of (d : time) (o : option str) : time :=
  match o with Some v => match parse_int v with Some i => time_unix i | None => d end | None => d end.
Definition upd (t : token) (fs : list (str * str)) : token :=
  Token (default (rt_domain t) (last_value fs (B "d")))
    (match last_value fs (B "r") with Some v => split ","%char v | None => rt_roles t end)
    (default (rt_principal t) (last_value fs (B "p")))
    (time_of (rt_time t) (last_value fs (B "t"))) (time_of (rt_expiry t) (last_value fs (B "e")))
    (default (rt_key t) (last_value fs (B "k"))) (default (rt_sig t) (last_value fs (B "s"))) (rt_unsigned t).
Definition times_ok (fs : list (str * str)) : Prop :=
  forall k v, (k, v) ∈ fs -> k = B "e" \/ k = B "t" -> parse_int v <> None.

Lemma set_params_upd t k v :
  set_params t k v =
    if (bool_decide (k = B "e") || bool_decide (k = B "t")) && negb (match parse_int v with Some _ => true | None => false end)
    then Err (ErrMsg (if bool_decide (k = B "e") then "invalid expiry time" else "invalid timestamp"))
    else Ok (upd t [(k, v)]).
Proof.
  destruct t. unfold set_params, upd, time_of, str_eqb. cbn [last_value].
  repeat (match goal with |- context [bool_decide (k = ?x)] => destruct (bool_decide_reflect (k = x)); [subst k; cbn; try done|] end);
    try (destruct (parse_int v); done).
Qed.
Lemma upd_cons t k v fs : times_ok ((k, v) :: fs) -> upd (upd t [(k, v)]) fs = upd t ((k, v) :: fs).
Proof.
  intros H. assert (forall d k0 k' , (k' = B "e" \/ k' = B "t") -> k0 = k' -> time_of (time_of d (if bool_decide (k = k') then Some v else None)) (last_value fs k0)
     = time_of d (match last_value fs k0 with Some x => Some x | None => if bool_decide (k = k') then Some v else None end)) as Ht.
  { intros d k0 k' Hk' ->. destruct (last_value fs k') as [w|] eqn:E; [|done]. cbn. destruct (parse_int w) eqn:Ew; [done|].
    exfalso. apply last_value_spec in E as (l1 & l2 & -> & _). apply (H k' w); [right; apply elem_of_app; right; left|done|done]. }
  unfold upd. cbn [last_value rt_domain rt_roles rt_principal rt_time rt_expiry rt_key rt_sig rt_unsigned].
  f_equal; try (by destruct (last_value fs _)); apply Ht; auto.
Qed.
Lemma set_pairs_ok t ps t' : set_pairs t ps = Ok t' <->
  exists fs, ps = map field_text fs /\ (forall k v, (k, v) ∈ fs -> "="%char ∉ k) /\ times_ok fs /\ t' = upd t fs.
Proof.
  revert t. induction ps as [|p ps IH]; intros t; cbn [set_pairs].
  - split.
    + intros [= <-]. exists []. split; [done|]. split; [intros k v Hin; by apply elem_of_nil in Hin|].
      split; [intros k v Hin; by apply elem_of_nil in Hin|]. by destruct t.
    + intros ([|] & H & _ & _ & ->); [by destruct t|done].
  - split.
    + destruct (split_n2 (B "=") p) as [|k [|v [|]]] eqn:E; try done. apply split_n2_field in E as [-> Hk].
      rewrite set_params_upd. destruct ((_ || _) && _) eqn:Eb; [done|]. cbn [obind]. intros H.
      apply IH in H as (fs & -> & Hfs & Hto & ->). exists ((k, v) :: fs). split; [done|].
      assert (times_ok ((k, v) :: fs)) as Hto'.
      { intros k' v' Hin Hk'. apply elem_of_cons in Hin as [[= -> ->]|Hin]; [|by eapply Hto].
        intros Hn. rewrite Hn in Eb. cbn in Eb. rewrite andb_true_r in Eb. apply orb_false_iff in Eb as [E1 E2].
        apply bool_decide_eq_false in E1, E2. by destruct Hk'. }
      split; [|split; [done|by apply upd_cons]]. intros k' v' Hin. apply elem_of_cons in Hin as [[= -> ->]|Hin]; [done|by eapply Hfs].
    + intros (fs & Heq & Hfs & Hto & ->). destruct fs as [|[k v] fs]; [done|]. injection Heq as -> ->.
      rewrite cut_field by (eapply Hfs; left). rewrite set_params_upd.
      assert ((bool_decide (k = B "e") || bool_decide (k = B "t")) && negb (match parse_int v with Some _ => true | None => false end) = false) as ->.
      { destruct (bool_decide_reflect (k = B "e")) as [He|He]; [|destruct (bool_decide_reflect (k = B "t")) as [Hx|]; [|done]].
        - destruct (parse_int v) eqn:E; [done|]. destruct (Hto k v); [left|by left|done].
        - destruct (parse_int v) eqn:E; [done|]. destruct (Hto k v); [left|by right|done]. }
      cbn [obind]. apply IH. exists fs. split; [done|]. split; [intros k' v' Hin; eapply Hfs; by right|].
      split; [intros k' v' Hin; eapply Hto; by right|]. by rewrite upd_cons.
  Qed.
Lemma set_pairs_no_panic t ps : set_pairs t ps <> Panic.
Proof.
  revert t. induction ps as [|p ps IH]; intros t; cbn [set_pairs]; [done|].
  destruct (split_n2 (B "=") p) as [|k [|v [|]]]; try done. rewrite set_params_upd. destruct (_ && _); [done|]. cbn [obind]. apply IH.
Qed.

(** ** The signature separator *)
Lemma app_split_cases {A} (a b u v : list A) : a ++ b = u ++ v -> (length a <= length u)%nat -> exists x, u = a ++ x /\ b = x ++ v.
Proof.
  revert u. induction a as [|y a IH]; intros u H Hl; [by exists u|]. destruct u as [|z u]; cbn in Hl; [lia|].
  cbn in H. injection H as -> H. destruct (IH u H) as (x & -> & ->); [lia|]. by exists x.
Qed.
Lemma cut_token fs sig : well_formed fs -> cut (B ";s=") (token_text fs sig) = Some (signed_text fs, sig).
Proof.
  intros (Hne & Hsep & Htail). unfold token_text. set (u := signed_text fs).
  destruct (cut (B ";s=") (u ++ B ";s=" ++ sig)) as [[a b]|] eqn:E.
  - apply cut_some in E as [Heq Hmin]. specialize (Hmin u sig eq_refl).
    destruct (app_split_cases a (B ";s=" ++ b) u (B ";s=" ++ sig) (eq_sym Heq) Hmin) as (x & Hu & Hx).
    destruct x as [|c0 x]; [rewrite app_nil_r in Hu; cbn in Hx; injection Hx as ->; by rewrite Hu|].
    exfalso. destruct x as [|c1 x]; [by injection Hx|]. destruct x as [|c2 x]; [by injection Hx|].
    cbn in Hx. injection Hx as <- <- <- Hx.
    assert (split ";"%char u = map field_text fs) as Hs.
    { apply split_signed_text; [done|]. intros k v Hin. by destruct (Hsep _ _ Hin) as (_ & ? & ?). }
    change (";"%char :: "s"%char :: "="%char :: x) with (";"%char :: ("s"%char :: "="%char :: x)) in Hu.
    rewrite Hu, split_app_gen in Hs. destruct (split ";"%char a) as [|p ps] eqn:Ea; [by apply split_not_nil in Ea|].
    assert (exists y ys, split ";"%char ("s"%char :: "="%char :: x) = ("s"%char :: "="%char :: y) :: ys) as (y & ys & Hy).
    { cbn [split]. rewrite !bool_decide_eq_false_2 by done. destruct (split ";"%char x) as [|y ys] eqn:Ex; [by apply split_not_nil in Ex|]. eauto. }
    rewrite Hy in Hs. destruct fs as [|f fs]; [done|]. cbn [map app] in Hs. injection Hs as _ Hs. cbn [tail] in Htail.
    assert ("s"%char :: "="%char :: y ∈ map field_text fs) as Hin by (rewrite <- Hs; apply elem_of_app; right; left).
    apply elem_of_list_In, in_map_iff in Hin as ([k v] & Hf & Hin). apply elem_of_list_In in Hin.
    apply (Htail k v Hin). destruct (Hsep k v) as (Hk & _); [by right|]. unfold field_text in Hf. cbn in Hf.
    destruct k as [|k0 k]; [by injection Hf as ? ?|]. cbn in Hf. injection Hf as -> Hf. destruct k as [|k1 k]; [done|].
    cbn in Hf. injection Hf as -> Hf. destruct Hk. right. left.
  - rewrite cut_none in E. by destruct (E u sig).
Qed.

(** ** The parser is exactly the inverse of the rendering *)
Definition token_of (fs : list (str * str)) (sig : str) : token :=
  upd (Token [] [] [] zero_time zero_time [] sig (signed_text fs)) fs.
Lemma parse_token_iff tok t : parse_token tok = Ok t <->
  exists fs sig, tok = token_text fs sig /\ well_formed fs /\ times_ok fs /\ t = token_of fs sig.
Proof.
  unfold parse_token. split.
  - unfold split_n2. destruct (cut (B ";s=") tok) as [[u sig]|] eqn:E; [|done]. intros H.
    apply set_pairs_ok in H as (fs & Hfs & Hk & Hto & ->).
    assert (u = signed_text fs) as Hu by (rewrite signed_text_join, <- Hfs; symmetry; apply join_split).
    apply cut_some in E as [-> Hmin].
    assert (forall k v, (k, v) ∈ fs -> ";"%char ∉ k /\ ";"%char ∉ v) as Hsemi.
    { intros k v Hin. pose proof (split_no_sep ";"%char u) as Hall. rewrite Hfs in Hall.
      rewrite Forall_forall in Hall. specialize (Hall (field_text (k, v))).
      assert (field_text (k, v) ∈ map field_text fs) as Hi by (apply elem_of_list_In, in_map, elem_of_list_In, Hin).
      specialize (Hall Hi). unfold field_text in Hall. cbn in Hall. rewrite elem_of_app, elem_of_cons in Hall. tauto. }
    exists fs, sig. split; [by rewrite Hu|]. split; [|split; [done|by rewrite Hu]].
    split; [intros ->; cbn in Hfs; by apply split_not_nil in Hfs|].
    split; [intros k v Hin; destruct (Hsemi _ _ Hin); split_and!; try done; by eapply Hk|].
    intros k v Hin ->. destruct fs as [|f fs]; [by apply elem_of_nil in Hin|]. cbn [tail] in Hin.
    apply elem_of_list_split in Hin as (l1 & l2 & ->).
    (* a later field called s would make an earlier occurrence of the separator *)
    assert (exists a b, u = a ++ B ";s=" ++ b) as (a & b & Hab).
    { rewrite Hu, signed_text_join. cbn [map]. rewrite map_app. cbn [map]. clear. generalize (field_text f) as p. intros p.
      assert (forall q qs, qs <> [] -> join [";"%char] (q :: qs) = q ++ ";"%char :: join [";"%char] qs) as Hj by (intros q [|]; done).
      assert (forall l p, exists a b, join [";"%char] (p :: l ++ (field_text (B "s", v)) :: map field_text l2) = a ++ B ";s=" ++ b) as Hg; [|apply Hg].
      induction l as [|x l IH]; intros q; cbn [app].
      - destruct (map field_text l2) as [|z zs].
        + exists q, v. done.
        + exists q, (v ++ ";"%char :: join [";"%char] (z :: zs)). rewrite !Hj by done. done.
      - rewrite Hj by done. destruct (IH x) as (a & b & ->). exists (q ++ ";"%char :: a), b. by rewrite <- app_assoc. }
    specialize (Hmin a (b ++ B ";s=" ++ sig)). rewrite Hab in Hmin.
    assert (length (a ++ B ";s=" ++ b) <= length a)%nat as Hl by (apply Hmin; by rewrite <- !app_assoc).
    rewrite !app_length in Hl. cbn in Hl. lia.
  - intros (fs & sig & -> & Hwf & Hto & ->). unfold split_n2. rewrite cut_token by done.
    destruct Hwf as (Hne & Hsep & Htail). apply set_pairs_ok. exists fs. split; [|split; [|done]].
    + apply split_signed_text; [done|]. intros k v Hin. by destruct (Hsep _ _ Hin) as (_ & ? & ?).
    + intros k v Hin. by destruct (Hsep _ _ Hin).
Qed.
Lemma parse_token_no_panic tok : parse_token tok <> Panic.
Proof. unfold parse_token. destruct (split_n2 _ tok) as [|u [|s [|]]]; try done. apply set_pairs_no_panic. Qed.

Lemma parse_and_validate_iff K pkp now tok t : parse_and_validate K (Some pkp) now tok = Ok t <->
  parse_token tok = Ok t /\ now <= rt_expiry t /\
  exists v, pkp EnvZTS (rt_key t) = Some v /\ vfy K v (rt_unsigned t) (rt_sig t) = true.
Proof.
  unfold parse_and_validate. destruct (parse_token tok) as [t'|e|]; cbn [obind]; [|by split; [|intros [? _]]..].
  unfold rt_validate, rt_expired, after. destruct (Z.ltb_spec (rt_expiry t') now).
  { split; [done|]. intros ([= ->] & ? & _). lia. }
  destruct (pkp EnvZTS (rt_key t')) as [v|] eqn:Ek; [|split; [done|]; intros ([= ->] & _ & v & Hv & _); by rewrite Ek in Hv].
  destruct (vfy K v (rt_unsigned t') (rt_sig t')) eqn:Ev; cbn [obind].
  - split; [intros [= <-]; split; [done|]; split; [done|]; eauto|by intros [[= ->] _]].
  - split; [done|]. intros ([= ->] & _ & v' & Hv & Hv'). rewrite Ek in Hv. injection Hv as ->. by rewrite Ev in Hv'.
Qed.
