From Verif Require Export Assertion AssertionSpec UnicodeFacts.

(** Translation of one glob character into one regexp item. *)
Definition glob_item (c : rune) : item :=
  if c =? 42 then RMany CAny else if c =? 63 then ROne CAny else ROne (CLit c).

(** Characters of the generated pattern. *)
Definition glob_prunes (c : rune) : list rune :=
  if c =? 42 then [46; 42] else if c =? 63 then [46]
  else if is_meta c then [92; c] else [c].

Lemma glob_rune_spec c : glob_rune c = of_runes (glob_prunes c).
Proof.
  unfold glob_rune, glob_prunes.
  destruct (c =? 42); [reflexivity|]. destruct (c =? 63); [reflexivity|].
  destruct (is_meta c); unfold of_runes; cbn [map concat]; rewrite ?app_nil_r; reflexivity.
Qed.

Lemma pattern_spec g :
  pattern_from_glob g = of_runes (94 :: concat (map glob_prunes (runes g)) ++ [36]).
Proof.
  unfold pattern_from_glob. change (94 :: concat (map glob_prunes (runes g)) ++ [36])
    with ([94] ++ concat (map glob_prunes (runes g)) ++ [36]).
  rewrite !encode_app. f_equal. f_equal.
  induction (runes g) as [|c l IH]; [done|]. cbn [map concat]. by rewrite IH, encode_app, glob_rune_spec.
Qed.

Lemma glob_prunes_valid l :
  Forall (fun r => valid_rune r = true) l ->
  Forall (fun r => valid_rune r = true) (94 :: concat (map glob_prunes l) ++ [36]).
Proof.
  intros H. constructor; [done|]. apply Forall_app. split; [|by repeat constructor].
  induction H as [|c l Hc _ IH]; [constructor|]. cbn [map concat]. apply Forall_app. split; [|done].
  unfold glob_prunes. destruct (c =? 42); [by repeat constructor|].
  destruct (c =? 63); [by repeat constructor|]. destruct (is_meta c); by repeat constructor.
Qed.

(** The parser on generated patterns. *)
Lemma parse_pend l pend :
  (forall c p, l = c :: p -> c <> 42) ->
  parse pend l = match parse None l with Some r => Some (flush pend ++ r) | None => None end.
Proof.
  intros Hl. destruct l as [|c p].
  { destruct pend; done. }
  specialize (Hl c p eq_refl). cbn [parse].
  destruct (Z.eqb_spec c 42); [done|]. cbv zeta.
  destruct (c =? 92).
  { destruct p as [|d p2]; [done|]. destruct (is_punct d); [|done].
    by destruct (parse (Some (CLit d)) p2). }
  destruct (c =? 94); [by destruct (parse None p)|].
  destruct (c =? 36); [by destruct (parse None p)|].
  destruct (c =? 46); [by destruct (parse (Some CAny) p)|].
  destruct (is_operator c); [done|]. by destruct (parse (Some (CLit c)) p).
Qed.

Lemma glob_prunes_head c : exists d p, glob_prunes c = d :: p /\ d <> 42.
Proof.
  unfold glob_prunes. destruct (Z.eqb_spec c 42); [by do 2 eexists|].
  destruct (Z.eqb_spec c 63); [by do 2 eexists|]. destruct (is_meta c); by do 2 eexists.
Qed.

Lemma tail_head l : forall c p, concat (map glob_prunes l) ++ [36] = c :: p -> c <> 42.
Proof.
  destruct l as [|a l]; intros c p; cbn [map concat app].
  - by intros [= <- <-].
  - destruct (glob_prunes_head a) as (d & q & -> & Hd). cbn [app]. by intros [= <- _].
Qed.

Lemma parse_glob l :
  parse None (concat (map glob_prunes l) ++ [36]) = Some (map glob_item l ++ [REnd]).
Proof.
  induction l as [|c l IH]; [reflexivity|]. cbn [map concat]. rewrite <- app_assoc.
  pose proof (tail_head l) as Ht. set (k := concat (map glob_prunes l) ++ [36]) in *. clearbody k.
  unfold glob_prunes, glob_item.
  destruct (Z.eqb_spec c 42) as [->|H1].
  { change (parse None ([46; 42] ++ k)) with
      (match match parse None k with Some r => Some (RMany CAny :: r) | None => None end with
       | Some r => Some (flush None ++ r) | None => None end). by rewrite IH. }
  destruct (Z.eqb_spec c 63) as [->|H2].
  { change (parse None ([46] ++ k)) with
      (match parse (Some CAny) k with Some r => Some (flush None ++ r) | None => None end).
    rewrite parse_pend by done. by rewrite IH. }
  destruct (is_meta c) eqn:Hm.
  - cbn [app parse]. replace (92 =? 42) with false by done. replace (92 =? 92) with true by done. cbv zeta.
    assert (is_punct c = true) as ->.
    { revert Hm. unfold is_meta. rewrite !orb_true_iff, !Z.eqb_eq.
      intros Hc. decompose [or] Hc; subst; reflexivity. }
    rewrite parse_pend by done. by rewrite IH.
  - cbn [app parse]. rewrite (proj2 (Z.eqb_neq c 42)) by done. cbv zeta.
    unfold is_meta in Hm. rewrite !orb_false_iff in Hm.
    destruct Hm as [[[[[[[[[-> ->] ->] H124] H91] H43] ->] H40] H41] H123].
    unfold is_operator. rewrite H43, (proj2 (Z.eqb_neq c 63)), H40, H41, H91, H123, H124 by done.
    cbn [orb]. rewrite parse_pend by done. by rewrite IH.
Qed.

Lemma compile_glob g :
  compile (pattern_from_glob g) = Some (RBegin :: map glob_item (runes g) ++ [REnd]).
Proof.
  unfold compile. rewrite pattern_spec. rewrite decode_encode_valid.
  2:{ apply glob_prunes_valid, decode_valid. }
  unfold str_eqb. rewrite bool_decide_eq_true_2 by done.
  cbn [parse]. change (94 =? 42) with false. change (94 =? 92) with false. change (94 =? 94) with true.
  cbv zeta iota. by rewrite parse_glob.
Qed.

Lemma search_begin r w st : search (RBegin :: r) st w = st && match_at r st w.
Proof.
  revert st. induction w as [|x w IH]; intros st; cbn [search match_at].
  - by rewrite orb_false_r.
  - rewrite IH. cbn [andb]. by rewrite orb_false_r.
Qed.

Lemma glob_star_cons p w :
  glob_matches (42 :: p) w <->
  glob_matches p w \/ exists x w', w = x :: w' /\ x <> 10 /\ glob_matches (42 :: p) w'.
Proof.
  split.
  - inversion 1 as [|run p' w' Hr Hp|x p' w' Hx Hp|]; subst; try done.
    destruct run as [|x run]; [by left|]. right. inversion Hr; subst.
    exists x, (run ++ w'). repeat split; [done|]. by constructor.
  - intros [H|(x & w' & -> & Hx & H)].
    + apply (gm_star [] p w); [constructor|done].
    + inversion H as [|run p' w'' Hr Hp|x' p' w'' Hx' Hp|]; subst; try done.
      apply (gm_star (x :: run) p w''); [by constructor|done].
Qed.

Lemma match_at_glob p w st :
  match_at (map glob_item p ++ [REnd]) st w = true <-> glob_matches p w.
Proof.
  revert st w. induction p as [|c p IH]; intros st w; cbn [map app].
  - destruct w; cbn; (split; [|by inversion 1]); [by constructor|done].
  - unfold glob_item at 1. destruct (Z.eqb_spec c 42) as [->|H1].
    + cbn [match_at]. revert st. induction w as [|x w IHw]; intros st.
      * rewrite orb_false_r, IH, glob_star_cons. split; [by left|].
        intros [H|(x & w' & [=] & _)]; done.
      * rewrite orb_true_iff, andb_true_iff, IHw, IH, (glob_star_cons p (x :: w)).
        unfold accepts, newline. rewrite negb_true_iff, Z.eqb_neq. split.
        -- intros [H|[Hx H]]; [by left|]. right. by exists x, w.
        -- intros [H|(y & w' & [= <- <-] & Hx & H)]; [by left|]. by right.
    + destruct (Z.eqb_spec c 63) as [->|H2].
      * cbn [match_at]. destruct w as [|x w]; [split; [done|inversion 1]|].
        rewrite andb_true_iff, IH. unfold accepts, newline. rewrite negb_true_iff, Z.eqb_neq. split.
        -- intros [? ?]. by constructor.
        -- inversion 1; subst; done.
      * cbn [match_at]. destruct w as [|x w]; [split; [done|inversion 1; subst; done]|].
        rewrite andb_true_iff, IH. unfold accepts. rewrite Z.eqb_eq. split.
        -- intros [-> ?]. by constructor.
        -- inversion 1; subst; done.
Qed.

Lemma match_string_glob U g r s :
  compile (pattern_from_glob (to_lower U g)) = Some r ->
  match_string r (to_lower U s) = true <-> glob_matches (lower_runes U g) (lower_runes U s).
Proof.
  rewrite compile_glob. intros [= <-]. unfold match_string. rewrite search_begin. cbn [andb].
  rewrite match_at_glob. rewrite !decode_to_lower. done.
Qed.

Lemma new_assertion_ok U action resource effect :
  (exists a, new_assertion U action resource effect = Ok a) <-> ":"%char ∈ resource.
Proof.
  unfold new_assertion, split_n2. rewrite !compile_glob.
  destruct (cut (B ":") resource) as [[d r]|] eqn:E.
  - rewrite !compile_glob. split; [|by intros _; eexists]. intros _. apply cut_some in E. destruct E as [-> _].
    apply elem_of_app. right. left.
  - split; [by intros [a H]|]. intros Hin. by apply (cut_char_none ":"%char) in E.
Qed.

Lemma new_assertion_inv U action resource effect a :
  new_assertion U action resource effect = Ok a ->
  exists d r, resource = d ++ B ":" ++ r /\ ":"%char ∉ d /\ a_dom a = d /\ a_resource a = r /\
    a_action a = action /\
    a_act_re a = RBegin :: map glob_item (lower_runes U action) ++ [REnd] /\
    a_res_re a = RBegin :: map glob_item (lower_runes U r) ++ [REnd] /\
    a_effect a = (if equal_fold U (B "deny") effect then Some ErrDenyByPolicy else None).
Proof.
  unfold new_assertion, split_n2. rewrite !compile_glob.
  destruct (cut (B ":") resource) as [[d r]|] eqn:E; [|done].
  rewrite !compile_glob, !decode_to_lower. intros [= <-].
  apply (cut_char_some ":"%char) in E as [-> Hni]. exists d, r. done.
Qed.

Lemma a_matches_iff U action resource effect a domain act res :
  new_assertion U action resource effect = Ok a ->
  a_matches U a domain act res = true <-> applies U action resource domain act res.
Proof.
  intros H. apply new_assertion_inv in H as (d & r & -> & Hni & Hd & Hr & _ & Ha & Hrr & _).
  unfold a_matches, match_string. rewrite Hd, Ha, Hrr, !search_begin, !andb_true_iff. cbn [andb].
  rewrite !match_at_glob, !decode_to_lower. unfold applies. split.
  - intros [[? [_ ?]] [_ ?]]. by exists d, r.
  - intros (d' & r' & He & Hni' & ? & ? & ?).
    assert (cut [":"%char] (d ++ B ":" ++ r) = Some (d, r)) as E1 by (by apply cut_char_some).
    assert (cut [":"%char] (d ++ B ":" ++ r) = Some (d', r')) as E2 by (by apply cut_char_some).
    rewrite E1 in E2. injection E2 as -> ->. done.
Qed.

Lemma glob_literal g w :
  Forall (fun c => c <> 42 /\ c <> 63) g -> glob_matches g w <-> w = g.
Proof.
  intros H. revert w. induction H as [|c g [H1 H2] _ IH]; intros w.
  - split; [by inversion 1|intros ->; constructor].
  - split.
    + inversion 1; subst; [done|done|]. f_equal. by apply IH.
    + intros ->. constructor; [done|done|]. by apply IH.
Qed.

Lemma glob_star_all w : glob_matches [42] w <-> Forall (fun x => x <> 10) w.
Proof.
  split.
  - inversion 1 as [|run p w' Hr Hp| |]; subst; [|done].
    inversion Hp; subst. by rewrite app_nil_r.
  - intros H. rewrite <- (app_nil_r w). constructor; [done|constructor].
Qed.

(** ** ASCII case *)
Definition fold_consistent (U : unicode) : Prop :=
  forall a b, 0 <= a < 128 -> 128 <= b -> u_fold U a b = u_fold U (lower_ascii a) b.

Lemma lower_ascii_nonneg a : 0 <= a -> 0 <= lower_ascii a.
Proof. unfold lower_ascii. destruct (in_range 65 a 90); lia. Qed.

Lemma fold_eq_lower U a b : fold_consistent U -> 0 <= a -> 0 <= b ->
  fold_eq U (lower_ascii a) b = fold_eq U a b.
Proof.
  intros HU Ha Hb. destruct (Z.ltb_spec a 128) as [Ha'|Ha'].
  2:{ by rewrite lower_ascii_high. }
  pose proof (proj1 (lower_ascii_lt a) Ha') as Hl. pose proof (lower_ascii_nonneg a Ha).
  destruct (Z.ltb_spec b 128) as [Hb'|Hb'].
  - rewrite !fold_eq_ascii by lia. by rewrite lower_ascii_idem.
  - unfold fold_eq. rewrite (proj2 (Z.eqb_neq _ _)), (proj2 (Z.eqb_neq a b)) by lia. cbv zeta.
    rewrite !Z.max_r, !Z.min_l by lia. destruct (Z.ltb_spec b 128); [lia|].
    symmetry. apply HU; lia.
Qed.

Lemma forall2b_lower_l U l k : fold_consistent U ->
  Forall (fun r => 0 <= r) l -> Forall (fun r => 0 <= r) k ->
  forall2b (fold_eq U) (map lower_ascii l) k = forall2b (fold_eq U) l k.
Proof.
  intros HU Hl. revert k. induction Hl as [|a l Ha _ IH]; intros k Hk; destruct k as [|b k]; [done..|].
  inversion_clear Hk. cbn [map forall2b]. rewrite fold_eq_lower by done. by rewrite IH.
Qed.

Lemma equal_fold_case U s s' t : fold_consistent U -> case_variant s s' ->
  equal_fold U s t = equal_fold U s' t.
Proof.
  intros HU Hc. unfold equal_fold.
  rewrite <- (forall2b_lower_l U (runes s)) by (done || apply decode_nonneg).
  rewrite <- (forall2b_lower_l U (runes s')) by (done || apply decode_nonneg).
  rewrite <- !decode_lower_byte. by rewrite Hc.
Qed.

(** For the word "deny" no assumption on the tables is needed. *)
Lemma forall2b_lower_r U l k :
  Forall (fun r => 0 <= r < 128) l -> Forall (fun r => 0 <= r) k ->
  forall2b (fold_eq U) l (map lower_ascii k) = forall2b (fold_eq U) l k.
Proof.
  intros Hl. revert k. induction Hl as [|a l Ha _ IH]; intros k Hk; destruct k as [|b k]; [done..|].
  inversion_clear Hk as [|? ? Hb Hk']. cbn [map forall2b]. rewrite IH by done. f_equal.
  destruct (Z.ltb_spec b 128).
  - pose proof (proj1 (lower_ascii_lt b)). pose proof (lower_ascii_nonneg b Hb).
    rewrite !fold_eq_ascii by lia. by rewrite lower_ascii_idem.
  - by rewrite lower_ascii_high.
Qed.
Lemma equal_fold_deny_case U e e' : case_variant e e' ->
  equal_fold U (B "deny") e = equal_fold U (B "deny") e'.
Proof.
  intros Hc. unfold equal_fold.
  assert (Forall (fun r => 0 <= r < 128) (runes (B "deny"))) as Hd.
  { change (runes (B "deny")) with [100; 101; 110; 121]. repeat constructor; done. }
  rewrite <- (forall2b_lower_r U _ (runes e)) by (done || apply decode_nonneg).
  rewrite <- (forall2b_lower_r U _ (runes e')) by (done || apply decode_nonneg).
  rewrite <- !decode_lower_byte. by rewrite Hc.
Qed.

Lemma lower_runes_case U s t : case_variant s t -> lower_runes U s = lower_runes U t.
Proof. intros H. unfold lower_runes. rewrite <- !decode_to_lower. by rewrite (to_lower_case U s t). Qed.

Lemma lower_byte_colon c : lower_byte c = ":"%char -> c = ":"%char.
Proof.
  intros H. apply bval_inj. assert (lower_ascii (bval c) = 58) as Hl.
  { rewrite <- bval_lower_byte, H. done. }
  change (bval ":") with 58. unfold lower_ascii in Hl.
  destruct (in_range 65 (bval c) 90) eqn:E; [apply in_range_true in E; lia|done].
Qed.

Lemma case_variant_split s d r : case_variant (d ++ B ":" ++ r) s -> ":"%char ∉ d ->
  exists d' r', s = d' ++ B ":" ++ r' /\ ":"%char ∉ d' /\ case_variant d d' /\ case_variant r r'.
Proof.
  unfold case_variant. rewrite !map_app. intros H Hni. symmetry in H.
  apply map_eq_app in H as (d' & t & -> & Hd & Ht).
  change (map lower_byte (B ":")) with [":"%char] in Ht. cbn [app] in Ht.
  destruct t as [|c r']; [done|]. cbn [map] in Ht. injection Ht as Hc Hr.
  apply lower_byte_colon in Hc as ->. exists d', r'. repeat split; [|done|done].
  intros Hin. apply elem_of_list_In in Hin. apply (in_map lower_byte) in Hin.
  change (lower_byte ":") with ":"%char in Hin.
  rewrite Hd in Hin. apply in_map_iff in Hin as (x & Hx & Hin). apply lower_byte_colon in Hx as ->.
  by apply Hni, elem_of_list_In.
Qed.

Lemma new_assertion_case U action resource effect action' resource' effect' a :
  case_variant action action' -> case_variant resource resource' -> case_variant effect effect' ->
  new_assertion U action resource effect = Ok a ->
  exists a', new_assertion U action' resource' effect' = Ok a' /\
    a_effect a' = a_effect a /\ case_variant (a_dom a) (a_dom a') /\
    a_act_re a' = a_act_re a /\ a_res_re a' = a_res_re a.
Proof.
  intros Ha Hr He H. apply new_assertion_inv in H as (d & r & -> & Hni & Hd & _ & _ & HA & HR & HE).
  apply case_variant_split in Hr as (d' & r' & -> & Hni' & Hdd & Hrr); [|done].
  destruct (proj2 (new_assertion_ok U action' (d' ++ B ":" ++ r') effect')) as [a' Ha'].
  { apply elem_of_app. right. left. }
  exists a'. split; [done|].
  apply new_assertion_inv in Ha' as (d2 & r2 & Heq & Hni2 & Hd2 & _ & _ & HA2 & HR2 & HE2).
  assert (cut [":"%char] (d' ++ B ":" ++ r') = Some (d', r')) as E1 by (by apply cut_char_some).
  assert (cut [":"%char] (d' ++ B ":" ++ r') = Some (d2, r2)) as E2 by (by apply cut_char_some).
  rewrite E1 in E2. injection E2 as <- <-.
  rewrite HE2, HE, (equal_fold_deny_case U effect effect') by done.
  rewrite HA2, HA, (lower_runes_case U action action') by done.
  rewrite HR2, HR, (lower_runes_case U r r') by done. rewrite Hd, Hd2. done.
Qed.

Lemma a_matches_case_req U a domain act act' res res' :
  case_variant act act' -> case_variant res res' ->
  a_matches U a domain act res = a_matches U a domain act' res'.
Proof.
  intros Ha Hr. unfold a_matches.
  by rewrite (to_lower_case U act act'), (to_lower_case U res res').
Qed.
