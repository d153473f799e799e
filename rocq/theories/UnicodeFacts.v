(** Lemmas about [Unicode]: the UTF-8 codec and case mapping. *)
From Verif Require Export Unicode GoStringsFacts.
From Coq Require Import ZifyBool ZifyNat ZifyN.

Lemma bval_range c : 0 <= bval c < 256.
Proof. unfold bval. pose proof (N_ascii_bounded c). lia. Qed.

Lemma bval_byte_of z : 0 <= z < 256 -> bval (byte_of z) = z.
Proof. intros H. unfold bval, byte_of. rewrite N_ascii_embedding; lia. Qed.

Lemma byte_of_bval c : byte_of (bval c) = c.
Proof. unfold bval, byte_of. rewrite N2Z.id. apply ascii_N_embedding. Qed.

Lemma bval_inj a b : bval a = bval b -> a = b.
Proof. intros H. rewrite <- (byte_of_bval a), <- (byte_of_bval b). by rewrite H. Qed.

Lemma in_range_true lo x hi : in_range lo x hi = true <-> lo <= x <= hi.
Proof. unfold in_range. lia. Qed.
Lemma in_range_false lo x hi : in_range lo x hi = false <-> x < lo \/ hi < x.
Proof. unfold in_range. lia. Qed.

Lemma valid_rune_true r : valid_rune r = true <-> 0 <= r <= 55295 \/ 57344 <= r <= 1114111.
Proof. unfold valid_rune. rewrite orb_true_iff, !in_range_true. done. Qed.

Lemma fix_rune_valid r : valid_rune (fix_rune r) = true.
Proof. unfold fix_rune. destruct (valid_rune r) eqn:E; done. Qed.
Lemma fix_rune_id r : valid_rune r = true -> fix_rune r = r.
Proof. unfold fix_rune. by intros ->. Qed.
Lemma fix_rune_idem r : fix_rune (fix_rune r) = fix_rune r.
Proof. apply fix_rune_id, fix_rune_valid. Qed.

Lemma decode_ascii c s : bval c < 128 -> runes (c :: s) = bval c :: runes s.
Proof. intros H. cbn [runes]. destruct (Z.ltb_spec (bval c) 128); [done|lia]. Qed.

(** Decoding inverts encoding of one rune. *)
Lemma decode_encode_rune r s : runes (encode_rune r ++ s) = fix_rune r :: runes s.
Proof.
  unfold encode_rune. pose proof (fix_rune_valid r) as Hv. cbv zeta.
  set (q := fix_rune r) in *. clearbody q. apply valid_rune_true in Hv.
  destruct (Z.ltb_spec q 128) as [H1|H1].
  { cbn [app]. rewrite decode_ascii; rewrite bval_byte_of by lia; [done|lia]. }
  destruct (Z.ltb_spec q 2048) as [H2|H2].
  { cbn [app runes]. rewrite !bval_byte_of by (Z.div_mod_to_equations; lia).
    destruct (Z.ltb_spec (192 + q / 64) 128) as [?|?]; [Z.div_mod_to_equations; lia|].
    replace (in_range 194 (192 + q / 64) 223) with true
      by (symmetry; apply in_range_true; Z.div_mod_to_equations; lia).
    unfold cont. rewrite bval_byte_of by (Z.div_mod_to_equations; lia).
    replace (in_range 128 (128 + q mod 64) 191) with true
      by (symmetry; apply in_range_true; Z.div_mod_to_equations; lia).
    f_equal. Z.div_mod_to_equations; lia. }
  destruct (Z.ltb_spec q 65536) as [H3|H3].
  { cbn [app runes]. rewrite !bval_byte_of by (Z.div_mod_to_equations; lia).
    destruct (Z.ltb_spec (224 + q / 4096) 128) as [?|?]; [Z.div_mod_to_equations; lia|].
    replace (in_range 194 (224 + q / 4096) 223) with false
      by (symmetry; apply in_range_false; Z.div_mod_to_equations; lia).
    replace (in_range 224 (224 + q / 4096) 239) with true
      by (symmetry; apply in_range_true; Z.div_mod_to_equations; lia).
    unfold cont. rewrite bval_byte_of by (Z.div_mod_to_equations; lia).
    replace (in_range 128 (128 + q mod 64) 191) with true
      by (symmetry; apply in_range_true; Z.div_mod_to_equations; lia).
    rewrite andb_true_r.
    match goal with |- context [in_range ?a ?b ?c] => replace (in_range a b c) with true end.
    2:{ symmetry. apply in_range_true.
        destruct (Z.eqb_spec (224 + q / 4096) 224); destruct (Z.eqb_spec (224 + q / 4096) 237);
          Z.div_mod_to_equations; lia. }
    f_equal. Z.div_mod_to_equations; lia. }
  cbn [app runes]. rewrite !bval_byte_of by (Z.div_mod_to_equations; lia).
  destruct (Z.ltb_spec (240 + q / 262144) 128) as [?|?]; [Z.div_mod_to_equations; lia|].
  replace (in_range 194 (240 + q / 262144) 223) with false
    by (symmetry; apply in_range_false; Z.div_mod_to_equations; lia).
  replace (in_range 224 (240 + q / 262144) 239) with false
    by (symmetry; apply in_range_false; Z.div_mod_to_equations; lia).
  replace (in_range 240 (240 + q / 262144) 244) with true
    by (symmetry; apply in_range_true; Z.div_mod_to_equations; lia).
  unfold cont. rewrite !bval_byte_of by (Z.div_mod_to_equations; lia).
  replace (in_range 128 (128 + q mod 64) 191) with true
    by (symmetry; apply in_range_true; Z.div_mod_to_equations; lia).
  replace (in_range 128 (128 + (q / 64) mod 64) 191) with true
    by (symmetry; apply in_range_true; Z.div_mod_to_equations; lia).
  rewrite !andb_true_r.
  match goal with |- context [in_range ?a ?b ?c] => replace (in_range a b c) with true end.
  2:{ symmetry. apply in_range_true.
      destruct (Z.eqb_spec (240 + q / 262144) 240); destruct (Z.eqb_spec (240 + q / 262144) 244);
        Z.div_mod_to_equations; lia. }
  f_equal. Z.div_mod_to_equations; lia.
Qed.

Lemma decode_encode l : runes (of_runes l) = map fix_rune l.
Proof.
  induction l as [|r l IH]; [done|]. unfold of_runes in *. cbn [map concat].
  rewrite decode_encode_rune. by rewrite IH.
Qed.

Lemma decode_encode_valid l : Forall (fun r => valid_rune r = true) l -> runes (of_runes l) = l.
Proof.
  intros H. rewrite decode_encode. induction H as [|r l Hr _ IH]; [done|].
  cbn [map]. by rewrite fix_rune_id, IH.
Qed.

Lemma encode_fix l : of_runes (map fix_rune l) = of_runes l.
Proof.
  unfold of_runes. induction l as [|r l IH]; [done|]. cbn [map concat]. rewrite IH. f_equal.
  unfold encode_rune. cbv zeta. by rewrite fix_rune_idem.
Qed.

Lemma encode_app l k : of_runes (l ++ k) = of_runes l ++ of_runes k.
Proof. unfold of_runes. by rewrite map_app, concat_app. Qed.

(** Strong induction over the byte list by runes steps. *)
Lemma decode_valid s : Forall (fun r => valid_rune r = true) (runes s).
Proof.
  remember (length s) as n eqn:Hn. revert s Hn.
  induction n as [n IH] using lt_wf_ind. intros s Hn.
  destruct s as [|c0 s1]; [constructor|]. cbn [runes].
  pose proof (bval_range c0) as Hb0.
  assert (Forall (fun r => valid_rune r = true) (runes s1)) as Hs1.
  { eapply IH; [|reflexivity]. subst n; simpl; lia. }
  assert (Forall (fun r => valid_rune r = true) (rune_error :: runes s1)) as Hbad by (by constructor).
  destruct (Z.ltb_spec (bval c0) 128).
  { constructor; [|done]. apply valid_rune_true. lia. }
  destruct (in_range 194 (bval c0) 223) eqn:E2.
  { destruct s1 as [|c1 s2]; [done|]. destruct (cont c1) eqn:C1; [|done].
    apply in_range_true in E2. unfold cont in C1. apply in_range_true in C1.
    constructor; [apply valid_rune_true; lia|]. eapply IH; [|reflexivity]. subst n; simpl; lia. }
  destruct (in_range 224 (bval c0) 239) eqn:E3.
  { destruct s1 as [|c1 [|c2 s3]]; [done|done|].
    match goal with |- context [if ?b then _ else _] => destruct b eqn:C end; [|done].
    apply andb_true_iff in C as [C1 C2]. unfold cont in C2.
    apply in_range_true in E3. apply in_range_true in C1. apply in_range_true in C2.
    constructor; [apply valid_rune_true|].
    - destruct (Z.eqb_spec (bval c0) 224); destruct (Z.eqb_spec (bval c0) 237); lia.
    - eapply IH; [|reflexivity]. subst n; simpl; lia. }
  destruct (in_range 240 (bval c0) 244) eqn:E4; [|done].
  destruct s1 as [|c1 [|c2 [|c3 s4]]]; [done|done|done|].
  match goal with |- context [if ?b then _ else _] => destruct b eqn:C end; [|done].
  apply andb_true_iff in C as [C C3]. apply andb_true_iff in C as [C1 C2]. unfold cont in C2, C3.
  apply in_range_true in E4. apply in_range_true in C1. apply in_range_true in C2. apply in_range_true in C3.
  constructor; [apply valid_rune_true|].
  - destruct (Z.eqb_spec (bval c0) 240); destruct (Z.eqb_spec (bval c0) 244); lia.
  - eapply IH; [|reflexivity]. subst n; simpl; lia.
Qed.

Lemma decode_nonneg s : Forall (fun r => 0 <= r) (runes s).
Proof.
  eapply Forall_impl; [apply decode_valid|]. intros r Hr. apply valid_rune_true in Hr. lia.
Qed.

Lemma rune_lower_valid U r : valid_rune r = true -> valid_rune (rune_lower U r) = true.
Proof.
  intros Hv. unfold rune_lower. destruct (Z.ltb_spec r 128); [|apply fix_rune_valid].
  apply valid_rune_true in Hv. apply valid_rune_true. unfold lower_ascii.
  destruct (in_range 65 r 90) eqn:E; [apply in_range_true in E|]; lia.
Qed.

(** What [range strings.ToLower(s)] yields. *)
Lemma decode_to_lower U s : runes (to_lower U s) = map (rune_lower U) (runes s).
Proof.
  unfold to_lower. apply decode_encode_valid. apply Forall_map.
  eapply Forall_impl; [apply decode_valid|]. intros r. apply rune_lower_valid.
Qed.

(** ASCII strings runes to their bytes. *)
Definition is_ascii (s : str) : bool := forallb (fun c => bval c <? 128) s.
Lemma decode_is_ascii s : is_ascii s = true -> runes s = map bval s.
Proof.
  induction s as [|c s IH]; intros H; [done|]. unfold is_ascii in H. cbn [forallb] in H.
  apply andb_true_iff in H as [Hc Hs]. rewrite decode_ascii by lia. cbn [map]. by rewrite IH.
Qed.

(** ** ASCII case changes *)
Definition lower_byte (c : ascii) : ascii := byte_of (lower_ascii (bval c)).

Lemma bval_lower_byte c : bval (lower_byte c) = lower_ascii (bval c).
Proof.
  unfold lower_byte. pose proof (bval_range c). apply bval_byte_of. unfold lower_ascii.
  destruct (in_range 65 (bval c) 90) eqn:E; [apply in_range_true in E|]; lia.
Qed.
Lemma lower_byte_high c : 128 <= bval c -> lower_byte c = c.
Proof.
  intros H. apply bval_inj. rewrite bval_lower_byte. unfold lower_ascii.
  replace (in_range 65 (bval c) 90) with false; [done|]. symmetry. apply in_range_false. lia.
Qed.
Lemma lower_byte_low c : bval c < 128 -> bval (lower_byte c) < 128.
Proof.
  intros H. rewrite bval_lower_byte. unfold lower_ascii.
  destruct (in_range 65 (bval c) 90) eqn:E; [apply in_range_true in E|]; lia.
Qed.
Lemma cont_lower_byte c : cont (lower_byte c) = cont c.
Proof.
  destruct (Z.ltb_spec (bval c) 128) as [H|H].
  - unfold cont. rewrite (proj2 (in_range_false 128 (bval c) 191)) by lia.
    apply lower_byte_low in H. apply in_range_false. lia.
  - by rewrite lower_byte_high.
Qed.
Lemma in_range_lower_byte lo hi c : 128 <= lo -> in_range lo (bval (lower_byte c)) hi = in_range lo (bval c) hi.
Proof.
  intros Hlo. destruct (Z.ltb_spec (bval c) 128) as [H|H].
  - rewrite (proj2 (in_range_false lo (bval c) hi)) by lia.
    apply lower_byte_low in H. apply in_range_false. lia.
  - by rewrite lower_byte_high.
Qed.
Lemma lower_ascii_high r : 128 <= r -> lower_ascii r = r.
Proof. intros H. unfold lower_ascii. by rewrite (proj2 (in_range_false 65 r 90)) by lia. Qed.

Lemma decode_lower_byte s : runes (map lower_byte s) = map lower_ascii (runes s).
Proof.
  remember (length s) as n eqn:Hn. revert s Hn.
  induction n as [n IH] using lt_wf_ind. intros s Hn.
  destruct s as [|c0 s1]; [done|]. cbn [map runes].
  pose proof (bval_range c0) as Hb0.
  assert (runes (map lower_byte s1) = map lower_ascii (runes s1)) as Hs1.
  { eapply IH; [|reflexivity]. subst n; simpl; lia. }
  destruct (Z.ltb_spec (bval c0) 128) as [Ha|Ha].
  { destruct (Z.ltb_spec (bval (lower_byte c0)) 128) as [_|Hx].
    - rewrite Hs1, bval_lower_byte. done.
    - pose proof (lower_byte_low c0 Ha). lia. }
  rewrite (lower_byte_high c0) by lia.
  destruct (Z.ltb_spec (bval c0) 128) as [?|_]; [lia|].
  assert (map lower_ascii [rune_error] = [rune_error]) as Hre by done.
  destruct (in_range 194 (bval c0) 223) eqn:E2.
  { destruct s1 as [|c1 s2]; [done|]. cbn [map]. rewrite cont_lower_byte.
    destruct (cont c1) eqn:C1.
    - unfold cont in C1. apply in_range_true in C1. apply in_range_true in E2.
      rewrite (lower_byte_high c1) by lia. cbn [map]. rewrite lower_ascii_high by lia. f_equal.
      eapply IH; [|reflexivity]. subst n; simpl; lia.
    - cbn [map] in *. by rewrite Hs1. }
  destruct (in_range 224 (bval c0) 239) eqn:E3.
  { destruct s1 as [|c1 [|c2 s3]]; [done|by cbn [map] in *; rewrite Hs1|]. cbn [map].
    rewrite cont_lower_byte, in_range_lower_byte by (destruct (bval c0 =? 224); lia).
    match goal with |- context [if ?b then _ :: runes (map _ _) else _] => destruct b eqn:C end.
    - apply andb_true_iff in C as [C1 C2]. unfold cont in C2.
      apply in_range_true in C1. apply in_range_true in C2. apply in_range_true in E3.
      assert (128 <= bval c1) by (destruct (bval c0 =? 224); lia).
      rewrite !lower_byte_high by lia. cbn [map]. rewrite lower_ascii_high.
      + f_equal. eapply IH; [|reflexivity]. subst n; simpl; lia.
      + destruct (Z.eqb_spec (bval c0) 224); lia.
    - cbn [map] in *. by rewrite Hs1. }
  destruct (in_range 240 (bval c0) 244) eqn:E4.
  { destruct s1 as [|c1 [|c2 [|c3 s4]]];
      [done|by cbn [map] in *; rewrite Hs1|by cbn [map] in *; rewrite Hs1|]. cbn [map].
    rewrite !cont_lower_byte, in_range_lower_byte by (destruct (bval c0 =? 240); lia).
    match goal with |- context [if ?b then _ :: runes (map _ _) else _] => destruct b eqn:C end.
    - apply andb_true_iff in C as [C C3]. apply andb_true_iff in C as [C1 C2]. unfold cont in C2, C3.
      apply in_range_true in C1. apply in_range_true in C2. apply in_range_true in C3. apply in_range_true in E4.
      assert (128 <= bval c1) by (destruct (bval c0 =? 240); lia).
      rewrite !lower_byte_high by lia. cbn [map]. rewrite lower_ascii_high.
      + f_equal. eapply IH; [|reflexivity]. subst n; simpl; lia.
      + destruct (Z.eqb_spec (bval c0) 240); lia.
    - cbn [map] in *. by rewrite Hs1. }
  cbn [map]. by rewrite Hs1.
Qed.

Lemma lower_ascii_idem r : lower_ascii (lower_ascii r) = lower_ascii r.
Proof.
  unfold lower_ascii. destruct (in_range 65 r 90) eqn:E; [|by rewrite E].
  apply in_range_true in E. by rewrite (proj2 (in_range_false 65 (r + 32) 90)) by lia.
Qed.
Lemma lower_ascii_lt r : r < 128 <-> lower_ascii r < 128.
Proof. unfold lower_ascii. destruct (in_range 65 r 90) eqn:E; [apply in_range_true in E|]; lia. Qed.

Lemma rune_lower_lower_ascii U r : rune_lower U (lower_ascii r) = rune_lower U r.
Proof.
  unfold rune_lower. pose proof (lower_ascii_lt r).
  destruct (Z.ltb_spec (lower_ascii r) 128); destruct (Z.ltb_spec r 128); try lia.
  - apply lower_ascii_idem.
  - by rewrite lower_ascii_high by lia.
Qed.

(** Two byte strings that differ only in the case of ASCII letters. *)
Definition case_variant (s t : str) : Prop := map lower_byte s = map lower_byte t.

Lemma to_lower_case U s t : case_variant s t -> to_lower U s = to_lower U t.
Proof.
  intros H. unfold to_lower. f_equal.
  assert (forall l, map (rune_lower U) (map lower_ascii l) = map (rune_lower U) l) as Hm.
  { intros l. rewrite map_map. apply map_ext. intros a. apply rune_lower_lower_ascii. }
  rewrite <- (Hm (runes s)), <- (Hm (runes t)), <- !decode_lower_byte. by rewrite H.
Qed.

(** [EqualFold] and ASCII case changes. *)
Lemma forall2b_length {A} (f : A -> A -> bool) l k : forall2b f l k = true -> length l = length k.
Proof.
  revert k; induction l as [|a l IH]; intros [|b k] H; try done. simpl in *.
  apply andb_true_iff in H as [_ H]. by rewrite (IH _ H).
Qed.
Lemma forall2b_Forall2 {A} (f : A -> A -> bool) l k :
  forall2b f l k = true <-> Forall2 (fun a b => f a b = true) l k.
Proof.
  revert k; induction l as [|a l IH]; intros k; destruct k as [|b k]; simpl.
  - split; [constructor|done].
  - split; [done|]. inversion 1.
  - split; [done|]. inversion 1.
  - rewrite andb_true_iff, IH. split.
    + intros [? ?]. by constructor.
    + inversion_clear 1. done.
Qed.

Lemma fold_eq_refl U a : fold_eq U a a = true.
Proof. unfold fold_eq. by rewrite Z.eqb_refl. Qed.
Lemma fold_eq_sym U a b : fold_eq U a b = fold_eq U b a.
Proof. unfold fold_eq. rewrite (Z.eqb_sym a b), (Z.min_comm a b), (Z.max_comm a b). done. Qed.
Lemma equal_fold_refl U s : equal_fold U s s = true.
Proof.
  unfold equal_fold. induction (runes s) as [|r l IH]; [done|]. simpl. by rewrite fold_eq_refl, IH.
Qed.
Lemma equal_fold_sym U s t : equal_fold U s t = equal_fold U t s.
Proof.
  unfold equal_fold. generalize (runes s) (runes t). intros l.
  induction l as [|a l IH]; intros [|b k]; try done. simpl. by rewrite fold_eq_sym, IH.
Qed.

(** On ASCII strings EqualFold is equality up to letter case. *)
Lemma fold_eq_ascii U a b : 0 <= a < 128 -> 0 <= b < 128 ->
  fold_eq U a b = (lower_ascii a =? lower_ascii b).
Proof.
  intros Ha Hb. unfold fold_eq, lower_ascii, in_range.
  destruct (Z.eqb_spec a b) as [->|Hne]; [by rewrite Z.eqb_refl|]. cbv zeta.
  destruct (Z.ltb_spec (Z.max a b) 128); [|lia].
  destruct (Z.leb_spec 65 a), (Z.leb_spec a 90), (Z.leb_spec 65 b), (Z.leb_spec b 90),
    (Z.leb_spec 65 (Z.min a b)), (Z.leb_spec (Z.min a b) 90); cbn [andb]; lia.
Qed.
Lemma equal_fold_ascii U s t : is_ascii s = true -> is_ascii t = true ->
  (equal_fold U s t = true <-> case_variant s t).
Proof.
  intros Hs Ht. unfold equal_fold, case_variant. rewrite !decode_is_ascii by done.
  revert t Ht. induction s as [|a s IH]; intros [|b t] Ht; try done.
  unfold is_ascii in *. cbn [forallb map forall2b] in *.
  apply andb_true_iff in Hs as [Ha Hs]. apply andb_true_iff in Ht as [Hb Ht].
  pose proof (bval_range a). pose proof (bval_range b).
  rewrite andb_true_iff, IH, fold_eq_ascii by (done || lia). rewrite Z.eqb_eq.
  rewrite <- !bval_lower_byte. split.
  - intros [H1 H2]. f_equal; [by apply bval_inj|done].
  - intros [= H1 H2]. by rewrite H1.
Qed.
