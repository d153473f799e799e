(** * Exact cases of the float64 arithmetic in [GoFloat.v] *)
From Coq Require Import ZArith Lia.
From Coq.Floats Require Import SpecFloat.
From Verif Require Import GoFloat.
Open Scope Z_scope.

Lemma digits2_log2 p : Z.pos (digits2_pos p) = Z.log2 (Z.pos p) + 1.
Proof.
  induction p as [p IH | p IH |]; cbn [digits2_pos].
  - rewrite Pos2Z.inj_succ, IH. rewrite (Pos2Z.inj_xI p).
    rewrite Z.log2_succ_double by lia. lia.
  - rewrite Pos2Z.inj_succ, IH. rewrite (Pos2Z.inj_xO p).
    rewrite Z.log2_double by lia. lia.
  - reflexivity.
Qed.

(** The float64 of an integer 0 < v < 2^53. *)
Definition cans (s : bool) (v : Z) : spec_float := S754_finite s (Z.to_pos (v * 2 ^ (52 - Z.log2 v))) (Z.log2 v - 52).
Notation can := (cans false).

Definition rec0 (m : Z) : shr_record := {| shr_m := m; shr_r := false; shr_s := false |}.

Lemma shr_1_double x : 0 < x -> shr_1 (rec0 (x * 2)) = rec0 x.
Proof.
  intros H. destruct x as [| p | p]; try lia.
  replace (Z.pos p * 2) with (Z.pos (xO p)) by lia. reflexivity.
Qed.

Lemma iter_shr p : forall x, 0 < x -> iter_pos shr_1 p (rec0 (x * 2 ^ Z.pos p)) = rec0 x.
Proof.
  induction p as [p IH | p IH |]; intros x H; cbn [iter_pos].
  - rewrite (Pos2Z.inj_xI p), (Z.add_comm (2 * Z.pos p)), Z.pow_add_r by lia.
    replace (2 * Z.pos p) with (Z.pos p + Z.pos p) by lia. rewrite Z.pow_add_r by lia.
    replace (x * (2 ^ 1 * (2 ^ Z.pos p * 2 ^ Z.pos p))) with ((x * 2 ^ Z.pos p * 2 ^ Z.pos p) * 2) by lia.
    rewrite shr_1_double by (apply Z.mul_pos_pos; [apply Z.mul_pos_pos |]; lia).
    rewrite IH by (apply Z.mul_pos_pos; lia). apply IH, H.
  - rewrite (Pos2Z.inj_xO p). replace (2 * Z.pos p) with (Z.pos p + Z.pos p) by lia. rewrite Z.pow_add_r by lia.
    rewrite Z.mul_assoc. rewrite IH by (apply Z.mul_pos_pos; lia). apply IH, H.
  - rewrite Z.pow_1_r. apply shr_1_double, H.
Qed.

Lemma shr_exact x n e : 0 < x -> 0 <= n -> shr (rec0 (x * 2 ^ n)) e n = (rec0 x, e + n).
Proof.
  intros H N. destruct n as [| p | p]; [| | lia].
  - cbn. rewrite Z.mul_1_r, Z.add_0_r. reflexivity.
  - cbn [shr]. rewrite iter_shr by exact H. reflexivity.
Qed.

Lemma Zdigits2_log2 m : 0 < m -> Zdigits2 m = Z.log2 m + 1.
Proof. destruct m as [| p | p]; try lia. intros _. apply digits2_log2. Qed.

Lemma log2_53 v : 0 < v < 2 ^ 53 -> 0 <= Z.log2 v <= 52.
Proof.
  intros H. split; [apply Z.log2_nonneg |].
  assert (Z.log2 v < 53); [| lia]. apply Z.log2_lt_pow2; lia.
Qed.

Lemma round_exact s v mx ex :
  0 < v < 2 ^ 53 -> mx = v * 2 ^ (- ex) -> ex <= Z.log2 v - 52 ->
  binary_round_aux 53 1024 s mx ex loc_Exact = cans s v.
Proof.
  intros V -> E. pose proof (log2_53 v V) as L.
  set (M := v * 2 ^ (52 - Z.log2 v)).
  assert (HM : 0 < M) by (apply Z.mul_pos_pos; lia).
  assert (LM : Z.log2 M = 52) by (unfold M; rewrite Z.log2_mul_pow2 by lia; lia).
  set (n := Z.log2 v - 52 - ex).
  assert (EM : v * 2 ^ (- ex) = M * 2 ^ n).
  { unfold M. rewrite <- Z.mul_assoc, <- Z.pow_add_r by lia. f_equal. f_equal. lia. }
  assert (LX : Zdigits2 (v * 2 ^ (- ex)) = Z.log2 v - ex + 1).
  { rewrite Zdigits2_log2 by (apply Z.mul_pos_pos; lia). rewrite Z.log2_mul_pow2 by lia. lia. }
  unfold binary_round_aux, shr_fexp.
  rewrite LX. cbn [shr_record_of_loc].
  assert (F : fexp 53 1024 (Z.log2 v - ex + 1 + ex) - ex = n).
  { unfold fexp, emin, n. rewrite Z.max_l by lia. lia. }
  rewrite F, EM. change {| shr_m := M * 2 ^ n; shr_r := false; shr_s := false |} with (rec0 (M * 2 ^ n)).
  rewrite shr_exact by lia.
  assert (R1 : round_nearest_even (shr_m (rec0 M)) (loc_of_shr_record (rec0 M)) = M) by reflexivity.
  rewrite R1. rewrite Zdigits2_log2, LM by exact HM.
  assert (F2 : fexp 53 1024 (52 + 1 + (ex + n)) - (ex + n) = 0).
  { unfold fexp, emin, n. rewrite Z.max_l by lia. lia. }
  rewrite F2. cbn [shr shr_record_of_loc].
  unfold cans. fold M. destruct M as [| p | p]; try lia. cbn [shr_m].
  replace (ex + n) with (Z.log2 v - 52) by lia.
  replace (Z.log2 v - 52 <=? 1024 - 53) with true; [reflexivity |].
  symmetry. apply Z.leb_le. lia.
Qed.

Lemma of_int_0 : of_int 0 = S754_zero false. Proof. reflexivity. Qed.

Lemma binary_round_pos s p : Z.pos p < 2 ^ 53 -> binary_round 53 1024 s p 0 = cans s (Z.pos p).
Proof.
  intros V0. assert (V : 0 < Z.pos p < 2 ^ 53) by lia. pose proof (log2_53 _ V) as L.
  unfold binary_round, shl_align.
  rewrite digits2_log2.
  assert (F : fexp 53 1024 (Z.log2 (Z.pos p) + 1 + 0) = Z.log2 (Z.pos p) - 52) by (unfold fexp, emin; lia).
  rewrite F. replace (Z.log2 (Z.pos p) - 52 - 0) with (- (52 - Z.log2 (Z.pos p))) by lia.
  destruct (52 - Z.log2 (Z.pos p)) as [| d | d] eqn:D; [| | lia]; cbn [Z.opp].
  - apply round_exact; [exact V | change (2 ^ (- 0)) with 1; lia | lia].
  - apply round_exact; [exact V | | lia].
    assert (SH : forall q, Z.pos (shift_pos q p) = Z.pos p * 2 ^ Z.pos q).
    { intros q. rewrite shift_pos_correct, Z.pow_pos_fold. apply Z.mul_comm. }
    rewrite SH. f_equal. f_equal. lia.
Qed.

Lemma of_int_pos v : 0 < v < 2 ^ 53 -> of_int v = can v.
Proof.
  intros V. unfold of_int, binary_normalize. destruct v as [| p | p]; try lia. apply binary_round_pos. lia.
Qed.

Lemma of_int_neg v : 0 < v < 2 ^ 53 -> of_int (- v) = cans true v.
Proof.
  intros V. unfold of_int, binary_normalize. destruct v as [| p | p]; try lia. apply binary_round_pos. lia.
Qed.

Lemma pos_mul a b : 0 < a -> 0 < b -> Z.pos (Z.to_pos a * Z.to_pos b) = a * b.
Proof. intros A B. rewrite Pos2Z.inj_mul, !Z2Pos.id by assumption. reflexivity. Qed.

Lemma log2_mul_bounds a b : 0 < a -> 0 < b -> Z.log2 a + Z.log2 b <= Z.log2 (a * b) <= Z.log2 a + Z.log2 b + 1.
Proof. intros A B. split; [apply Z.log2_mul_below | apply Z.log2_mul_above]; lia. Qed.

Lemma mul_exact a b : 0 < a -> 0 < b -> a * b < 2 ^ 53 -> fmul (can a) (can b) = can (a * b).
Proof.
  intros A B AB.
  assert (A' : 0 < a < 2 ^ 53) by nia. assert (B' : 0 < b < 2 ^ 53) by nia.
  pose proof (log2_53 a A') as LA. pose proof (log2_53 b B') as LB.
  pose proof (log2_mul_bounds a b A B) as L.
  unfold fmul, cans at 1 2, SFmul. cbn [xorb].
  assert (0 < a * 2 ^ (52 - Z.log2 a)) by (apply Z.mul_pos_pos; lia).
  assert (0 < b * 2 ^ (52 - Z.log2 b)) by (apply Z.mul_pos_pos; lia).
  rewrite pos_mul by assumption.
  apply round_exact; [nia | | lia].
  replace (- (Z.log2 a - 52 + (Z.log2 b - 52))) with ((52 - Z.log2 a) + (52 - Z.log2 b)) by lia.
  rewrite Z.pow_add_r by lia. ring.
Qed.

Lemma div_exact q t : 0 < q -> 0 < t -> q * t < 2 ^ 53 -> fdiv (can (q * t)) (can t) = can q.
Proof.
  intros Q T QT.
  assert (M' : 0 < q * t < 2 ^ 53) by nia. assert (T' : 0 < t < 2 ^ 53) by nia. assert (Q' : 0 < q < 2 ^ 53) by nia.
  set (m := q * t) in *.
  pose proof (log2_53 m M') as LM. pose proof (log2_53 t T') as LT. pose proof (log2_53 q Q') as LQ.
  pose proof (log2_mul_bounds q t Q T) as L. fold m in L.
  unfold fdiv, cans at 1 2, SFdiv. cbn [xorb]. unfold SFdiv_core_binary.
  assert (MP : 0 < m * 2 ^ (52 - Z.log2 m)) by (apply Z.mul_pos_pos; lia).
  assert (TP : 0 < t * 2 ^ (52 - Z.log2 t)) by (apply Z.mul_pos_pos; lia).
  rewrite !Z2Pos.id by assumption. rewrite !Zdigits2_log2 by assumption.
  rewrite !Z.log2_mul_pow2 by lia.
  set (e' := Z.min _ _).
  assert (E : e' = Z.log2 m - Z.log2 t - 53).
  { unfold e', fexp, emin. rewrite Z.max_l by lia. lia. }
  rewrite E.
  replace (Z.log2 m - 52 - (Z.log2 t - 52) - (Z.log2 m - Z.log2 t - 53)) with 53 by lia.
  cbv beta iota.
  set (d := 53 - Z.log2 m + Z.log2 t).
  assert (D : Z.shiftl (m * 2 ^ (52 - Z.log2 m)) 53 = (q * 2 ^ d) * (t * 2 ^ (52 - Z.log2 t)) + 0).
  { rewrite Z.shiftl_mul_pow2 by lia. unfold m at 1. rewrite Z.add_0_r.
    transitivity (q * t * (2 ^ (52 - Z.log2 m) * 2 ^ 53)); [ring |].
    transitivity (q * t * (2 ^ d * 2 ^ (52 - Z.log2 t))); [| ring].
    rewrite <- !Z.pow_add_r by lia. f_equal. f_equal. lia. }
  rewrite D.
  assert (DE : Z.div_eucl ((q * 2 ^ d) * (t * 2 ^ (52 - Z.log2 t)) + 0) (t * 2 ^ (52 - Z.log2 t)) = (q * 2 ^ d, 0)).
  { rewrite (surjective_pairing (Z.div_eucl _ _)).
    change (fst (Z.div_eucl ?a ?b)) with (a / b). change (snd (Z.div_eucl ?a ?b)) with (a mod b).
    rewrite Z.add_0_r, Z.div_mul, Z.mod_mul by lia. reflexivity. }
  rewrite DE.
  assert (NL : new_location (t * 2 ^ (52 - Z.log2 t)) 0 = loc_Exact).
  { unfold new_location, new_location_even, new_location_odd. destruct (Z.even _); reflexivity. }
  rewrite NL. apply round_exact; [exact Q' | | lia].
  f_equal. f_equal. lia.
Qed.

Lemma to_int_cans s v : 0 < v < 2 ^ 53 -> to_int (cans s v) = if s then - v else v.
Proof.
  intros V. pose proof (log2_53 v V) as L. unfold cans, to_int.
  assert (0 < v * 2 ^ (52 - Z.log2 v)) by (apply Z.mul_pos_pos; lia). rewrite Z2Pos.id by assumption.
  assert (E : (if 0 <=? Z.log2 v - 52 then v * 2 ^ (52 - Z.log2 v) * 2 ^ (Z.log2 v - 52) else v * 2 ^ (52 - Z.log2 v) / 2 ^ (- (Z.log2 v - 52))) = v).
  { destruct (0 <=? Z.log2 v - 52) eqn:E.
    - apply Z.leb_le in E. replace (Z.log2 v) with 52 by lia. cbn. lia.
    - replace (- (Z.log2 v - 52)) with (52 - Z.log2 v) by lia. apply Z.div_mul. lia. }
  rewrite E. reflexivity.
Qed.
Lemma to_int_can v : 0 < v < 2 ^ 53 -> to_int (can v) = v.
Proof. apply (to_int_cans false). Qed.

Lemma scale_exact k : 10 ^ Z.of_nat k < 2 ^ 53 -> scale k = can (10 ^ Z.of_nat k).
Proof.
  induction k as [| k IH]; intros H; cbn [scale].
  - apply of_int_pos. cbn. lia.
  - rewrite Nat2Z.inj_succ, Z.pow_succ_r in * by lia.
    assert (0 < 10 ^ Z.of_nat k) by (apply Z.pow_pos_nonneg; lia).
    rewrite IH by nia. rewrite of_int_pos by lia.
    rewrite mul_exact by nia. f_equal. lia.
Qed.

Theorem go_frac_exact f k q :
  0 <= f -> 0 < q -> 10 ^ Z.of_nat k * q < 2 ^ 53 -> f * q < 2 ^ 53 ->
  go_frac f k (10 ^ Z.of_nat k * q) = f * q.
Proof.
  intros F Q M B. unfold go_frac.
  assert (T : 0 < 10 ^ Z.of_nat k) by (apply Z.pow_pos_nonneg; lia).
  rewrite scale_exact by nia. rewrite (of_int_pos (10 ^ Z.of_nat k * q)) by nia.
  rewrite (Z.mul_comm (10 ^ Z.of_nat k)). rewrite div_exact by nia.
  destruct (Z.eq_dec f 0) as [-> | N].
  - rewrite of_int_0. reflexivity.
  - rewrite of_int_pos by nia. rewrite mul_exact by nia. apply to_int_can. nia.
Qed.

Lemma to_int_nonneg_sign x : (forall m e, x <> S754_finite true m e) -> 0 <= to_int x.
Proof.
  intros H. destruct x as [s | s | | s m e]; cbn [to_int]; try lia.
  destruct s; [destruct (H m e); reflexivity |].
  destruct (0 <=? e) eqn:E; [apply Z.leb_le in E | apply Z.leb_gt in E].
  - apply Z.mul_nonneg_nonneg; [lia | apply Z.pow_nonneg; lia].
  - apply Z.div_pos; [lia | apply Z.pow_pos_nonneg; lia].
Qed.

(** Signs. *)
Definition nonneg (x : spec_float) : Prop := forall m e, x <> S754_finite true m e.
Definition plain (x : spec_float) : Prop :=
  match x with S754_zero s | S754_infinity s | S754_finite s _ _ => s = false | S754_nan => True end.

Lemma aux_plain m e l : plain (binary_round_aux 53 1024 false m e l).
Proof.
  unfold binary_round_aux. destruct (shr_fexp _ _ _ _ _) as [r e1]. destruct (shr_fexp _ _ _ _ _) as [r2 e2].
  destruct (shr_m r2); cbn; try exact I; try reflexivity. destruct (_ <=? _); reflexivity.
Qed.

Lemma of_int_plain v : 0 <= v -> plain (of_int v).
Proof.
  intros V. unfold of_int, binary_normalize. destruct v as [| p | p]; [reflexivity | | lia].
  unfold binary_round. destruct (shl_align _ _ _). apply aux_plain.
Qed.

Lemma mul_plain x y : plain x -> plain y -> plain (fmul x y).
Proof.
  destruct x as [sx | sx | | sx mx ex], y as [sy | sy | | sy my ey]; cbn [plain]; intros X Y; subst; cbn; try exact I; try reflexivity.
  apply aux_plain.
Qed.

Lemma div_plain x y : plain x -> plain y -> plain (fdiv x y).
Proof.
  destruct x as [sx | sx | | sx mx ex], y as [sy | sy | | sy my ey]; cbn [plain]; intros X Y; subst; cbn [fdiv SFdiv]; try exact I; try reflexivity.
  unfold fdiv, SFdiv. destruct (SFdiv_core_binary _ _ _ _ _ _) as [[mz ez] lz]. apply aux_plain.
Qed.

Lemma scale_plain k : plain (scale k).
Proof. induction k as [| k IH]; cbn [scale]; [apply of_int_plain; lia | apply mul_plain; [exact IH | apply of_int_plain; lia]]. Qed.

Theorem go_frac_nonneg f k m : 0 <= f -> 0 <= m -> 0 <= go_frac f k m.
Proof.
  intros F M. unfold go_frac. apply to_int_nonneg_sign. intros p e E.
  assert (P : plain (fmul (of_int f) (fdiv (of_int m) (scale k)))).
  { apply mul_plain; [apply of_int_plain, F |]. apply div_plain; [apply of_int_plain, M | apply scale_plain]. }
  rewrite E in P. discriminate P.
Qed.

Theorem go_frac_zero k m : go_frac 0 k m = 0.
Proof. unfold go_frac. rewrite of_int_0. destruct (fdiv _ _) as [s | s | | s p e]; reflexivity. Qed.

Theorem go_secs_whole n : - 2 ^ 53 < n < 2 ^ 53 -> go_secs (n * 1000000000) = n.
Proof.
  intros N. unfold go_secs. rewrite Z.quot_mul, Z.rem_mul by lia. rewrite of_int_0.
  rewrite (of_int_pos 1000000000) by lia.
  change (fdiv (S754_zero false) (can 1000000000)) with (S754_zero false).
  destruct (Z.lt_trichotomy n 0) as [L | [-> | G]].
  - replace n with (- (- n)) by lia. rewrite of_int_neg by lia.
    change (fadd (cans true (- n)) (S754_zero false)) with (cans true (- n)). apply (to_int_cans true). lia.
  - reflexivity.
  - rewrite of_int_pos by lia. change (fadd (can n) (S754_zero false)) with (can n). apply to_int_can. lia.
Qed.

Theorem go_wait_exact b q n : 0 < b -> b * b * q = 1000000000 -> 0 <= n -> (2 * n + 1) * q < 2 ^ 53 ->
  go_wait (of_int b) n = (2 * n + 1) * q.
Proof.
  intros B Q N L. unfold go_wait. assert (0 < q) by nia. assert (b * b < 2 ^ 53) by nia.
  rewrite (of_int_pos b), (of_int_pos 1000000000), (of_int_pos (2 * n + 1)) by nia.
  rewrite mul_exact by nia. rewrite <- Q, (Z.mul_comm (b * b)). rewrite div_exact by nia.
  rewrite mul_exact by nia. apply to_int_can. nia.
Qed.
