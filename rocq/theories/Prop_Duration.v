(** * Property C82: durations in options mean what they say *)
From Verif Require Import Prop_Config Duration Config GoFloat GoFloatFacts.
From Verif Require Export GoStrings.

(** ** Specification: texts like 1h30m *)
Definition numeral (d : nat) : ascii := ascii_of_nat (48 + d).
Inductive number : str -> Z -> Prop :=
  | number_nil : number [] 0
  | number_snoc ds n d : number ds n -> (d < 10)%nat -> number (ds ++ [numeral d]) (10 * n + Z.of_nat d).
Definition units : list (str * Z) :=
  [(B "ns", 1); (B "us", 1000); ([ascii_of_nat 194; ascii_of_nat 181; "s"%char], 1000); ([ascii_of_nat 206; ascii_of_nat 188; "s"%char], 1000);
   (B "ms", 1000 * 1000); (B "s", 1000 * 1000 * 1000); (B "m", 60 * 1000 * 1000 * 1000); (B "h", 3600 * 1000 * 1000 * 1000)].
(** A sequence of whole numbers, each with its unit, and what it adds up to. *)
Inductive sum : str -> Z -> Prop :=
  | sum_nil : sum [] 0
  | sum_cons ds n u m rest k : ds <> [] -> number ds n -> (u, m) ∈ units -> sum rest k -> sum (ds ++ u ++ rest) (n * m + k).
Definition amount (t : str) (n : Z) : Prop := t = B "0" /\ n = 0 \/ t <> [] /\ sum t n.
(** The text of a duration of [z] nanoseconds. *)
Definition means (t : str) (z : duration) : Prop :=
  - 2 ^ 63 <= z < 2 ^ 63 /\ (amount t z \/ (exists t', t = B "+" ++ t' /\ amount t' z) \/ exists t', t = B "-" ++ t' /\ amount t' (- z)).

(** ** Facts *)
Definition dv (c : ascii) : Z := match digit_val c with Some d => d | None => 0 end.
Fixpoint value (x : Z) (ds : str) : Z := match ds with [] => x | c :: ds => value (x * 10 + dv c) ds end.
Lemma value_app x a b : value x (a ++ b) = value (value x a) b.
Proof. revert x. induction a as [|c a IH]; intros x; cbn [app value]; [done|apply IH]. Qed.
Lemma digit_numeral d : (d < 10)%nat -> digit_val (numeral d) = Some (Z.of_nat d).
Proof. intros H. do 10 (destruct d as [|d]; [reflexivity|]). lia. Qed.
Lemma digit_inv c x : digit_val c = Some x -> 0 <= x <= 9 /\ c = numeral (Z.to_nat x).
Proof.
  unfold digit_val. set (n := N_of_ascii c). intros H. destruct (48 <=? Z.of_N n) eqn:E1; [|done]. destruct (Z.of_N n <=? 57) eqn:E2; [|done]. cbn [andb] in H. injection H as <-.
  split; [lia|]. unfold numeral. rewrite <- (ascii_N_embedding c). fold n. unfold ascii_of_nat. f_equal. lia.
Qed.
Lemma dv_range c : 0 <= dv c <= 9.
Proof. unfold dv. destruct (digit_val c) as [x|] eqn:E; [by apply digit_inv in E as [? _]|lia]. Qed.
Definition all_digits (ds : str) : Prop := Forall (fun c => is_digit c = true) ds.
Lemma number_iff ds n : number ds n <-> all_digits ds /\ n = value 0 ds.
Proof.
  split.
  - induction 1 as [|ds n d H [IH1 ->] Hd]; [by split; [constructor|]|]. split.
    + apply Forall_app. split; [done|]. constructor; [|constructor]. unfold is_digit. by rewrite digit_numeral.
    + rewrite value_app. cbn [value]. unfold dv. rewrite digit_numeral by done. lia.
  - revert n. induction ds as [|c ds IH] using rev_ind; intros n [H ->]; [constructor|]. apply Forall_app in H as [H1 H2]. apply Forall_inv in H2.
    unfold is_digit in H2. destruct (digit_val c) as [x|] eqn:E; [|done]. rewrite value_app. cbn [value]. unfold dv. rewrite E.
    apply digit_inv in E as [Hx ->]. replace (value 0 ds * 10 + x) with (10 * value 0 ds + Z.of_nat (Z.to_nat x)) by lia. constructor; [by apply IH|lia].
Qed.
Lemma value_ge x ds : 0 <= x -> x <= value x ds.
Proof. revert x. induction ds as [|c ds IH]; intros x Hx; cbn [value]; [lia|]. pose proof (dv_range c). specialize (IH (x * 10 + dv c)). lia. Qed.
(** The head of a text is no digit. *)
Definition stops (r : str) : Prop := match r with [] => True | c :: _ => is_digit c = false end.
Lemma leading_int_spec ds r x : all_digits ds -> stops r -> 0 <= x <= lim63 ->
  leading_int x (ds ++ r) = if lim63 <? value x ds then None else Some (value x ds, r).
Proof.
  intros Hd Hr. revert x. induction Hd as [|c ds Hc Hd IH]; intros x Hx; cbn [app value].
  - assert (lim63 <? x = false) as -> by lia. destruct r as [|c r]; [done|]. cbn [leading_int stops] in *. unfold is_digit in Hr. by destruct (digit_val c).
  - cbn [leading_int]. unfold is_digit in Hc. unfold dv at 1 2. destruct (digit_val c) as [d|] eqn:E; [|done]. apply digit_inv in E as [Hd' _].
    pose proof (value_ge (x * 10 + d) ds ltac:(lia)). change (lim63 / 10) with 922337203685477580. destruct (922337203685477580 <? x) eqn:E1.
    + destruct (lim63 <? value (x * 10 + d) ds) eqn:E2; [done|]. unfold lim63 in *. lia.
    + destruct (lim63 <? x * 10 + d) eqn:E3; [|apply IH; lia]. destruct (lim63 <? value (x * 10 + d) ds) eqn:E2; [done|lia].
Qed.
Lemma split_digits s : exists ds r, s = ds ++ r /\ all_digits ds /\ stops r.
Proof.
  induction s as [|c s (ds & r & -> & H1 & H2)]; [by exists [], []; repeat constructor|]. destruct (is_digit c) eqn:E.
  - exists (c :: ds), r. split_and!; [done|by constructor|done].
  - exists [], (c :: ds ++ r). split_and!; [done|constructor|done].
Qed.
Definition unit_char (c : ascii) : Prop := is_dot c = false /\ is_digit c = false.
Definition unit_end (r : str) : Prop := match r with [] => True | c :: _ => is_dot c || is_digit c = true end.
Lemma take_unit_app u r : Forall unit_char u -> unit_end r -> take_unit (u ++ r) = (u, r).
Proof.
  intros H Hr. induction H as [|c u [H1 H2] H IH]; cbn [app take_unit].
  - destruct r as [|c r]; [done|]. cbn [take_unit unit_end] in *. by rewrite Hr.
  - by rewrite H1, H2, IH.
Qed.
Lemma take_unit_inv s u r : take_unit s = (u, r) -> s = u ++ r /\ Forall unit_char u /\ unit_end r.
Proof.
  revert u r. induction s as [|c s IH]; intros u r H; cbn [take_unit] in H; [injection H as <- <-; repeat constructor|].
  destruct (is_dot c || is_digit c) eqn:E; [injection H as <- <-; repeat constructor; exact E|].
  destruct (take_unit s) as [u' r'] eqn:E'. injection H as <- <-. destruct (IH _ _ eq_refl) as (-> & H1 & H2). apply orb_false_iff in E.
  split_and!; [done|by constructor|done].
Qed.
Lemma unit_of_iff u m : unit_of u = Some m <-> (u, m) ∈ units.
Proof.
  unfold unit_of, units. rewrite !elem_of_cons, elem_of_nil. split.
  - intros H. repeat (case_bool_decide; [subst; injection H as <-; unfold micro1, micro2; tauto|]). done.
  - intros H. repeat (destruct H as [[= -> ->]|H]; [vm_compute; reflexivity|]). done.
Qed.
Lemma unit_ok u m : (u, m) ∈ units -> u <> [] /\ Forall unit_char u /\ 0 < m.
Proof.
  intros H. unfold units in H. rewrite !elem_of_cons, elem_of_nil in H.
  repeat (destruct H as [[= -> ->]|H]; [split_and!; [done|repeat constructor; vm_compute; reflexivity|lia]|]). done.
Qed.
Lemma no_dot_cons c s : "."%char ∉ c :: s -> is_dot c = false /\ "."%char ∉ s.
Proof. intros H. apply not_elem_of_cons in H as [H1 H2]. split; [|done]. unfold is_dot. apply bool_decide_eq_false_2. congruence. Qed.
Lemma digit_no_dot c : is_digit c = true -> is_dot c = false.
Proof. intros H. unfold is_dot. apply bool_decide_eq_false_2. intros ->. vm_compute in H. discriminate H. Qed.
(** One turn of the loop on a text without points. *)
Lemma one_term_iff frac s v s3 : "."%char ∉ s ->
  one_term frac s = Some (v, s3) <-> exists ds n u m, s = ds ++ u ++ s3 /\ ds <> [] /\ number ds n /\ (u, m) ∈ units /\ v = n * m /\ v <= lim63 /\ unit_end s3.
Proof.
  intros Hnd. split.
  - intros H. destruct (split_digits s) as (ds & r & -> & Hds & Hr). unfold one_term in H. rewrite (leading_int_spec ds r 0 Hds Hr) in H by (unfold lim63; lia).
    destruct (lim63 <? value 0 ds) eqn:Ev; [by destruct (ds ++ r); [|destruct (negb _)]|].
    destruct (ds ++ r) as [|c0 s0] eqn:Es; [done|]. destruct (negb (is_dot c0 || is_digit c0)); [done|]. rewrite <- Es in *. clear c0 s0 Es.
    assert ("."%char ∉ r) as Hnr by (intros Hin; apply Hnd; apply elem_of_app; by right).
    assert (exists pre, (negb (Nat.eqb (length (ds ++ r)) (length r))) = pre /\ (pre = true -> ds <> [])) as (pre & Ep & Hpre).
    { eexists. split; [reflexivity|]. intros H1 ->. cbn [app] in H1. by rewrite Nat.eqb_refl in H1. }
    rewrite Ep in H.
    destruct r as [|c1 r1]; [by destruct pre|]. apply no_dot_cons in Hnr as [Hc1 Hnr]. rewrite Hc1 in H. remember (c1 :: r1) as r eqn:Er. clear c1 r1 Hc1 Hnr Er.
    destruct pre; [|done]. cbn [negb andb] in H. specialize (Hpre eq_refl). destruct (take_unit r) as [u s4] eqn:Eu. destruct u as [|cu u]; [done|].
    apply take_unit_inv in Eu as (-> & Hu & Hend). destruct (unit_of (cu :: u)) as [m|] eqn:Em; [|done]. apply unit_of_iff in Em. pose proof (unit_ok _ _ Em) as (_ & _ & Hm).
    destruct (lim63 / m <? value 0 ds); [done|]. cbn [Z.ltb Z.compare] in H. destruct (lim63 <? value 0 ds * m) eqn:E2; [done|]. injection H as <- <-.
    exists ds, (value 0 ds), (cu :: u), m. split_and!; try done; [by apply number_iff|lia].
  - intros (ds & n & u & m & -> & Hne & Hn & Hu & -> & Hv & Hend). apply number_iff in Hn as [Hds ->]. pose proof (unit_ok _ _ Hu) as (Hu0 & Huc & Hm).
    assert (stops (u ++ s3)) as Hr by (destruct u as [|c u]; [done|]; apply Forall_inv in Huc; apply Huc).
    assert (is_Some (head (u ++ s3)) /\ forall c, head (u ++ s3) = Some c -> is_dot c = false) as [_ Hdot].
    { destruct u as [|c u]; [done|]. apply Forall_inv in Huc. split; [by eexists|]. intros ? [= <-]. apply Huc. }
    pose proof (value_ge 0 ds ltac:(lia)) as Hge.
    assert (value 0 ds <= lim63 / m) as Hdiv by (apply Z.div_le_lower_bound; lia).
    assert (lim63 / m <= lim63) as Hle by (apply Z.div_le_upper_bound; unfold lim63; nia).
    unfold one_term. rewrite (leading_int_spec ds _ 0 Hds Hr) by (unfold lim63; lia).
    destruct ds as [|c ds]; [done|]. cbn [app]. pose proof (Forall_inv Hds) as Hc. cbn beta in Hc. rewrite Hc, orb_true_r. cbn [negb].
    assert (lim63 <? value 0 (c :: ds) = false) as -> by lia.
    assert (Nat.eqb (length (c :: ds ++ u ++ s3)) (length (u ++ s3)) = false) as -> by (apply Nat.eqb_neq; cbn [length]; rewrite app_length; lia).
    pose proof (take_unit_app u s3 Huc Hend) as Ht. cbn [negb andb]. destruct u as [|cu u]; [done|]. cbn [app] in *. rewrite (Hdot cu eq_refl), Ht.
    rewrite (proj2 (unit_of_iff _ _) Hu). assert (lim63 / m <? value 0 (c :: ds) = false) as -> by lia. cbn [Z.ltb Z.compare]. assert (lim63 <? value 0 (c :: ds) * m = false) as -> by lia. done.
Qed.
Lemma sum_nonneg s k : sum s k -> 0 <= k.
Proof. induction 1 as [|ds n u m rest k _ Hn Hu _ IH]; [lia|]. apply number_iff in Hn as [_ ->]. pose proof (value_ge 0 ds ltac:(lia)). apply unit_ok in Hu as (_ & _ & ?). nia. Qed.
Lemma sum_end s k : sum s k -> unit_end s.
Proof.
  destruct 1 as [|ds n u m rest k Hne Hn _ _]; [done|]. apply number_iff in Hn as [Hd _]. destruct ds as [|c ds]; [done|]. apply Forall_inv in Hd. cbn [app unit_end]. by rewrite Hd, orb_true_r.
Qed.
Lemma terms_iff frac k s d z : (length s <= k)%nat -> "."%char ∉ s -> 0 <= d <= lim63 ->
  terms frac k d s = Some z <-> z <= lim63 /\ exists n, sum s n /\ z = d + n.
Proof.
  revert s d. induction k as [|k IH]; intros s d Hk Hnd Hd.
  - destruct s; [|cbn in Hk; lia]. cbn [terms]. split; [intros [= <-]; split; [lia|]; exists 0; split; [constructor|lia]|]. intros (_ & n & Hs & ->). inversion Hs; subst; [f_equal; lia|].
    destruct ds; [done|discriminate].
  - destruct s as [|c s]; [cbn [terms]; split; [intros [= <-]; split; [lia|]; exists 0; split; [constructor|lia]|]; intros (_ & n & Hs & ->); inversion Hs; subst; [f_equal; lia|]; destruct ds; [done|discriminate]|].
    cbn [terms]. remember (c :: s) as t eqn:Et. assert (t <> []) as Htn by (by subst). clear c s Et. split.
    + destruct (one_term frac t) as [[v s3]|] eqn:E; [|by intros [=]]. apply one_term_iff in E as (ds & n & u & m & -> & Hne & Hn & Hu & -> & Hv & _); [|done].
      destruct (lim63 <? d + n * m) eqn:E2; [by intros [=]|]. pose proof Hn as Hn'. apply number_iff in Hn' as [_ Hn']. pose proof (value_ge 0 ds ltac:(lia)). pose proof (unit_ok _ _ Hu) as (_ & _ & Hm).
      intros H'. apply IH in H' as (Hz & n' & Hs & ->).
      * split; [done|]. exists (n * m + n'). split; [by constructor|lia].
      * rewrite !app_length in Hk. destruct ds; [done|]. cbn in Hk. lia.
      * intros Hin. apply Hnd. rewrite !elem_of_app. auto.
      * nia.
    + intros (Hz & n & Hs & ->). inversion Hs as [|ds n' u m rest k' Hne Hn Hu Hr]; subst; [done|].
      pose proof Hn as Hn'. apply number_iff in Hn' as [_ Hn']. pose proof (value_ge 0 ds ltac:(lia)). pose proof (unit_ok _ _ Hu) as (_ & _ & Hm). pose proof (sum_nonneg _ _ Hr).
      assert (0 <= n' * m) by nia.
      rewrite (proj2 (one_term_iff frac (ds ++ u ++ rest) (n' * m) rest Hnd)).
      2:{ exists ds, n', u, m. split_and!; try done; [lia|by eapply sum_end]. }
      assert (lim63 <? d + n' * m = false) as -> by lia. apply IH; [| |lia|].
      * rewrite !app_length in Hk. destruct ds; [done|]. cbn in Hk. lia.
      * intros Hin. apply Hnd. rewrite !elem_of_app. auto.
      * split; [lia|]. exists k'. split; [done|lia].
Qed.
Definition body (neg : bool) (frac : Z -> nat -> Z -> Z) (s : str) : option Z :=
  if bool_decide (s = B "0") then Some 0 else if bool_decide (s = []) then None
  else match terms frac (length s) 0 s with None => None | Some d => if neg then Some (- d) else if lim63 - 1 <? d then None else Some d end.
Lemma not_sum_zero n : ~ sum (B "0") n.
Proof.
  intros H. inversion H as [|ds n' u m rest k Hne Hn Hu _ E]. destruct ds as [|c [|c2 ds]]; [done| |discriminate]. cbn in E. injection E as -> E. apply app_eq_nil in E as [-> _]. apply unit_ok in Hu as (? & _). done.
Qed.
Lemma body_iff neg frac s z : "."%char ∉ s -> body neg frac s = Some z <-> - 2 ^ 63 <= z < 2 ^ 63 /\ amount s (if neg then - z else z).
Proof.
  intros Hnd. unfold body, amount. case_bool_decide as E1; [|case_bool_decide as E2].
  - split; [intros [= <-]; split; [lia|]; left; split; [done|by destruct neg]|]. intros [_ [[_ H]|[_ H]]]; [f_equal; destruct neg; lia|]. subst s. by apply not_sum_zero in H.
  - split; [by intros [=]|]. intros [_ [[? _]|[? _]]]; done.
  - assert (forall d, terms frac (length s) 0 s = Some d <-> d <= lim63 /\ sum s d) as Ht.
    { intros d. rewrite (terms_iff frac _ s 0 d (Nat.le_refl _) Hnd ltac:(unfold lim63; lia)). split; [intros (? & n & ? & ->); by rewrite Z.add_0_l in *|]. intros [? ?]. split; [done|]. by exists d. }
    change (2 ^ 63) with lim63. destruct (terms frac (length s) 0 s) as [d|] eqn:E.
    + destruct (proj1 (Ht d) eq_refl) as [Hd Hs]. pose proof (sum_nonneg _ _ Hs).
      assert (forall n, n <= lim63 -> sum s n -> n = d) as Huniq by (intros n Hn H'; assert (Some d = Some n) as [= ->]; [by apply Ht|done]).
      destruct neg.
      * split; [intros [= <-]; split; [unfold lim63 in *; lia|]; right; split; [done|by rewrite Z.opp_involutive]|]. intros [Hz [[? _]|[_ H']]]; [done|]. f_equal. specialize (Huniq (- z) ltac:(lia) H'). lia.
      * destruct (lim63 - 1 <? d) eqn:E3; [split; [by intros [=]|]|split; [intros [= <-]; split; [lia|]; by right|]].
        -- intros [Hz [[? _]|[_ H']]]; [done|]. specialize (Huniq z ltac:(lia) H'). lia.
        -- intros [Hz [[? _]|[_ H']]]; [done|]. f_equal. symmetry. apply Huniq; [lia|done].
    + split; [by intros [=]|]. intros [Hz [[? _]|[_ H']]]; [done|]. assert (None = Some (if neg then - z else z)) as [=]. apply Ht. split; [destruct neg; lia|done].
Qed.
Lemma amount_head c s n : amount (c :: s) n -> c <> "-"%char /\ c <> "+"%char.
Proof.
  intros [[[= -> ->] _]|[_ H]]; [done|]. apply sum_end in H as He. inversion H as [|ds n' u m rest k Hne Hn Hu _ E]. apply number_iff in Hn as [Hd _]. destruct ds as [|c' ds]; [done|]. apply Forall_inv in Hd. cbn [app] in E. injection E as -> _.
  split; intros ->; vm_compute in Hd; discriminate Hd.
Qed.
(** A duration text without fractions denotes the sum of its terms, to the nanosecond; any other text
    without fractions, and any sum beyond the 64 bits, is an error. *)
Theorem C82_whole_durations frac t z : "."%char ∉ t -> go_duration frac t = Some z <-> means t z.
Proof.
  intros Hnd. unfold means. destruct t as [|c t].
  - split; [intros H; vm_compute in H; discriminate H|]. intros [_ [[[H _]|[? _]]|[(? & H & _)|(? & H & _)]]]; [discriminate H|done|discriminate H|discriminate H].
  - assert ("."%char ∉ t) as Hnt by (intros Hin; apply Hnd; by right). unfold go_duration. cbv beta iota. case_bool_decide as E1; [|case_bool_decide as E2].
    + subst c. match goal with |- _ <-> ?R => change (body true frac t = Some z <-> R) end. rewrite body_iff by done. split; [intros [? ?]; split; [done|]; right; right; by exists t|].
      intros [Hz [H|[(t' & [=] & _)|(t' & [= ->] & H)]]]; [by apply amount_head in H as [? _]|done].
    + subst c. match goal with |- _ <-> ?R => change (body false frac t = Some z <-> R) end. rewrite body_iff by done. split; [intros [? ?]; split; [done|]; right; left; by exists t|].
      intros [Hz [H|[(t' & [= ->] & H)|(t' & [=] & _)]]]; [by apply amount_head in H as [_ ?]|done].
    + match goal with |- _ <-> ?R => change (body false frac (c :: t) = Some z <-> R) end. rewrite body_iff by done. split; [intros [? ?]; split; [done|]; by left|].
      intros [Hz [H|[(t' & [= -> ->] & H)|(t' & [= -> ->] & H)]]]; done.
Qed.
(** A text means one duration at most. *)
Theorem C82_one_meaning t z1 z2 : "."%char ∉ t -> means t z1 -> means t z2 -> z1 = z2.
Proof. intros Hn H1 H2. apply (C82_whole_durations (fun _ _ _ => 0) _ _ Hn) in H1, H2. congruence. Qed.
(** ** Fractions: texts like 1.5h and .5s *)
(** The digits after a point: those that count (a number of at most 2^63), the rest are skipped. *)
Definition fraction (fs : str) (f : Z) (k : nat) : Prop :=
  exists used rest, fs = used ++ rest /\ number used f /\ length used = k /\ f <= 2 ^ 63 /\ Forall (fun c => exists d, (d < 10)%nat /\ c = numeral d) rest /\
    forall d rest', rest = numeral d :: rest' -> (d < 10)%nat -> 2 ^ 63 < 10 * f + Z.of_nat d.
Section fractions.
  (** [frac f k m]: what f * m / 10^k is taken to be. *)
  Context (frac : Z -> nat -> Z -> Z) (frac_nonneg : forall f k m, 0 <= f -> 0 <= m -> 0 <= frac f k m) (frac_zero : forall k m, frac 0 k m = 0).
  Inductive term : str -> Z -> Prop :=
    | term_whole ds n u m : ds <> [] -> number ds n -> (u, m) ∈ units -> term (ds ++ u) (n * m)
    | term_frac ds n fs f k u m : ds ++ fs <> [] -> number ds n -> fraction fs f k -> (u, m) ∈ units -> term (ds ++ B "." ++ fs ++ u) (n * m + frac f k m).
  Inductive total : str -> Z -> Prop :=
    | total_nil : total [] 0
    | total_cons t n rest k : term t n -> total rest k -> total (t ++ rest) (n + k).
  Definition quantity (t : str) (n : Z) : Prop := t = B "0" /\ n = 0 \/ t <> [] /\ total t n.
  Definition denotes_duration (t : str) (z : duration) : Prop :=
    - 2 ^ 63 <= z < 2 ^ 63 /\ (quantity t z \/ (exists t', t = B "+" ++ t' /\ quantity t' z) \/ exists t', t = B "-" ++ t' /\ quantity t' (- z)).

  Lemma digits_iff ds : Forall (fun c => exists d, (d < 10)%nat /\ c = numeral d) ds <-> all_digits ds.
  Proof.
    unfold all_digits. rewrite !Forall_forall. split; intros H c Hc; specialize (H c Hc).
    - destruct H as (d & Hd & ->). unfold is_digit. by rewrite digit_numeral.
    - unfold is_digit in H. destruct (digit_val c) as [x|] eqn:E; [|done]. apply digit_inv in E as [Hx ->]. exists (Z.to_nat x). split; [lia|done].
  Qed.
  Lemma lf_over fs r x n : all_digits fs -> stops r -> leading_fraction true x n (fs ++ r) = (x, n, r).
  Proof.
    intros Hd Hr. induction Hd as [|c fs Hc Hd IH]; cbn [app].
    - destruct r as [|c r]; [done|]. cbn [leading_fraction stops] in *. unfold is_digit in Hr. by destruct (digit_val c).
    - cbn [leading_fraction]. unfold is_digit in Hc. by destruct (digit_val c).
  Qed.
  Lemma lf_spec used rest r x n : all_digits used -> all_digits rest -> stops r -> 0 <= x -> value x used <= lim63 ->
    (forall c rest', rest = c :: rest' -> lim63 < value x used * 10 + dv c) -> leading_fraction false x n (used ++ rest ++ r) = (value x used, (n + length used)%nat, r).
  Proof.
    intros Hu Hrest Hr. revert x n. induction Hu as [|c used Hc Hu IH]; intros x n Hx Hv Hnext; cbn [app value length].
    - rewrite Nat.add_0_r. destruct Hrest as [|c rest Hc Hrest]; cbn [app].
      + destruct r as [|c r]; [done|]. cbn [leading_fraction stops] in *. unfold is_digit in Hr. by destruct (digit_val c).
      + cbn [leading_fraction]. specialize (Hnext c rest eq_refl). cbn [value] in Hnext. unfold dv in Hnext. unfold is_digit in Hc. destruct (digit_val c) as [d|] eqn:E; [|done].
        destruct (_ <? x); [by apply lf_over|]. assert (lim63 <? x * 10 + d = true) as -> by lia. by apply lf_over.
    - cbn [leading_fraction]. cbn [value] in Hv, Hnext. unfold dv at 1 in Hv. unfold dv at 1. unfold is_digit in Hc. destruct (digit_val c) as [d|] eqn:E; [|done].
      assert (dv c = d) as Hdv by (unfold dv; by rewrite E). rewrite Hdv in Hnext. apply digit_inv in E as [Hd _]. pose proof (value_ge (x * 10 + d) used ltac:(lia)).
      assert ((lim63 - 1) / 10 <? x = false) as ->. { change ((lim63 - 1) / 10) with 922337203685477580. unfold lim63 in *. lia. }
      assert (lim63 <? x * 10 + d = false) as -> by lia. rewrite (IH (x * 10 + d) (S n)) by (done || lia). do 2 f_equal. lia.
  Qed.
  Lemma lf_split fs x : all_digits fs -> 0 <= x <= lim63 ->
    exists used rest, fs = used ++ rest /\ value x used <= lim63 /\ forall c rest', rest = c :: rest' -> lim63 < value x used * 10 + dv c.
  Proof.
    intros Hd. revert x. induction Hd as [|c fs Hc Hd IH]; intros x Hx; [exists [], []; cbn; split; [done|]; split; [lia|done]|].
    destruct (lim63 <? x * 10 + dv c) eqn:E.
    - exists [], (c :: fs). cbn. split; [done|]. split; [lia|]. intros ? ? [= <- <-]. lia.
    - pose proof (dv_range c). destruct (IH (x * 10 + dv c) ltac:(lia)) as (used & rest & -> & H1 & H2). by exists (c :: used), rest.
  Qed.
  Lemma fraction_lf fs f k r : fraction fs f k -> stops r -> leading_fraction false 0 0 (fs ++ r) = (f, k, r) /\ all_digits fs /\ 0 <= f.
  Proof.
    intros (used & rest & -> & Hn & Hk & Hf & Hrest & Hnext) Hr. apply digits_iff in Hrest. apply number_iff in Hn as [Hu ->].
    split; [|split; [by apply Forall_app|by apply value_ge]]. rewrite <- app_assoc, (lf_spec used rest r 0 0); try done; [by rewrite Hk|]. intros c rest' ->. apply Forall_inv in Hrest. unfold is_digit in Hrest. unfold dv.
    destruct (digit_val c) as [x|] eqn:E; [|done]. apply digit_inv in E as [Hx ->]. specialize (Hnext _ _ eq_refl ltac:(lia)). change (2 ^ 63) with lim63 in Hnext. lia.
  Qed.
  Lemma lf_fraction fs r : all_digits fs -> stops r -> exists f k, leading_fraction false 0 0 (fs ++ r) = (f, k, r) /\ fraction fs f k.
  Proof.
    intros Hd Hr. destruct (lf_split fs 0 Hd ltac:(unfold lim63; lia)) as (used & rest & -> & H1 & H2). apply Forall_app in Hd as [Hu Hrest].
    exists (value 0 used), (length used). split; [by rewrite <- app_assoc, (lf_spec used rest r 0 0)|]. exists used, rest. split; [done|]. split; [by apply number_iff|]. split; [done|]. split; [done|].
    split; [by apply digits_iff|]. intros d rest' -> Hd'. specialize (H2 _ _ eq_refl). unfold dv in H2. rewrite digit_numeral in H2 by done. change (2 ^ 63) with lim63. lia.
  Qed.
  Lemma term_bounds t v : term t v -> 0 <= v /\ t <> [] /\ unit_end t.
  Proof.
    assert (forall ds n u m, number ds n -> (u, m) ∈ units -> 0 <= n * m) as Hnm.
    { intros ds n u m Hn Hu. apply number_iff in Hn as [_ ->]. pose proof (value_ge 0 ds ltac:(lia)). apply unit_ok in Hu as (_ & _ & ?). nia. }
    destruct 1 as [ds n u m Hne Hn Hu|ds n fs f k u m Hne Hn Hf Hu]; specialize (Hnm _ _ _ _ Hn Hu).
    - split; [done|]. split; [by destruct ds|]. apply number_iff in Hn as [Hd _]. destruct ds as [|c ds]; [done|]. apply Forall_inv in Hd. cbn [app unit_end]. by rewrite Hd, orb_true_r.
    - apply unit_ok in Hu as Hm. destruct Hm as (_ & _ & Hm). destruct Hf as (used & rest & -> & Hu1 & Hf). apply number_iff in Hu1 as [_ ->]. pose proof (value_ge 0 used ltac:(lia)).
      split; [pose proof (frac_nonneg (value 0 used) k m ltac:(lia) ltac:(lia)); lia|]. split; [by destruct ds|]. apply number_iff in Hn as [Hd _]. destruct ds as [|c ds]; [done|]. apply Forall_inv in Hd. cbn [app unit_end]. by rewrite Hd, orb_true_r.
  Qed.
  Lemma one_term_full s v s3 : one_term frac s = Some (v, s3) <-> exists t, s = t ++ s3 /\ term t v /\ v <= lim63 /\ unit_end s3.
  Proof.
    assert (forall f k m x, 0 <= f -> (if 0 <? f then x + frac f k m else x) = x + frac f k m) as Hfr.
    { intros f k m x Hf. destruct (Z.ltb_spec 0 f); [done|]. assert (f = 0) as -> by lia. rewrite frac_zero. lia. }
    split.
    - intros H. destruct (split_digits s) as (ds & r & -> & Hds & Hr). unfold one_term in H. rewrite (leading_int_spec ds r 0 Hds Hr) in H by (unfold lim63; lia).
      destruct (lim63 <? value 0 ds) eqn:Ev; [by destruct (ds ++ r); [|destruct (negb _)]|].
      destruct (ds ++ r) as [|c0 s0] eqn:Es; [done|]. destruct (negb (is_dot c0 || is_digit c0)); [done|]. rewrite <- Es in *. clear c0 s0 Es.
      assert (exists pre, (negb (Nat.eqb (length (ds ++ r)) (length r))) = pre /\ (pre = true -> ds <> [])) as (pre & Ep & Hpre).
      { eexists. split; [reflexivity|]. intros H1 ->. cbn [app] in H1. by rewrite Nat.eqb_refl in H1. }
      rewrite Ep in H. destruct r as [|c1 r1]; [by destruct pre|]. destruct (is_dot c1) eqn:Ec1.
      + unfold is_dot in Ec1. apply bool_decide_eq_true in Ec1 as ->. destruct (split_digits r1) as (fs & s2 & -> & Hfs & Hs2). destruct (lf_fraction fs s2 Hfs Hs2) as (f & k & Elf & Hf). rewrite Elf in H.
        destruct (negb pre && negb (negb (Nat.eqb (length (fs ++ s2)) (length s2)))) eqn:Epp; [done|].
        assert (ds ++ fs <> []) as Hne.
        { intros [-> ->]%app_eq_nil. cbn [app] in Epp. rewrite Nat.eqb_refl, andb_true_r in Epp. apply negb_false_iff in Epp. by apply Hpre in Epp. }
        destruct (take_unit s2) as [u s4] eqn:Eu. destruct u as [|cu u]; [done|]. apply take_unit_inv in Eu as (-> & Hu & Hend). destruct (unit_of (cu :: u)) as [m|] eqn:Em; [|done]. apply unit_of_iff in Em.
        destruct (lim63 / m <? value 0 ds); [done|]. cbv zeta in H. destruct (fraction_lf _ _ _ ((cu :: u) ++ s4) Hf Hs2) as (_ & _ & Hf0). rewrite Hfr in H by done.
        destruct (lim63 <? value 0 ds * m + frac f k m) eqn:E2; [done|]. injection H as <- <-. exists (ds ++ B "." ++ fs ++ cu :: u). split; [cbn; by rewrite <- app_assoc; cbn; rewrite <- app_assoc|].
        split; [constructor; [done|by apply number_iff|done|done]|]. split; [lia|done].
      + destruct pre; [|done]. cbn [negb andb] in H. specialize (Hpre eq_refl). remember (c1 :: r1) as r eqn:Er. clear c1 r1 Ec1 Er. destruct (take_unit r) as [u s4] eqn:Eu. destruct u as [|cu u]; [done|].
        apply take_unit_inv in Eu as (-> & Hu & Hend). destruct (unit_of (cu :: u)) as [m|] eqn:Em; [|done]. apply unit_of_iff in Em.
        destruct (lim63 / m <? value 0 ds); [done|]. cbn [Z.ltb Z.compare] in H. destruct (lim63 <? value 0 ds * m) eqn:E2; [done|]. injection H as <- <-.
        exists (ds ++ cu :: u). split; [by rewrite <- app_assoc|]. split; [constructor; [done|by apply number_iff|done]|]. split; [lia|done].
    - intros (t & -> & Ht & Hv & Hend). pose proof (term_bounds _ _ Ht) as (Hv0 & Htn & Hte).
      assert (forall n m, 0 < m -> 0 <= n -> n * m <= lim63 -> n <= lim63 /\ n <= lim63 / m) as Hnm.
      { intros n m Hm Hn Hle. split; [nia|]. apply Z.div_le_lower_bound; lia. }
      destruct Ht as [ds n u m Hne Hn Hu|ds n fs f k u m Hne Hn Hf Hu]; apply number_iff in Hn as [Hds ->]; pose proof (unit_ok _ _ Hu) as (Hu0 & Huc & Hm); pose proof (value_ge 0 ds ltac:(lia)) as Hge;
        (assert (stops (u ++ s3)) as Hr by (destruct u as [|c u]; [done|]; apply Forall_inv in Huc; apply Huc)); pose proof (take_unit_app u s3 Huc Hend) as Htu.
      + destruct (Hnm _ _ Hm Hge Hv) as [Hl Hdiv]. rewrite <- app_assoc. unfold one_term. rewrite (leading_int_spec ds _ 0 Hds Hr) by (unfold lim63; lia).
        destruct ds as [|c ds]; [done|]. cbn [app]. pose proof (Forall_inv Hds) as Hc. cbn beta in Hc. rewrite Hc, orb_true_r. cbn [negb].
        assert (lim63 <? value 0 (c :: ds) = false) as -> by lia.
        assert (Nat.eqb (length (c :: ds ++ u ++ s3)) (length (u ++ s3)) = false) as -> by (apply Nat.eqb_neq; cbn [length]; rewrite app_length; lia).
        cbn [negb andb]. destruct u as [|cu u]; [done|]. cbn [app] in *. assert (is_dot cu = false) as -> by (apply Forall_inv in Huc; apply Huc). rewrite Htu.
        rewrite (proj2 (unit_of_iff _ _) Hu). assert (lim63 / m <? value 0 (c :: ds) = false) as -> by lia. cbn [Z.ltb Z.compare]. assert (lim63 <? value 0 (c :: ds) * m = false) as -> by lia. done.
      + assert (0 <= f) as Hf00 by (destruct Hf as (used & rest & _ & Hu1 & _); apply number_iff in Hu1 as [_ ->]; apply value_ge; lia). pose proof (frac_nonneg f k m Hf00 ltac:(lia)) as Hfr0. destruct (Hnm _ _ Hm Hge ltac:(lia)) as [Hl Hdiv]. rewrite <- app_assoc. cbn [B list_ascii_of_string app]. rewrite <- app_assoc.
        assert (stops ("."%char :: fs ++ u ++ s3)) as Hr' by (vm_compute; reflexivity). destruct (fraction_lf _ _ _ (u ++ s3) Hf Hr) as (Elf & Hfs & Hf0).
        unfold one_term. rewrite (leading_int_spec ds _ 0 Hds Hr') by (unfold lim63; lia). assert (lim63 <? value 0 ds = false) as -> by lia. rewrite Elf.
        assert (exists c0 s0, ds ++ "."%char :: fs ++ u ++ s3 = c0 :: s0 /\ is_dot c0 || is_digit c0 = true) as (c0 & s0 & E0 & Hc0).
        { destruct ds as [|c ds]; [by eexists _, _|]. pose proof (Forall_inv Hds) as Hc. cbn beta in Hc. eexists c, _. split; [reflexivity|]. by rewrite Hc, orb_true_r. }
        rewrite E0 at 1. rewrite Hc0. cbn [negb]. change (is_dot ".") with true. cbv iota.
        assert (negb (negb (Nat.eqb (length (ds ++ "."%char :: fs ++ u ++ s3)) (length ("."%char :: fs ++ u ++ s3)))) && negb (negb (Nat.eqb (length (fs ++ u ++ s3)) (length (u ++ s3)))) = false) as ->.
        { rewrite !negb_involutive. apply andb_false_iff. rewrite !Nat.eqb_neq, !(app_length ds), !(app_length fs). destruct ds; [right|left; cbn [length]; lia]. destruct fs; [done|]. cbn [length]. lia. }
        rewrite Htu. destruct u as [|cu u]; [done|]. rewrite (proj2 (unit_of_iff _ _) Hu). assert (lim63 / m <? value 0 ds = false) as -> by lia. cbv zeta. rewrite Hfr by done.
        assert (lim63 <? value 0 ds * m + frac f k m = false) as -> by lia. done.
  Qed.
  Lemma total_bounds s k : total s k -> 0 <= k /\ unit_end s.
  Proof. induction 1 as [|t n rest k Ht Hr [IH1 IH2]]; [done|]. apply term_bounds in Ht as (H1 & H2 & H3). split; [lia|]. by destruct t. Qed.
  Lemma terms_full k s d z : (length s <= k)%nat -> 0 <= d <= lim63 -> terms frac k d s = Some z <-> z <= lim63 /\ exists n, total s n /\ z = d + n.
  Proof.
    assert (forall n, total [] n -> n = 0) as Hnil.
    { intros n H. inversion H as [|t n' rest k' Ht _ E]; [done|]. apply app_eq_nil in E as [-> _]. apply term_bounds in Ht as (_ & ? & _). done. }
    revert s d. induction k as [|k IH]; intros s d Hk Hd.
    - destruct s; [|cbn in Hk; lia]. cbn [terms]. split; [intros [= <-]; split; [lia|]; exists 0; split; [constructor|lia]|]. intros (_ & n & ->%Hnil & ->). f_equal. lia.
    - destruct s as [|c s]; [cbn [terms]; split; [intros [= <-]; split; [lia|]; exists 0; split; [constructor|lia]|]; intros (_ & n & ->%Hnil & ->); f_equal; lia|].
      cbn [terms]. remember (c :: s) as t eqn:Et. assert (t <> []) as Htn by (by subst). clear c s Et. split.
      + destruct (one_term frac t) as [[v s3]|] eqn:E; [|by intros [=]]. apply one_term_full in E as (t1 & -> & Ht1 & Hv & _). apply term_bounds in Ht1 as Hb. destruct Hb as (Hv0 & Hne & _).
        destruct (lim63 <? d + v) eqn:E2; [by intros [=]|]. intros H'. apply IH in H' as (Hz & n' & Hs & ->).
        * split; [done|]. exists (v + n'). split; [by constructor|lia].
        * rewrite app_length in Hk. destruct t1; [done|]. cbn in Hk. lia.
        * lia.
      + intros (Hz & n & Hs & ->). inversion Hs as [|t1 n1 rest k' Ht1 Hr]; subst; [done|]. apply term_bounds in Ht1 as Hb. destruct Hb as (Hv0 & Hne & _). apply total_bounds in Hr as Hb. destruct Hb as [Hk0 He].
        rewrite (proj2 (one_term_full (t1 ++ rest) n1 rest)) by (exists t1; split_and!; try done; lia).
        assert (lim63 <? d + n1 = false) as -> by lia. apply IH; [|lia|].
        * rewrite app_length in Hk. destruct t1; [done|]. cbn in Hk. lia.
        * split; [lia|]. exists k'. split; [done|lia].
  Qed.
  Lemma term_len t v : term t v -> (2 <= length t)%nat.
  Proof.
    destruct 1 as [ds n u m Hne Hn Hu|ds n fs f k u m Hne Hn Hf Hu]; apply unit_ok in Hu as (Hu & _); rewrite !app_length; destruct u; try done; cbn [length B list_ascii_of_string]; [|lia].
    destruct ds; [done|]. cbn [length]. lia.
  Qed.
  Lemma body_full neg s z : body neg frac s = Some z <-> - 2 ^ 63 <= z < 2 ^ 63 /\ quantity s (if neg then - z else z).
  Proof.
    unfold body, quantity. case_bool_decide as E1; [|case_bool_decide as E2].
    - split; [intros [= <-]; split; [lia|]; left; split; [done|by destruct neg]|]. intros [_ [[_ H]|[_ H]]]; [f_equal; destruct neg; lia|]. subst s. exfalso.
      inversion H as [|t n' rest k' Ht _ E]. apply term_len in Ht. apply (f_equal length) in E. rewrite app_length in E. cbn in E. lia.
    - split; [by intros [=]|]. intros [_ [[? _]|[? _]]]; done.
    - assert (forall d, terms frac (length s) 0 s = Some d <-> d <= lim63 /\ total s d) as Ht.
      { intros d. rewrite (terms_full _ s 0 d (Nat.le_refl _) ltac:(unfold lim63; lia)). split; [intros (? & n & ? & ->); by rewrite Z.add_0_l in *|]. intros [? ?]. split; [done|]. by exists d. }
      change (2 ^ 63) with lim63. destruct (terms frac (length s) 0 s) as [d|] eqn:E.
      + destruct (proj1 (Ht d) eq_refl) as [Hd Hs]. pose proof (total_bounds _ _ Hs) as [? _].
        assert (forall n, n <= lim63 -> total s n -> n = d) as Huniq by (intros n Hn H'; assert (Some d = Some n) as [= ->]; [by apply Ht|done]).
        destruct neg.
        * split; [intros [= <-]; split; [unfold lim63 in *; lia|]; right; split; [done|by rewrite Z.opp_involutive]|]. intros [Hz [[? _]|[_ H']]]; [done|]. f_equal. specialize (Huniq (- z) ltac:(lia) H'). lia.
        * destruct (lim63 - 1 <? d) eqn:E3; [split; [by intros [=]|]|split; [intros [= <-]; split; [lia|]; by right|]].
          -- intros [Hz [[? _]|[_ H']]]; [done|]. specialize (Huniq z ltac:(lia) H'). lia.
          -- intros [Hz [[? _]|[_ H']]]; [done|]. f_equal. symmetry. apply Huniq; [lia|done].
      + split; [by intros [=]|]. intros [Hz [[? _]|[_ H']]]; [done|]. assert (None = Some (if neg then - z else z)) as [=]. apply Ht. split; [destruct neg; lia|done].
  Qed.
  Lemma quantity_head c s n : quantity (c :: s) n -> c <> "-"%char /\ c <> "+"%char.
  Proof.
    intros [[[= -> ->] _]|[_ H]]; [done|]. apply total_bounds in H as [_ He]. cbn [unit_end] in He. split; intros ->; vm_compute in He; discriminate He.
  Qed.
  (** The same for all texts, with or without fractions. *)
  Theorem C82_durations t z : go_duration frac t = Some z <-> denotes_duration t z.
  Proof.
    unfold denotes_duration. destruct t as [|c t].
    - split; [intros H; vm_compute in H; discriminate H|]. intros [_ [[[H _]|[? _]]|[(? & H & _)|(? & H & _)]]]; [discriminate H|done|discriminate H|discriminate H].
    - unfold go_duration. cbv beta iota. case_bool_decide as E1; [|case_bool_decide as E2].
      + subst c. match goal with |- _ <-> ?R => change (body true frac t = Some z <-> R) end. rewrite body_full. split; [intros [? ?]; split; [done|]; right; right; by exists t|].
        intros [Hz [H|[(t' & [=] & _)|(t' & [= ->] & H)]]]; [by apply quantity_head in H as [? _]|done].
      + subst c. match goal with |- _ <-> ?R => change (body false frac t = Some z <-> R) end. rewrite body_full. split; [intros [? ?]; split; [done|]; right; left; by exists t|].
        intros [Hz [H|[(t' & [= ->] & H)|(t' & [=] & _)]]]; [by apply quantity_head in H as [_ ?]|done].
      + match goal with |- _ <-> ?R => change (body false frac (c :: t) = Some z <-> R) end. rewrite body_full. split; [intros [? ?]; split; [done|]; by left|].
        intros [Hz [H|[(t' & [= -> ->] & H)|(t' & [= -> ->] & H)]]]; done.
  Qed.
End fractions.
(** With the arithmetic of the standard library (GoFloat.v) nothing is left to assume. *)
Definition parse_go : str -> option duration := go_duration go_frac.
Theorem C82_all_durations t z : parse_go t = Some z <-> denotes_duration go_frac t z.
Proof. apply C82_durations; [apply go_frac_nonneg|apply go_frac_zero]. Qed.
(** A fraction with no more digits than the unit has decimal places is exact. *)
Inductive decimal_term : str -> Z -> Prop :=
  | decimal_whole ds n u m : ds <> [] -> number ds n -> (u, m) ∈ units -> decimal_term (ds ++ u) (n * m)
  | decimal_frac ds n fs f q u : ds ++ fs <> [] -> number ds n -> number fs f -> (u, 10 ^ Z.of_nat (length fs) * q) ∈ units ->
      decimal_term (ds ++ B "." ++ fs ++ u) (n * (10 ^ Z.of_nat (length fs) * q) + f * q).
Inductive decimal_sum : str -> Z -> Prop :=
  | decimal_nil : decimal_sum [] 0
  | decimal_cons t n rest k : decimal_term t n -> decimal_sum rest k -> decimal_sum (t ++ rest) (n + k).
Lemma number_bound ds n : number ds n -> 0 <= n < 10 ^ Z.of_nat (length ds).
Proof.
  induction 1 as [|ds n d H IH Hd]; [cbn; lia|]. rewrite app_length. cbn [length]. rewrite Nat.add_1_r, Nat2Z.inj_succ, Z.pow_succ_r by lia. lia.
Qed.
Lemma unit_small u m : (u, m) ∈ units -> m <= 3600000000000.
Proof. intros H. unfold units in H. repeat (apply elem_of_cons in H as [[= _ ->]|H]; [lia|]). by apply elem_of_nil in H. Qed.
Lemma decimal_is_term t v : decimal_term t v -> term go_frac t v.
Proof.
  destruct 1 as [ds n u m Hne Hn Hu|ds n fs f q u Hne Hn Hf Hu]; [by constructor|].
  pose proof (number_bound _ _ Hf) as Hb. pose proof (unit_small _ _ Hu) as Hs. destruct (unit_ok _ _ Hu) as (_ & _ & Hm).
  assert (0 < 10 ^ Z.of_nat (length fs)) as Hp by (apply Z.pow_pos_nonneg; lia). assert (0 < q) as Hq by nia.
  rewrite <- (go_frac_exact f (length fs) q); [|lia|done|lia|nia].
  constructor; [done|done| |done]. exists fs, []. rewrite app_nil_r. split; [done|]. split; [done|]. split; [done|]. split; [nia|]. split; [constructor|]. by intros d rest' [=].
Qed.
Lemma decimal_is_total t v : decimal_sum t v -> total go_frac t v.
Proof. induction 1 as [|t n rest k Ht _ IH]; constructor; [by apply decimal_is_term|done]. Qed.
Theorem C82_decimals sign t n : decimal_sum t n -> t <> [] -> - 2 ^ 63 <= (if bool_decide (sign = B "-") then - n else n) < 2 ^ 63 -> sign = [] \/ sign = B "+" \/ sign = B "-" ->
  parse_go (sign ++ t) = Some (if bool_decide (sign = B "-") then - n else n).
Proof.
  intros Hd Ht Hz Hs. apply C82_all_durations. split; [done|]. apply decimal_is_total in Hd.
  destruct Hs as [-> | [-> | ->]]; cbn [app bool_decide] in *.
  - left. by right.
  - right. left. exists t. split; [done|]. by right.
  - right. right. exists t. split; [done|]. right. split; [done|]. rewrite bool_decide_eq_true_2 by done. by rewrite Z.opp_involutive.
Qed.
(** What WithClientCertificateGoBackSeconds and WithClientCertificateOffsetSeconds keep of a duration of whole seconds
    is that number of seconds. *)
Definition go_parsers (uri : str -> option str) : parsers := std_parsers go_frac go_secs uri.
Theorem C82_whole_seconds uri n : - 2 ^ 63 <= n * second < 2 ^ 63 -> whole_seconds (go_parsers uri) (n * second) = n.
Proof. intros H. unfold second in *. apply go_secs_whole. lia. Qed.
(** Whatever is accepted, with or without fractions, is a duration of 64 bits. *)
Lemma leading_int_nonneg x s v r : 0 <= x -> leading_int x s = Some (v, r) -> 0 <= v.
Proof.
  revert x. induction s as [|c s IH]; intros x Hx H; cbn [leading_int] in H; [by injection H as <- <-|]. destruct (digit_val c) as [d|] eqn:E; [|by injection H as <- <-].
  apply digit_inv in E as [Hd _]. destruct (_ <? x); [done|]. destruct (_ <? _); [done|]. eapply IH; [|exact H]. lia.
Qed.
Lemma terms_bounds frac k d s z : (forall f n u, 0 <= f -> 0 <= u -> 0 <= frac f n u) -> 0 <= d <= lim63 -> terms frac k d s = Some z -> 0 <= z <= lim63.
Proof.
  intros Hf. revert d s. induction k as [|k IH]; intros d s Hd H; (destruct s as [|c s]; cbn [terms] in H; [by injection H as <-|]); [done|].
  remember (c :: s) as t. clear Heqt c s. destruct (one_term frac t) as [[v s']|] eqn:E; [|done]. destruct (lim63 <? d + v) eqn:E2; [done|]. eapply IH; [|exact H]. split; [|lia].
  enough (0 <= v) by lia. clear IH H E2. unfold one_term in E. destruct t as [|c t]; [done|]. remember (c :: t) as s eqn:Es. destruct (negb _); [done|]. destruct (leading_int 0 s) as [[v0 s1]|] eqn:El; [|done].
  apply leading_int_nonneg in El; [|lia]. revert E. generalize (negb (Nat.eqb (length s) (length s1))). intros pre.
  destruct (match s1 with [] => _ | _ :: _ => _ end) as [[[f n] s2] post]. destruct (negb pre && negb post); [done|]. destruct (take_unit s2) as [[|cu u] s3]; [done|]. destruct (unit_of (cu :: u)) as [m|] eqn:Em; [|done].
  apply unit_of_iff, unit_ok in Em as (_ & _ & Hm). destruct (_ <? v0); [done|]. intros E. destruct (Z.ltb_spec 0 f) as [Hf0|_]; [pose proof (Hf f n m ltac:(lia) ltac:(lia))|]; (destruct (_ <? _); [done|]); injection E as <- _; nia.
Qed.
Theorem C82_in_range frac t z : (forall f n u, 0 <= f -> 0 <= u -> 0 <= frac f n u) -> go_duration frac t = Some z -> - 2 ^ 63 <= z < 2 ^ 63.
Proof.
  intros Hf H. assert (exists neg s, body neg frac s = Some z) as (neg & s & Hb).
  { unfold go_duration in H. destruct t as [|c t]; [by exists false, []|]. revert H. case_bool_decide; [intros H'; by exists true, t|]. case_bool_decide; intros H'; [by exists false, t|by exists false, (c :: t)]. }
  clear H. unfold body in Hb. revert Hb. case_bool_decide; [intros [= <-]; lia|]. case_bool_decide; [by intros [=]|]. destruct (terms frac (length s) 0 s) as [d|] eqn:E; [|by intros [=]].
  apply terms_bounds in E; [|done|unfold lim63; lia]. change (2 ^ 63) with lim63. destruct neg; [intros [= <-]; unfold lim63 in *; lia|]. destruct (lim63 - 1 <? d) eqn:E3; [by intros [=]|]. intros [= <-]. unfold lim63 in *; lia.
Qed.
(** Nothing is left to assume about the default texts: they are durations, so C69 and C70 hold of
    New with the parser of the standard library. *)
Theorem C82_defaults_parse frac secs uri : sane (std_parsers frac secs uri).
Proof. unfold sane. repeat constructor; vm_compute; by eexists. Qed.
Definition hours (n : Z) : duration := n * 3600 * second.
Definition minutes (n : Z) : duration := n * 60 * second.
(** The periods a New without options runs with. *)
Theorem C82_default_periods frac secs uri a : new (std_parsers frac secs uri) [] = Ok a ->
  (exists pk, au_pub a = Some pk /\ pk_refresh pk = hours 24 /\ pk_retry pk = minutes 1 /\ pk_etag pk = hours 168 /\ pk_purge pk = hours 84) /\
  (exists po, au_pol a = Some po /\ po_margin po = hours 3 /\ po_refresh po = minutes 30 /\ po_purge po = hours 1 /\ po_retry po = minutes 1 /\ po_attempts po = 2) /\
  (exists jk, au_jwk a = Some jk /\ jk_refresh jk = hours 24 /\ jk_retry jk = minutes 1).
Proof.
  intros H. apply C69_new_iff in H as [_ (_ & Hpub & Hpol & Hjw & _)]; [|apply C82_defaults_parse]. rewrite C69_defaults in *. unfold child in *. cbn [a_no_pubkeyd a_no_policyd a_no_jwkd negb] in *.
  destruct Hpub as (pk & Hpk & _ & _ & _ & P1 & P2 & P3 & P4), Hpol as (po & Hpo & _ & _ & _ & Q0 & _ & Q1 & Q2 & Q3 & Q4), Hjw as (jk & Hjk & _ & _ & _ & _ & _ & J1 & J2).
  unfold denotes in *. vm_compute in P1, P2, P3, P4, Q0, Q1, Q2, Q3, Q4, J1, J2.
  split_and!; [exists pk|exists po|exists jk]; (split_and!; [done|..]); vm_compute; congruence.
Qed.
(** Texts meant to be durations, and others: C82_whole_durations is about all of them. *)
Example C82_nonvacuous : let p := go_duration (fun _ _ _ => 0) in
  means (B "1h30m") (minutes 90) /\ p (B "1h30m") = Some (minutes 90) /\ p (B "-1m") = Some (- minutes 1) /\ p (B "+0") = Some 0 /\
  p (B "1m1h1m") = Some (minutes 62) /\ p (B "007s") = Some (7 * second) /\ p (B "10") = None /\ p (B "1d") = None /\ p (B "1 h") = None /\ p (B "h") = None /\ p (B "1H") = None /\ p (B "-") = None /\ p (B "--1s") = None /\
  p (B "9223372036854775807ns") = Some (2 ^ 63 - 1) /\ p (B "9223372036854775808ns") = None /\ p (B "-9223372036854775808ns") = Some (- 2 ^ 63) /\ p (B "2562048h") = None /\
  is_ok (new (std_parsers (fun _ _ _ => 0) (fun d => d / second) (fun _ => None)) []) = true /\
  is_ok (new (std_parsers (fun _ _ _ => 0) (fun d => d / second) (fun _ => None)) [OPoRefresh (B "30")]) = false /\
  is_ok (new (std_parsers (fun _ _ _ => 0) (fun d => d / second) (fun _ => None)) [OPoRefresh (B "-30m")]) = true.
Proof.
  cbv zeta. assert (go_duration (fun _ _ _ => 0) (B "1h30m") = Some (minutes 90)) as H by (vm_compute; reflexivity).
  split; [|split; [exact H|]; split_and!; vm_compute; reflexivity].
  apply (C82_whole_durations (fun _ _ _ => 0)); [|exact H]. refine (bool_decide_unpack _ _). vm_compute. exact I.
Qed.
(** Fractions: exact for 1.5h, .25s, 1.s; a fraction of more digits than the unit resolves may come out a nanosecond short
    (0.0000000000075h is 27 ns, and 0.00000000000750h the same quantity), and a number of seconds beyond the precision of
    float64 may be rounded up. *)
Example C82_fractions_nonvacuous :
  decimal_sum (B "1.5h") (minutes 90) /\ parse_go (B "1.5h") = Some (minutes 90) /\ parse_go (B "-.25s") = Some (- 250000000) /\ parse_go (B "1.s") = Some second /\ parse_go (B ".s") = None /\ parse_go (B "1.5") = None /\
  parse_go (B "1.5h.5m") = Some (minutes 90 + 30 * second) /\ parse_go (B "0.999999999s") = Some 999999999 /\ parse_go (B "0.9999999999s") = Some 999999999 /\
  parse_go (B "0.00000000000750h") = Some 26 /\ parse_go (B "0.3333333333333333333h") = Some (20 * 60 * second) /\ parse_go (B "1.9ns") = Some 1 /\
  whole_seconds (go_parsers (fun _ => None)) (3600 * second) = 3600 /\ whole_seconds (go_parsers (fun _ => None)) (-1500000000) = -1 /\
  whole_seconds (go_parsers (fun _ => None)) (8589934592 * second + 999999999) = 8589934593 /\
  whole_seconds (go_parsers (fun _ => None)) (8589934592 * second + 999999300) = 8589934593 /\ whole_seconds (go_parsers (fun _ => None)) (8589934592 * second + 999999000) = 8589934592.
Proof.
  split; [|split_and!; vm_compute; reflexivity].
  replace (B "1.5h") with (((([] ++ [numeral 1]) ++ B "." ++ ([] ++ [numeral 5]) ++ B "h") ++ [])) by reflexivity.
  replace (minutes 90) with (((10 * 0 + Z.of_nat 1) * (10 ^ Z.of_nat (length ([] ++ [numeral 5])) * 360000000000) + (10 * 0 + Z.of_nat 5) * 360000000000) + 0) by reflexivity.
  constructor; [|constructor]. apply decimal_frac; [done|repeat constructor; lia|repeat constructor; lia|]. refine (bool_decide_unpack _ _). vm_compute. exact I.
Qed.
Print Assumptions C82_durations.
Print Assumptions C82_all_durations.
Print Assumptions C82_decimals.
Print Assumptions C82_whole_seconds.
Print Assumptions C82_whole_durations.
Print Assumptions C82_one_meaning.
Print Assumptions C82_in_range.
Print Assumptions C82_defaults_parse.
Print Assumptions C82_default_periods.
