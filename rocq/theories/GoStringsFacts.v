(** Lemmas about [GoStrings]. *)
From Verif Require Export GoStrings.

Lemma str_eqb_true a b : str_eqb a b = true <-> a = b.
Proof. unfold str_eqb. by rewrite bool_decide_eq_true. Qed.
Lemma str_eqb_false a b : str_eqb a b = false <-> a <> b.
Proof. unfold str_eqb. by rewrite bool_decide_eq_false. Qed.
Lemma str_eqb_refl a : str_eqb a a = true.
Proof. by apply str_eqb_true. Qed.

Lemma has_prefix_app p s : has_prefix p (p ++ s) = true.
Proof. induction p as [|a p IH]; simpl; [done|]. rewrite bool_decide_eq_true_2 by done. done. Qed.

Lemma has_prefix_spec p s : has_prefix p s = true <-> exists t, s = p ++ t.
Proof.
  revert s; induction p as [|a p IH]; intros s; simpl.
  - split; [intros _; by exists s|done].
  - destruct s as [|b s]; [split; [done|intros [t Ht]; done]|].
    rewrite andb_true_iff, IH, bool_decide_eq_true. split.
    + intros [-> [t ->]]. by exists t.
    + intros [t Ht]. simplify_eq. split; [done|by exists t].
Qed.

Lemma has_prefix_false p s : has_prefix p s = false <-> forall t, s <> p ++ t.
Proof.
  rewrite <- not_true_iff_false, has_prefix_spec. split.
  - intros H t ->. apply H. by exists t.
  - intros H [t ->]. by eapply H.
Qed.

Lemma has_suffix_spec p s : has_suffix p s = true <-> exists t, s = t ++ p.
Proof.
  unfold has_suffix. rewrite has_prefix_spec. split.
  - intros [t Ht]. exists (rev t). apply (f_equal (@rev _)) in Ht.
    rewrite rev_involutive, rev_app_distr, rev_involutive in Ht. done.
  - intros [t ->]. exists (rev t). by rewrite rev_app_distr.
Qed.

Lemma trim_prefix_app p s : trim_prefix p (p ++ s) = s.
Proof. unfold trim_prefix. rewrite has_prefix_app. by rewrite drop_app. Qed.

(** [cut] finds the first occurrence. *)
Lemma cut_some sep s a b :
  cut sep s = Some (a, b) ->
  s = a ++ sep ++ b /\
  (forall a' b', s = a' ++ sep ++ b' -> (length a <= length a')%nat).
Proof.
  revert a b. induction s as [|c s IH]; intros a b Hc.
  - cbn [cut] in Hc. destruct (has_prefix sep []) eqn:Hp; [|done].
    simplify_eq. apply has_prefix_spec in Hp as [t Ht].
    symmetry in Ht; apply app_eq_nil in Ht as [-> ->]. simpl. split; [done|]. intros; lia.
  - cbn [cut] in Hc. destruct (has_prefix sep (c :: s)) eqn:Hp.
    + simplify_eq. apply has_prefix_spec in Hp as [t Ht]. rewrite Ht.
      rewrite drop_app. split; [done|]. simpl; intros; lia.
    + destruct (cut sep s) as [[a0 b0]|] eqn:Hs; [|done]. simplify_eq.
      destruct (IH a0 b eq_refl) as [He Hf]. split; [by rewrite He at 1|].
      intros a' b' He'. destruct a' as [|x a'].
      * simpl in He'. exfalso. eapply (proj1 (has_prefix_false sep (c :: s))); [done|]. exact He'.
      * simpl in He'. simplify_eq. simpl. apply le_n_S. by eapply Hf.
Qed.

Lemma cut_none sep s : cut sep s = None <-> forall a b, s <> a ++ sep ++ b.
Proof.
  induction s as [|c s IH].
  - cbn [cut]. destruct (has_prefix sep []) eqn:Hp.
    + split; [done|]. intros H. apply has_prefix_spec in Hp as [t Ht].
      exfalso. by eapply (H [] t).
    + split; [|done]. intros _ a b He. symmetry in He.
      apply app_eq_nil in He as [-> He]. apply app_eq_nil in He as [-> ->]. done.
  - cbn [cut]. destruct (has_prefix sep (c :: s)) eqn:Hp.
    + split; [done|]. intros H. apply has_prefix_spec in Hp as [t Ht]. exfalso. by eapply (H [] t).
    + destruct (cut sep s) as [[a0 b0]|] eqn:Hs.
      * split; [done|]. intros H. exfalso. apply cut_some in Hs as [He _].
        apply (H (c :: a0) b0). simpl. by rewrite <- He.
      * split; [|done]. intros _ a b He. destruct a as [|x a].
        -- eapply (proj1 (has_prefix_false sep (c :: s))); [done|]. exact He.
        -- simpl in He. simplify_eq. by eapply (proj1 IH eq_refl).
Qed.

(** One-byte separator. *)
Lemma cut_char_some c s a b : cut [c] s = Some (a, b) <-> s = a ++ c :: b /\ c ∉ a.
Proof.
  revert a b. induction s as [|x s IH]; intros a b.
  - cbn [cut has_prefix]. split; [done|]. intros [He _]. by destruct a.
  - cbn [cut has_prefix]. rewrite andb_true_r. destruct (decide (c = x)) as [->|Hne].
    + rewrite bool_decide_eq_true_2 by done. simpl. split.
      * intros [= <- <-]. split; [done|]. by apply not_elem_of_nil.
      * intros [He Hn]. destruct a as [|y a]; simpl in He; simplify_eq; [by rewrite drop_0|].
        exfalso; apply Hn; by left.
    + rewrite bool_decide_eq_false_2 by done. destruct (cut [c] s) as [[a0 b0]|] eqn:Hs.
      * destruct (proj1 (IH a0 b0) eq_refl) as [He Hn]. split.
        -- intros [= <- <-]. subst s. split; [done|]. by rewrite not_elem_of_cons.
        -- intros [He' Hn']. destruct a as [|y a]; simpl in He'; [simplify_eq|].
           injection He' as -> He2.
           assert (Some (a0, b0) = Some (a, b)) as [= -> ->]; [|done].
           apply IH. split; [done|]. intros Hin. apply Hn'. by right.
      * split; [done|]. intros [He' Hn']. destruct a as [|y a]; simpl in He'; [simplify_eq|].
        injection He' as -> He2. exfalso.
        assert (None = Some (a, b)); [|done].
        apply IH. split; [done|]. intros Hin. apply Hn'. by right.
Qed.

Lemma cut_char_none c s : cut [c] s = None <-> c ∉ s.
Proof.
  rewrite cut_none. split.
  - intros H Hin. apply elem_of_list_split in Hin as (a & b & ->). by apply (H a b).
  - intros H a b ->. apply H. rewrite elem_of_app. right. left.
Qed.

(** Cutting [a ++ sep ++ b] gives [(a, b)] when no earlier occurrence starts inside. *)
Lemma cut_app_first sep a b :
  (forall a1 a2, a = a1 ++ a2 -> a2 <> [] -> has_prefix sep (a2 ++ sep ++ b) = false) ->
  cut sep (a ++ sep ++ b) = Some (a, b).
Proof.
  induction a as [|c a IH]; intros H.
  - rewrite app_nil_l. destruct (sep ++ b) as [|y l] eqn:E.
    + apply app_eq_nil in E as [-> ->]. done.
    + assert (has_prefix sep (y :: l) = true) as Hp by (rewrite <- E; apply has_prefix_app).
      cbn [cut]. rewrite Hp. rewrite <- E, drop_app. done.
  - assert (has_prefix sep ((c :: a) ++ sep ++ b) = false) as Hp by (by apply (H [] (c :: a))).
    cbn [app] in *. cbn [cut]. rewrite Hp. rewrite IH; [done|].
    intros a1 a2 -> Hne. by apply (H (c :: a1) a2).
Qed.

Lemma split_not_nil c s : split c s <> [].
Proof. induction s as [|x s IH]; simpl; [done|]. case_bool_decide; [done|]. by destruct (split c s). Qed.

Lemma join_split c s : join [c] (split c s) = s.
Proof.
  induction s as [|x s IH]; [done|]. cbn [split]. case_bool_decide as Hx.
  - subst x. destruct (split c s) as [|p ps] eqn:E; [by apply split_not_nil in E|].
    cbn [join] in *. by rewrite IH.
  - destruct (split c s) as [|p ps] eqn:E; [by apply split_not_nil in E|].
    destruct ps as [|q qs]; cbn [join] in *; [by rewrite IH|].
    rewrite <- app_comm_cons. by rewrite IH.
Qed.

Lemma split_no_sep c s : Forall (fun p => c ∉ p) (split c s).
Proof.
  induction s as [|x s IH]; cbn [split].
  - constructor; [apply not_elem_of_nil|constructor].
  - case_bool_decide as Hx; [constructor; [apply not_elem_of_nil|done]|].
    destruct (split c s) as [|p ps] eqn:E; [by apply split_not_nil in E|].
    inversion_clear IH. constructor; [|done]. by rewrite not_elem_of_cons.
Qed.

Lemma split_no c s : c ∉ s -> split c s = [s].
Proof.
  induction s as [|x s IH]; intros H; [done|]. cbn [split].
  apply not_elem_of_cons in H as [Hx Hs]. rewrite bool_decide_eq_false_2 by done. by rewrite IH.
Qed.

Lemma split_app c a s : c ∉ a -> split c (a ++ c :: s) = a :: split c s.
Proof.
  induction a as [|x a IH]; intros H; cbn [app split].
  - by rewrite bool_decide_eq_true_2.
  - apply not_elem_of_cons in H as [Hx Hs]. rewrite bool_decide_eq_false_2 by done. by rewrite IH.
Qed.

Lemma split_join c l : l <> [] -> Forall (fun p => c ∉ p) l -> split c (join [c] l) = l.
Proof.
  induction l as [|p l IH]; intros Hne HF; [done|]. inversion_clear HF as [|? ? Hp HF'].
  destruct l as [|q l]; cbn [join].
  - by apply split_no.
  - cbn [app]. rewrite split_app by done. f_equal. by apply IH.
Qed.

Lemma last_index_some c s i :
  last_index c s = Some i -> exists a b, s = a ++ c :: b /\ length a = i /\ c ∉ b.
Proof.
  revert i. induction s as [|x s IH]; intros i H; cbn [last_index] in H; [done|].
  destruct (last_index c s) as [j|] eqn:E.
  - simplify_eq. destruct (IH j eq_refl) as (a & b & -> & <- & Hb). by exists (x :: a), b.
  - case_bool_decide as Hx; simplify_eq. exists [], s. split; [done|split; [done|]].
    clear IH. revert E. induction s as [|y s IH']; intros E; [apply not_elem_of_nil|].
    cbn [last_index] in E. destruct (last_index c s); [done|].
    case_bool_decide; [done|]. rewrite not_elem_of_cons. split; [done|]. by apply IH'.
Qed.

Lemma last_index_none c s : last_index c s = None <-> c ∉ s.
Proof.
  induction s as [|x s IH]; cbn [last_index]; [split; [intros _; apply not_elem_of_nil|done]|].
  rewrite not_elem_of_cons. destruct (last_index c s) as [i|] eqn:E.
  - split; [done|]. intros [_ Hn]. by apply IH in Hn.
  - case_bool_decide as Hx; split; try done.
    + by intros [? _].
    + intros _. split; [done|]. by apply IH.
Qed.

Lemma contains_spec c s : contains c s = true <-> c ∈ s.
Proof.
  unfold contains. rewrite existsb_exists. split.
  - intros (x & Hin & Hx). apply bool_decide_eq_true in Hx as ->. by apply elem_of_list_In.
  - intros Hin. exists c. split; [by apply elem_of_list_In|]. by apply bool_decide_eq_true.
Qed.
Lemma contains_false c s : contains c s = false <-> c ∉ s.
Proof. rewrite <- contains_spec. by destruct (contains c s). Qed.

Lemma cut_length sep s a b : cut sep s = Some (a, b) -> (length a + length sep + length b = length s)%nat.
Proof. intros H. apply cut_some in H as [-> _]. rewrite !app_length. lia. Qed.
