(** * Property C111: an entry is not lost before its time *)
From Verif Require Import GacheRace PolicyCheckFacts.
From Verif Require Prop_PolicyCheck.
From Verif Require Import GoStrings.

Section race.
  Context {V : Type}.
  Implicit Types (s : grst V) (ls : list (grlabel V)).

  Lemma grrun_app l1 l2 s : grrun (l1 ++ l2) s = match grrun l1 s with Some s1 => grrun l2 s1 | None => None end.
  Proof. revert s. induction l1 as [|l l1 IH]; intros s; [done|]. cbn. by destruct (grstep l s). Qed.
  Lemma grrun_snoc ls l s s' : grrun (ls ++ [l]) s = Some s' <-> exists s1, grrun ls s = Some s1 /\ grstep l s1 = Some s'.
  Proof.
    rewrite grrun_app. destruct (grrun ls s) as [s1|]; cbn.
    - split; [intros H; exists s1; split; [done|]; by destruct (grstep l s1)|intros (s2 & [= <-] & ->); done].
    - split; [done|by intros (s2 & ? & _)].
  Qed.
  Lemma grstep_now l s s' : grstep l s = Some s' -> gr_now s <= gr_now s'.
  Proof.
    destruct l as [t|i k|i|k v d]; cbn.
    - destruct (Z.leb_spec (gr_now s) t); [|done]. intros [= <-]. done.
    - destruct (gr_tasks s !! i) as [[| |]|]; try done. intros [= <-]. done.
    - destruct (gr_tasks s !! i) as [[| |]|]; try done. intros [= <-]. done.
    - intros [= <-]. done.
  Qed.

  (** ** What is returned *)
  (** [v] was stored under [k] for [d] when the clock read [t]. *)
  Definition was_set s0 ls k v d t : Prop :=
    exists l1 l2 s1, ls = l1 ++ RSet k v d :: l2 /\ grrun l1 s0 = Some s1 /\ gr_now s1 = t.
  Lemma was_set_mono s0 ls x k v d t : was_set s0 ls k v d t -> was_set s0 (ls ++ x) k v d t.
  Proof. intros (l1 & l2 & s1 & -> & H). exists l1, (l2 ++ x), s1. split; [by rewrite <- app_assoc|done]. Qed.
  Definition in_time (d t now : Z) : Prop := 0 < d -> 0 < t -> t + d <= max_int64 -> t <= now <= t + d.

  (** The race adds no wrong answers: whatever a Get returns was stored under that key, and not longer ago than
      its life time. *)
  Theorem C111_answers n t0 ls s i k v : grrun ls (grinit n t0) = Some s -> gr_tasks s !! i = Some (TDone k (Some v)) ->
    exists l1 l2 s1 d t, ls = l1 ++ RGet i k :: l2 /\ grrun l1 (grinit n t0) = Some s1 /\
      was_set (grinit n t0) l1 k v d t /\ in_time d t (gr_now s1).
  Proof.
    intros Hr. revert i k v.
    assert (t0 <= gr_now s /\ (forall k e, gr_map s !! k = Some e -> exists d t, was_set (grinit n t0) ls k (ge_val e) d t /\
       t <= gr_now s /\ ge_exp e = (if 0 <? d then wrap64 (t + d) else d)) /\
      forall i k v, gr_tasks s !! i = Some (TDone k (Some v)) -> exists l1 l2 s1 d t, ls = l1 ++ RGet i k :: l2 /\
        grrun l1 (grinit n t0) = Some s1 /\ was_set (grinit n t0) l1 k v d t /\ in_time d t (gr_now s1)) as (_ & _ & H); [|exact H].
    revert s Hr. induction ls as [|l ls IH] using rev_ind; intros s Hr.
    - cbn in Hr. injection Hr as <-. cbn. split; [done|]. split; [intros k e H; by rewrite lookup_empty in H|].
      intros i k v H. apply lookup_replicate_1 in H as [H _]. discriminate H.
    - apply grrun_snoc in Hr as (s1 & Hr & Hs). destruct (IH s1 Hr) as (H0 & Hm & Ht). pose proof (grstep_now _ _ _ Hs) as Hn.
      assert (forall i k v, gr_tasks s1 !! i = Some (TDone k (Some v)) -> exists l1 l2 s2 d t, ls ++ [l] = l1 ++ RGet i k :: l2 /\
        grrun l1 (grinit n t0) = Some s2 /\ was_set (grinit n t0) l1 k v d t /\ in_time d t (gr_now s2)) as Ht'.
      { intros i k v H. destruct (Ht _ _ _ H) as (l1 & l2 & s2 & d & t & -> & ?). exists l1, (l2 ++ [l]), s2, d, t. split; [by rewrite <- app_assoc|done]. }
      assert (forall k e, gr_map s1 !! k = Some e -> exists d t, was_set (grinit n t0) (ls ++ [l]) k (ge_val e) d t /\
       t <= gr_now s /\ ge_exp e = (if 0 <? d then wrap64 (t + d) else d)) as Hm'.
      { intros k e H. destruct (Hm _ _ H) as (d & t & Hw & Hle & He). exists d, t. split; [by apply was_set_mono|]. split; [lia|done]. }
      split; [lia|].
      destruct l as [t|i k|i|k v d]; cbn in Hs.
      + destruct (gr_now s1 <=? t); [|done]. injection Hs as <-. cbn in *. by split.
      + destruct (gr_tasks s1 !! i) as [[| |]|] eqn:Ei; try done. injection Hs as <-. cbn in *. split; [exact Hm'|].
        intros i' k' v' H. apply list_lookup_insert_Some in H as [(<- & H & _)|[_ H]]; [|by apply Ht'].
        destruct (gr_map s1 !! k) as [e|] eqn:Ek; [|discriminate H].
        destruct (g_valid (gr_now s1) e) eqn:Ev; [|discriminate H]. injection H as <- <-.
        destruct (Hm _ _ Ek) as (d & t & Hw & Hle & He). exists ls, [], s1, d, t. split_and!; [done|done|done|].
        intros Hd Hp Hmax. split; [done|]. unfold g_valid in Ev. rewrite He in Ev. destruct (Z.ltb_spec 0 d); [|lia].
        rewrite wrap64_id in Ev by (unfold i64, min_int64, max_int64, two63 in *; lia).
        destruct (Z.leb_spec (t + d) 0); [lia|]. cbn in Ev. by apply Z.leb_le in Ev.
      + destruct (gr_tasks s1 !! i) as [[| |]|] eqn:Ei; try done. injection Hs as <-. cbn in *. split.
        * intros k' e H. apply lookup_delete_Some in H as [_ H]. by apply Hm'.
        * intros i' k' v' H. apply list_lookup_insert_Some in H as [(_ & H & _)|[_ H]]; [discriminate H|by apply Ht'].
      + injection Hs as <-. cbn in *. split; [|exact Ht'].
        intros k' e H. unfold g_set in H. apply lookup_insert_Some in H as [[<- <-]|[_ H]]; [|by apply Hm'].
        exists d, (gr_now s1). split_and!; [|done|done]. by exists ls, [], s1.
  Qed.

  (** ** What is lost *)
  (** Somebody has found [k] expired and not yet deleted it. *)
  Definition about_to_delete s k : Prop := exists i, gr_tasks s !! i = Some (TSaw k).
  Definition sets (k : str) (l : grlabel V) : bool := match l with RSet k' _ _ => bool_decide (k' = k) | _ => false end.
  (** What [RSet] leaves is found by every Get until its time has come (or it is replaced), provided nobody was about
      to delete the key when it was stored.  Missing: the case that somebody was (below). *)
  Theorem C111_entry_stays_partial s k v d s1 ls s2 : grstep (RSet k v d) s = Some s1 -> ~ about_to_delete s k ->
    0 < d -> 0 < gr_now s -> gr_now s + d <= max_int64 ->
    grrun ls s1 = Some s2 -> existsb (sets k) ls = false -> gr_now s2 <= gr_now s + d ->
    g_get (gr_now s2) k (gr_map s2) = Some v.
  Proof.
    intros Hs Hno Hd Hp Hmax Hr. cbn in Hs. injection Hs as <-.
    assert (forall ls s2, grrun ls (GRSt (g_set (gr_now s) k v d (gr_map s)) (gr_now s) (gr_tasks s)) = Some s2 -> existsb (sets k) ls = false -> gr_now s2 <= gr_now s + d ->
      gr_map s2 !! k = Some (GEntry v (gr_now s + d)) /\ ~ about_to_delete s2 k) as Hinv.
    { clear ls s2 Hr. intros ls. induction ls as [|l ls IH] using rev_ind; intros s2 Hr Hne Hle.
      - cbn in Hr. injection Hr as <-. cbn. split; [|exact Hno]. unfold g_set. rewrite lookup_insert.
        destruct (Z.ltb_spec 0 d); [|lia]. by rewrite wrap64_id by (unfold i64, min_int64, max_int64, two63 in *; lia).
      - apply grrun_snoc in Hr as (s3 & Hr & Hs). rewrite existsb_app in Hne. apply orb_false_iff in Hne as [Hne Hl].
        pose proof (grstep_now _ _ _ Hs) as Hn. destruct (IH s3 Hr Hne ltac:(lia)) as [Hm Ha].
        destruct l as [t|i k'|i|k' v' d']; cbn in Hs.
        + destruct (gr_now s3 <=? t); [|done]. injection Hs as <-. by split.
        + destruct (gr_tasks s3 !! i) as [[| |]|] eqn:Ei; try done. injection Hs as <-. cbn in *. split; [done|].
          intros (j & Hj). cbn in Hj. apply list_lookup_insert_Some in Hj as [(_ & Hj & _)|[_ Hj]]; [|apply Ha; by exists j].
          destruct (gr_map s3 !! k') as [e|] eqn:Ek; [|discriminate Hj]. destruct (g_valid (gr_now s3) e) eqn:Ev; [discriminate Hj|].
          injection Hj as ->. rewrite Hm in Ek. injection Ek as <-. unfold g_valid in Ev. cbn in Ev.
          apply orb_false_iff in Ev as [_ Ev]. apply Z.leb_gt in Ev. lia.
        + destruct (gr_tasks s3 !! i) as [[|k'|]|] eqn:Ei; try done. injection Hs as <-. cbn in *. split.
          * rewrite lookup_delete_ne; [done|]. intros ->. apply Ha. by exists i.
          * intros (j & Hj). cbn in Hj. apply list_lookup_insert_Some in Hj as [(_ & Hj & _)|[_ Hj]]; [discriminate Hj|apply Ha; by exists j].
        + injection Hs as <-. cbn in *. rewrite orb_false_r in Hl. apply bool_decide_eq_false in Hl. split; [|exact Ha].
          unfold g_set. by rewrite lookup_insert_ne. }
    intros Hne Hle. destruct (Hinv ls s2 Hr Hne Hle) as [Hm _]. unfold g_get. rewrite Hm. unfold g_valid. cbn.
    destruct (Z.leb_spec (gr_now s2) (gr_now s + d)); [|lia]. by rewrite orb_true_r.
  Qed.
  (** The condition is exact: if somebody was, the entry can be lost at once. *)
  Theorem C111_entry_lost s k v d s1 : grstep (RSet k v d) s = Some s1 -> about_to_delete s k ->
    exists i s2, grstep (RDelete i) s1 = Some s2 /\ gr_now s2 = gr_now s /\ forall t, g_get t k (gr_map s2) = None.
  Proof.
    intros Hs (i & Hi). cbn in Hs. injection Hs as <-. exists i. cbn. rewrite Hi. eexists. split; [done|]. split; [done|].
    intros t. cbn. unfold g_get. by rewrite lookup_delete.
  Qed.
  (** A cache in which nothing has expired yet loses nothing; so in the cache an Update builds, which is published
      only when complete, nothing is lost before the first expiry. *)
  Theorem C111_nothing_expired n t0 ls s k : grrun ls (grinit n t0) = Some s ->
    (forall k v d t, was_set (grinit n t0) ls k v d t -> 0 < d /\ 0 < t /\ t + d <= max_int64 /\ gr_now s <= t + d) ->
    ~ about_to_delete s k.
  Proof.
    intros Hr Hall (i & Hi). revert s Hr Hall Hi. induction ls as [|l ls IH] using rev_ind; intros s Hr Hall Hi.
    - cbn in Hr. injection Hr as <-. cbn in Hi. apply lookup_replicate_1 in Hi as [Hi _]. discriminate Hi.
    - pose proof Hr as Hr0. apply grrun_snoc in Hr as (s1 & Hr & Hs). pose proof (grstep_now _ _ _ Hs) as Hn.
      assert (forall k v d t, was_set (grinit n t0) ls k v d t -> 0 < d /\ 0 < t /\ t + d <= max_int64 /\ gr_now s1 <= t + d) as Hall1.
      { intros k' v d t Hw. destruct (Hall k' v d t (was_set_mono _ _ _ _ _ _ _ Hw)) as (? & ? & ? & ?). split_and!; try done. lia. }
      destruct l as [t|j k'|j|k' v d]; cbn in Hs.
      + destruct (gr_now s1 <=? t); [|done]. injection Hs as <-. by apply (IH s1).
      + destruct (gr_tasks s1 !! j) as [[| |]|] eqn:Ej; try done. injection Hs as <-. cbn in Hi.
        apply list_lookup_insert_Some in Hi as [(_ & Hi & _)|[_ Hi]]; [|by apply (IH s1)].
        destruct (gr_map s1 !! k') as [e|] eqn:Ek; [|discriminate Hi]. destruct (g_valid (gr_now s1) e) eqn:Ev; [discriminate Hi|].
        assert (forall ls s, grrun ls (grinit n t0) = Some s -> forall k e, gr_map s !! k = Some e ->
          exists d t, was_set (grinit n t0) ls k (ge_val e) d t /\ ge_exp e = (if 0 <? d then wrap64 (t + d) else d)) as Hmap.
        { clear. intros ls. induction ls as [|l ls IH] using rev_ind; intros s Hr k e H.
          - cbn in Hr. injection Hr as <-. cbn in H. by rewrite lookup_empty in H.
          - apply grrun_snoc in Hr as (s1 & Hr & Hs).
            assert (gr_map s1 !! k = Some e -> exists d t, was_set (grinit n t0) (ls ++ [l]) k (ge_val e) d t /\ ge_exp e = (if 0 <? d then wrap64 (t + d) else d)) as Hold.
            { intros H1. destruct (IH _ Hr _ _ H1) as (d & t & Hw & He). exists d, t. split; [by apply was_set_mono|done]. }
            destruct l as [t|j k'|j|k' v d]; cbn in Hs.
            + destruct (gr_now s1 <=? t); [|done]. injection Hs as <-. by apply Hold.
            + destruct (gr_tasks s1 !! j) as [[| |]|]; try done. injection Hs as <-. by apply Hold.
            + destruct (gr_tasks s1 !! j) as [[| |]|]; try done. injection Hs as <-. cbn in H. apply lookup_delete_Some in H as [_ H]. by apply Hold.
            + injection Hs as <-. cbn in H. unfold g_set in H. apply lookup_insert_Some in H as [[<- <-]|[_ H]]; [|by apply Hold].
              exists d, (gr_now s1). split; [|done]. by exists ls, [], s1. }
        destruct (Hmap _ _ Hr _ _ Ek) as (d & t & Hw & He). destruct (Hall1 _ _ _ _ Hw) as (Hd & Ht & Hmax & Hle).
        unfold g_valid in Ev. rewrite He in Ev. destruct (Z.ltb_spec 0 d); [|lia].
        rewrite wrap64_id in Ev by (unfold i64, min_int64, max_int64, two63 in *; lia).
        apply orb_false_iff in Ev as [_ Ev]. apply Z.leb_gt in Ev. lia.
      + destruct (gr_tasks s1 !! j) as [[| |]|] eqn:Ej; try done. injection Hs as <-. cbn in Hi.
        apply list_lookup_insert_Some in Hi as [(_ & Hi & _)|[_ Hi]]; [discriminate Hi|by apply (IH s1)].
      + injection Hs as <-. by apply (IH s1).
  Qed.
End race.

(** ** A denial is lost *)
(** The policies of C01's example: admin is denied the secrets, user is allowed everything.  The entry of admin has
    expired; goroutine 0 comes upon it; the expired hook stores the fresh entry (it denies); goroutine 0 deletes it. *)
Notation ka := (B "d:role.admin").
Notation ku := (B "d:role.user").
Definition la : list assertion := [Prop_PolicyCheck.mk "read" "d:secret*" "deny"; Prop_PolicyCheck.mk "*" "d:*" "allow"].
Definition lu : list assertion := [Prop_PolicyCheck.mk "read" "d:*" "allow"].
Definition before : list (grlabel (list assertion)) :=
  [RSet ka la (10 * second); RSet ku lu (100 * second); RTick (20 * second); RGet 0 ka].
Definition fresh : grlabel (list assertion) := RSet ka la (100 * second).
Definition roles2 := [B "user"; B "admin"].
(** The answer to a check that goes by what the cache shows at the end of [ls]. *)
Definition verdict (ls : list (grlabel (list assertion))) : option mst :=
  match grrun ls (grinit 1 second) with
  | Some s =>
      let c := g_view (gr_now s) (gr_map s) in
      option_map s_main (run U0 (B "d") roles2 (B "read") (B "secret/1")
        (Prop_PolicyCheck.drive U0 (B "d") roles2 (B "read") (B "secret/1") 200 Prop_PolicyCheck.order1 (start roles2 c false))
        (start roles2 c false))
  | None => None
  end.
Example C111_denied_while_there : verdict (before ++ [fresh]) = Some (MDone (Err ErrDenyByPolicy)).
Proof. vm_compute. reflexivity. Qed.
Example C111_granted_when_lost : verdict (before ++ [fresh; RDelete 0]) = Some (MDone (Ok [B "user"])).
Proof. vm_compute. reflexivity. Qed.
(** What is stored is found until its time has come or it is replaced: false. *)
Theorem C111_entry_stays_refuted : ~ forall n t0 l1 s k (v : list assertion) d s1 ls s2,
  grrun l1 (grinit n t0) = Some s -> grstep (RSet k v d) s = Some s1 ->
  0 < d -> 0 < gr_now s -> gr_now s + d <= max_int64 ->
  grrun ls s1 = Some s2 -> existsb (sets k) ls = false -> gr_now s2 <= gr_now s + d ->
  g_get (gr_now s2) k (gr_map s2) = Some v.
Proof.
  intros H.
  destruct (grrun before (grinit 1 second)) as [s|] eqn:E; [|vm_compute in E; discriminate E].
  assert (option_map gr_now (grrun before (grinit 1 second)) = Some (20 * second)) as Hn by (vm_compute; reflexivity).
  assert (option_map (fun s => gr_tasks s !! 0%nat) (grrun before (grinit 1 second)) = Some (Some (TSaw ka))) as Ht by (vm_compute; reflexivity).
  rewrite E in Hn, Ht. cbn [option_map] in Hn, Ht. injection Hn as Hn. injection Ht as Ht.
  destruct (grstep fresh s) as [s1|] eqn:E1; [|discriminate E1].
  destruct (C111_entry_lost s ka la (100 * second) s1 E1) as (i & s2 & E2 & Hn2 & Hlost); [by exists 0%nat|].
  assert (g_get (gr_now s2) ka (gr_map s2) = Some la) as Hg.
  { apply (H 1%nat second before s ka la (100 * second) s1 [RDelete i] s2 E E1); rewrite ?Hn2, ?Hn.
    - vm_compute. reflexivity.
    - vm_compute. reflexivity.
    - vm_compute. discriminate.
    - cbn [grrun]. by rewrite E2.
    - reflexivity.
    - vm_compute. discriminate. }
  rewrite Hlost in Hg. discriminate Hg.
Qed.
(** A case of the theorems: stored when nobody is about to delete it, found 100 seconds later and not after. *)
Definition shown (ls : list (grlabel (list assertion))) : option (time * option nat * list (gtask nat)) :=
  option_map (fun s => (gr_now s, length <$> g_get (gr_now s) ka (gr_map s),
    map (fun t => match t with TIdle => TIdle | TSaw k => TSaw k | TDone k r => TDone k (length <$> r) end) (gr_tasks s)))
    (grrun ls (grinit 2 second)).
Example C111_nonvacuous :
  shown (before ++ [RDelete 0; fresh; RTick (120 * second); RGet 1 ka]) =
    Some (120 * second, Some 2%nat, [TDone ka None; TDone ka (Some 2%nat)]) /\
  shown (before ++ [RDelete 0; fresh; RTick (120 * second + 1); RGet 1 ka]) =
    Some (120 * second + 1, None, [TDone ka None; TSaw ka]).
Proof. split; vm_compute; reflexivity. Qed.

Print Assumptions C111_answers.
Print Assumptions C111_entry_stays_partial.
Print Assumptions C111_entry_lost.
Print Assumptions C111_nothing_expired.
Print Assumptions C111_entry_stays_refuted.
