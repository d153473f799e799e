(** * Property C83: results are isolated from callers *)
From Verif Require Import Results.
From Verif Require Export GoStrings.

(** ** Specification *)
(** The principals accepted so far, in order. *)
Definition accepted (ls : list xlabel) : list principal := omap (fun l => match l with XAccept _ p _ _ => Some p | _ => None end) ls.
(** [p] was stored under [key], which was neither stored to nor removed since. *)
Definition concerns (key : str) (l : xlabel) : Prop := match l with XAccept k _ _ _ | XDrop k => k = key | _ => False end.
Definition stored_under (ls : list xlabel) (key : str) (p : principal) : Prop :=
  exists l1 l2 e1 e2, ls = l1 ++ XAccept key p e1 e2 :: l2 /\ Forall (fun l => ~ concerns key l) l2.
(** The cell of memory a caller's step writes to: an element of a slice, or the one behind its end
    when append finds room. *)
Definition target (s : xst) (l : xlabel) : option (nat * nat) :=
  match l with
  | XWrite n i _ => match x_held s !! n with Some z => Some (s_arr z, s_off z + i)%nat | None => None end
  | XAppend n _ _ =>
      match x_held s !! n with
      | Some z => if (s_len z <? space (x_heap s) z)%nat then Some (s_arr z, s_off z + s_len z)%nat else None
      | None => None
      end
  | _ => None
  end.
Definition value_of (l : xlabel) : str := match l with XWrite _ _ v | XAppend _ v _ => v | _ => [] end.
(** Cell [c] is an element of a list some principal returns. *)
Definition within (c : nat * nat) (z : sl) : Prop := s_arr z = c.1 /\ (s_off z <= c.2 < s_off z + s_len z)%nat.
Definition shown (s : xst) (c : nat * nat) : Prop := exists ob, ob ∈ x_objs s /\ (within c (o_roles ob) \/ within c (o_auth ob)).
Definition careful (ls : list xlabel) : Prop :=
  forall l1 l l2 s c, ls = l1 ++ l :: l2 -> xrun l1 xinit = Some s -> target s l = Some c -> ~ shown s c.

(** ** Facts *)
Lemma xrun_app l1 l2 s : xrun (l1 ++ l2) s = match xrun l1 s with Some s' => xrun l2 s' | None => None end.
Proof. revert s. induction l1 as [|l l1 IH]; intros s; [done|]. cbn [app xrun]. destruct (xstep l s); [apply IH|done]. Qed.
Lemma xrun_snoc ls l s0 s' : xrun (ls ++ [l]) s0 = Some s' <-> exists s, xrun ls s0 = Some s /\ xstep l s = Some s'.
Proof.
  rewrite xrun_app. destruct (xrun ls s0) as [s|]; [|split; [done|by intros (? & ? & _)]]. cbn [xrun]. destruct (xstep l s) as [s2|] eqn:E.
  - split; [intros [= <-]; by exists s|]. intros (? & [= <-] & H). congruence.
  - split; [done|]. intros (? & [= <-] & H). congruence.
Qed.
Lemma arr_new h a id : (id < length h)%nat -> arr_of (h ++ [a]) id = arr_of h id.
Proof. intros H. unfold arr_of. by rewrite lookup_app_l. Qed.
Lemma arr_last h a : arr_of (h ++ [a]) (length h) = a.
Proof. unfold arr_of. by rewrite list_lookup_middle. Qed.
Lemma elems_new h a z : (s_arr z < length h)%nat -> elems (h ++ [a]) z = elems h z.
Proof. intros H. unfold elems. by rewrite arr_new. Qed.
Lemma elems_alloc h l extra : elems (h ++ [l ++ replicate extra []]) (Sl (length h) 0 (length l)) = l.
Proof. unfold elems. cbn [s_arr s_off s_len]. rewrite arr_last, drop_0. by rewrite take_app. Qed.
Lemma poke_length id n v h : length (poke id n v h) = length h.
Proof. unfold poke. apply insert_length. Qed.
Lemma arr_poke id n v h id' : (id' < length h)%nat -> arr_of (poke id n v h) id' = if Nat.eqb id id' then <[n := v]> (arr_of h id') else arr_of h id'.
Proof.
  intros H. unfold poke, arr_of at 1. destruct (Nat.eqb_spec id id') as [-> |Hne]; [by rewrite list_lookup_insert|]. by rewrite list_lookup_insert_ne.
Qed.
Lemma elems_poke id n v h z : (s_arr z < length h)%nat -> ~ within (id, n) z -> elems (poke id n v h) z = elems h z.
Proof.
  intros Hl Hw. unfold elems. rewrite arr_poke by done. destruct (Nat.eqb_spec id (s_arr z)) as [-> |Hne]; [|done].
  apply list_eq. intros i. destruct (decide (i < s_len z)%nat) as [Hi|Hi]; [|by rewrite !lookup_take_ge by lia].
  rewrite !lookup_take, !lookup_drop by done. apply list_lookup_insert_ne. unfold within in Hw. cbn in Hw. intros ->. apply Hw. lia.
Qed.
Lemma elems_poke_in id n v h z : (s_arr z < length h)%nat -> within (id, n) z -> (s_off z + s_len z <= length (arr_of h (s_arr z)))%nat ->
  elems (poke id n v h) z = <[n - s_off z := v]>%nat (elems h z).
Proof.
  intros Hl [Eid Hw] Hc. cbn in Eid, Hw. subst id. unfold elems. rewrite arr_poke by done. rewrite Nat.eqb_refl.
  apply list_eq. intros i. destruct (decide (i < s_len z)%nat) as [Hi|Hi].
  - rewrite lookup_take, lookup_drop by done. destruct (decide (i = n - s_off z)%nat) as [-> |Hne].
    + rewrite list_lookup_insert by (rewrite take_length, drop_length; lia). replace (s_off z + (n - s_off z))%nat with n by lia. rewrite list_lookup_insert by lia. done.
    + rewrite !list_lookup_insert_ne by lia. by rewrite lookup_take, lookup_drop.
  - rewrite lookup_take_ge by lia. rewrite list_lookup_insert_ne by lia. by rewrite lookup_take_ge by lia.
Qed.
Definition in_heap (h : heap) (z : sl) : Prop := (s_arr z < length h)%nat /\ (s_off z + s_len z <= length (arr_of h (s_arr z)))%nat.
Definition sound (s : xst) : Prop :=
  (forall ob, ob ∈ x_objs s -> in_heap (x_heap s) (o_roles ob) /\ in_heap (x_heap s) (o_auth ob)) /\ (forall z, z ∈ x_held s -> in_heap (x_heap s) z).
Lemma in_heap_new h a z : in_heap h z -> in_heap (h ++ [a]) z.
Proof. intros [H1 H2]. split; [rewrite app_length; lia|]. by rewrite arr_new. Qed.
Lemma in_heap_alloc h l extra : in_heap (h ++ [l ++ replicate extra []]) (Sl (length h) 0 (length l)).
Proof. split; cbn [s_arr s_off s_len]; [rewrite app_length; cbn; lia|]. rewrite arr_last, app_length. lia. Qed.
Lemma in_heap_poke id n v h z : in_heap h z -> in_heap (poke id n v h) z.
Proof. intros [H1 H2]. split; [by rewrite poke_length|]. rewrite arr_poke by done. destruct (Nat.eqb _ _); [by rewrite insert_length|done]. Qed.
Lemma sound_step l s s' : sound s -> xstep l s = Some s' -> sound s'.
Proof.
  intros [H1 H2] H. assert (forall n z, x_held s !! n = Some z -> in_heap (x_heap s) z) as H2' by (intros n z Hz; by eapply H2, elem_of_list_lookup_2).
  destruct l as [key p e1 e2|key|o|o|n i v|n v e|n a b|n e]; cbn [xstep] in H.
  - unfold alloc in H. injection H as <-. split; cbn [x_objs x_heap x_held].
    + intros ob [Hin|Hin]%elem_of_app; [destruct (H1 _ Hin); split; by apply in_heap_new, in_heap_new|]. apply elem_of_list_singleton in Hin as ->. cbn [o_roles o_auth].
      split; [apply in_heap_new; apply in_heap_alloc|apply in_heap_alloc].
    + intros z Hz. by apply in_heap_new, in_heap_new, H2.
  - injection H as <-. by split.
  - destruct (x_objs s !! o) as [ob|] eqn:E; [|done]. injection H as <-. split; [done|]. cbn [x_held x_heap]. intros z [Hz|Hz]%elem_of_app; [by apply H2|]. apply elem_of_list_singleton in Hz as ->. by apply H1, elem_of_list_lookup_2 with o.
  - destruct (x_objs s !! o) as [ob|] eqn:E; [|done]. injection H as <-. split; [done|]. cbn [x_held x_heap]. intros z [Hz|Hz]%elem_of_app; [by apply H2|]. apply elem_of_list_singleton in Hz as ->. by apply H1, elem_of_list_lookup_2 with o.
  - destruct (x_held s !! n) as [z|] eqn:E; [|done]. destruct (i <? s_len z)%nat; [|done]. injection H as <-. split; cbn [x_objs x_heap x_held].
    + intros ob Hin. destruct (H1 _ Hin). split; by apply in_heap_poke.
    + intros z' Hz. by apply in_heap_poke, H2.
  - destruct (x_held s !! n) as [z|] eqn:E; [|done]. destruct (s_len z <? space (x_heap s) z)%nat eqn:Es.
    + injection H as <-. split; cbn [x_objs x_heap x_held].
      * intros ob Hin. destruct (H1 _ Hin). split; by apply in_heap_poke.
      * intros z' [Hz|Hz]%elem_of_app; [by apply in_heap_poke, H2|]. apply elem_of_list_singleton in Hz as ->. apply in_heap_poke. destruct (H2' _ _ E) as [Ha Hb]. split; [done|]. cbn [s_arr s_off s_len].
        apply Nat.ltb_lt in Es. unfold space in Es. lia.
    + unfold alloc in H. injection H as <-. split; cbn [x_objs x_heap x_held].
      * intros ob Hin. destruct (H1 _ Hin). split; by apply in_heap_new.
      * intros z' [Hz|Hz]%elem_of_app; [by apply in_heap_new, H2|]. apply elem_of_list_singleton in Hz as ->. apply in_heap_alloc.
  - destruct (x_held s !! n) as [z|] eqn:E; [|done]. destruct ((a <=? b) && (b <=? space (x_heap s) z))%nat eqn:Es; [|done]. injection H as <-. split; [done|]. cbn [x_held x_heap].
    intros z' [Hz|Hz]%elem_of_app; [by apply H2|]. apply elem_of_list_singleton in Hz as ->. destruct (H2' _ _ E) as [Ha Hb]. split; [done|]. cbn [s_arr s_off s_len].
    apply andb_true_iff in Es as [E1 E2]. apply Nat.leb_le in E1, E2. unfold space in E2. lia.
  - destruct (x_held s !! n) as [z|] eqn:E; [|done]. unfold alloc in H. injection H as <-. split; cbn [x_objs x_heap x_held].
    + intros ob Hin. destruct (H1 _ Hin). split; by apply in_heap_new.
    + intros z' [Hz|Hz]%elem_of_app; [by apply in_heap_new, H2|]. apply elem_of_list_singleton in Hz as ->. apply in_heap_alloc.
Qed.
Lemma sound_run ls s : xrun ls xinit = Some s -> sound s.
Proof.
  revert s. induction ls as [|l ls IH] using rev_ind; intros s H.
  - injection H as <-. split; cbn; intros ? Hin; by apply elem_of_nil in Hin.
  - apply xrun_snoc in H as (s1 & H1 & H2). eapply sound_step; [by apply IH|done].
Qed.
(** The lists of an object after a step that writes to none of its cells. *)
Lemma step_elems l s s' z : xstep l s = Some s' -> in_heap (x_heap s) z -> (forall c, target s l = Some c -> ~ within c z) -> elems (x_heap s') z = elems (x_heap s) z.
Proof.
  intros H [Hz _] Ht. destruct l as [key p e1 e2|key|o|o|n i v|n v e|n a b|n e]; cbn [xstep target] in *.
  - unfold alloc in H. injection H as <-. cbn [x_heap]. rewrite elems_new by (rewrite app_length; lia). by rewrite elems_new.
  - by injection H as <-.
  - destruct (x_objs s !! o); [|done]. by injection H as <-.
  - destruct (x_objs s !! o); [|done]. by injection H as <-.
  - destruct (x_held s !! n) as [y|]; [|done]. destruct (i <? s_len y)%nat; [|done]. injection H as <-. cbn [x_heap]. apply elems_poke; [done|]. by apply Ht.
  - destruct (x_held s !! n) as [y|]; [|done]. destruct (s_len y <? space (x_heap s) y)%nat; [injection H as <-; cbn [x_heap]; apply elems_poke; [done|]; by apply Ht|].
    unfold alloc in H. injection H as <-. cbn [x_heap]. by rewrite elems_new.
  - destruct (x_held s !! n) as [y|]; [|done]. destruct (_ && _)%nat; [|done]. by injection H as <-.
  - destruct (x_held s !! n) as [y|]; [|done]. unfold alloc in H. injection H as <-. cbn [x_heap]. by rewrite elems_new.
Qed.
Lemma step_objs l s s' : xstep l s = Some s' -> match l with XAccept key p _ _ => exists ob, x_objs s' = x_objs s ++ [ob] /\ x_cache s' = <[key := length (x_objs s)]> (x_cache s) /\ says_now s' (length (x_objs s)) = Some p
  | XDrop key => x_objs s' = x_objs s /\ x_cache s' = delete key (x_cache s) | _ => x_objs s' = x_objs s /\ x_cache s' = x_cache s end.
Proof.
  intros H. destruct l as [key p e1 e2|key|o|o|n i v|n v e|n a b|n e]; cbn [xstep] in *.
  - unfold alloc in H. injection H as <-. eexists. split; [reflexivity|]. split; [done|]. unfold says_now. cbn [x_objs x_heap]. rewrite list_lookup_middle by done. cbn [o_p o_roles o_auth].
    rewrite elems_alloc. rewrite elems_new by (cbn [s_arr]; rewrite app_length; cbn; lia). rewrite elems_alloc. by destruct p.
  - by injection H as <-.
  - destruct (x_objs s !! o); [|done]. by injection H as <-.
  - destruct (x_objs s !! o); [|done]. by injection H as <-.
  - destruct (x_held s !! n) as [y|]; [|done]. destruct (i <? s_len y)%nat; [|done]. by injection H as <-.
  - destruct (x_held s !! n) as [y|]; [|done]. destruct (s_len y <? space (x_heap s) y)%nat; by injection H as <-.
  - destruct (x_held s !! n) as [y|]; [|done]. destruct (_ && _)%nat; [|done]. by injection H as <-.
  - destruct (x_held s !! n) as [y|]; [|done]. by injection H as <-.
Qed.
Lemma accepted_snoc ls l : accepted (ls ++ [l]) = accepted ls ++ match l with XAccept _ p _ _ => [p] | _ => [] end.
Proof. unfold accepted. rewrite omap_app. by destruct l. Qed.
Lemma says_objs s s' o : x_objs s' !! o = x_objs s !! o -> (forall ob, x_objs s !! o = Some ob -> elems (x_heap s') (o_roles ob) = elems (x_heap s) (o_roles ob) /\ elems (x_heap s') (o_auth ob) = elems (x_heap s) (o_auth ob)) -> says_now s' o = says_now s o.
Proof. intros H1 H2. unfold says_now. rewrite H1. destruct (x_objs s !! o) as [ob|]; [|done]. by destruct (H2 ob eq_refl) as [-> ->]. Qed.
Lemma objs_length ls s : xrun ls xinit = Some s -> length (x_objs s) = length (accepted ls).
Proof.
  revert s. induction ls as [|l ls IH] using rev_ind; intros s H; [by injection H as <-|]. apply xrun_snoc in H as (s1 & H1 & H2). apply step_objs in H2. rewrite accepted_snoc, app_length, <- (IH _ H1).
  destruct l; [destruct H2 as (ob & -> & _); by rewrite app_length|destruct H2 as [-> _]; cbn [length]; lia..].
Qed.
Lemma careful_prefix ls l : careful (ls ++ [l]) -> careful ls.
Proof. intros H l1 x l2 s c E. apply (H l1 x (l2 ++ [l])). rewrite E. by rewrite <- app_assoc. Qed.
Lemma says_accepted ls s o : careful ls -> xrun ls xinit = Some s -> says_now s o = accepted ls !! o.
Proof.
  revert s o. induction ls as [|l ls IH] using rev_ind; intros s o Hc H; [by injection H as <-|]. apply xrun_snoc in H as (s1 & H1 & H2).
  pose proof (sound_run _ _ H1) as [Hs _]. pose proof (objs_length _ _ H1) as Hlen. specialize (IH s1 o (careful_prefix _ _ Hc) H1).
  assert (x_objs s !! o = x_objs s1 !! o -> says_now s o = says_now s1 o) as Hsame.
  { intros He. apply says_objs; [done|]. intros ob Hob. pose proof (elem_of_list_lookup_2 _ _ _ Hob) as Hin. destruct (Hs _ Hin) as [Hr Ha].
    split; (eapply step_elems; [done|done|]); intros c Ht Hw; apply (Hc ls l [] s1 c eq_refl H1 Ht); exists ob; auto. }
  apply step_objs in H2. rewrite accepted_snoc. destruct l as [key p e1 e2|key|o'|o'|n i v|n v e|n a b|n e]; try (destruct H2 as [Ho _]; rewrite app_nil_r, <- IH; apply Hsame; by rewrite Ho).
  destruct H2 as (ob & Ho & _ & Hn). destruct (decide (o < length (x_objs s1))%nat) as [Hlt|Hge].
  - rewrite lookup_app_l by lia. rewrite <- IH. apply Hsame. rewrite Ho. by rewrite lookup_app_l.
  - destruct (decide (o = length (x_objs s1))) as [-> |Hne]; [rewrite Hn, Hlen; by rewrite list_lookup_middle|].
    rewrite (lookup_ge_None_2 (accepted ls ++ [p])) by (rewrite app_length; cbn; lia). unfold says_now. by rewrite Ho, lookup_ge_None_2 by (rewrite app_length; cbn; lia).
Qed.
Lemma stored_snoc ls l key p : stored_under (ls ++ [l]) key p <->
  match l with XAccept k p' _ _ => if decide (k = key) then p' = p else stored_under ls key p | XDrop k => if decide (k = key) then False else stored_under ls key p | _ => stored_under ls key p end.
Proof.
  assert (~ concerns key l -> stored_under (ls ++ [l]) key p <-> stored_under ls key p) as Hno.
  { intros Hl. split.
    - intros (l1 & l2 & e1 & e2 & E & Hf). destruct l2 as [|x l2 _] using rev_ind.
      + apply app_inj_tail in E as [_ ->]. by destruct Hl.
      + rewrite app_comm_cons, app_assoc in E. apply app_inj_tail in E as [-> ->]. exists l1, l2, e1, e2. split; [done|]. by apply Forall_app in Hf as [? _].
    - intros (l1 & l2 & e1 & e2 & -> & Hf). exists l1, (l2 ++ [l]), e1, e2. split; [by rewrite <- app_assoc|]. apply Forall_app. split; [done|]. by constructor. }
  assert (concerns key l -> stored_under (ls ++ [l]) key p -> exists e1 e2, l = XAccept key p e1 e2) as Hyes.
  { intros Hl (l1 & l2 & e1 & e2 & E & Hf). destruct l2 as [|x l2 _] using rev_ind.
    - apply app_inj_tail in E as [_ ->]. by eexists _, _.
    - rewrite app_comm_cons, app_assoc in E. apply app_inj_tail in E as [_ ->]. apply Forall_app in Hf as [_ Hf]. by apply Forall_inv in Hf. }
  destruct l as [k p' e1 e2|k|o|o|n i v|n v e|n a b|n e]; try (apply Hno; cbn; tauto).
  - destruct (decide (k = key)) as [-> |Hne]; [|by apply Hno]. split; [intros H; apply Hyes in H as (? & ? & [= ->]); done|]. intros ->. exists ls, [], e1, e2. split; [done|constructor].
  - destruct (decide (k = key)) as [-> |Hne]; [|by apply Hno]. split; [|done]. intros H; apply Hyes in H as (? & ? & [=]). done.
Qed.
Lemma cache_ok ls s key p : xrun ls xinit = Some s -> stored_under ls key p <-> exists o, x_cache s !! key = Some o /\ accepted ls !! o = Some p.
Proof.
  revert s. induction ls as [|l ls IH] using rev_ind; intros s H.
  - injection H as <-. split; [intros (l1 & l2 & e1 & e2 & E & _); by destruct l1|by intros (o & [=] & _)].
  - apply xrun_snoc in H as (s1 & H1 & H2). pose proof (objs_length _ _ H1) as Hlen. specialize (IH _ H1). rewrite stored_snoc.
    assert (forall k o, x_cache s1 !! k = Some o -> (o < length (x_objs s1))%nat) as Hlt.
    { clear -H1. revert s1 H1. induction ls as [|l ls IH] using rev_ind; intros s H; [injection H as <-; intros k o [=]|]. apply xrun_snoc in H as (s1 & H1 & H2). apply step_objs in H2. specialize (IH _ H1).
      destruct l; try (destruct H2 as [-> ->]; done).
      - destruct H2 as (ob & -> & -> & _). intros k o. rewrite app_length. cbn [length]. destruct (decide (k = key)) as [-> |Hne]; [rewrite lookup_insert; intros [= <-]; lia|]. rewrite lookup_insert_ne by done. intros Hk. apply IH in Hk. lia.
      - destruct H2 as [-> ->]. intros k o [_ Hk]%lookup_delete_Some. by eapply IH. }
    apply step_objs in H2. rewrite accepted_snoc. destruct l as [k p' e1 e2|k|o'|o'|n i v|n v e|n a b|n e]; try (destruct H2 as [_ ->]; by rewrite app_nil_r).
    + destruct H2 as (ob & _ & -> & _). destruct (decide (k = key)) as [-> |Hne].
      * rewrite lookup_insert. split; [intros ->; exists (length (x_objs s1)); split; [done|]; rewrite Hlen; by apply list_lookup_middle|]. intros (o & [= <-] & Ho). rewrite Hlen, list_lookup_middle in Ho by done. congruence.
      * rewrite lookup_insert_ne by done. rewrite IH. split; intros (o & Ho & Hp); exists o; (split; [done|]); apply Hlt in Ho as Hol; rewrite lookup_app_l in *; try done; lia.
    + destruct H2 as [_ ->]. rewrite app_nil_r. destruct (decide (k = key)) as [-> |Hne]; [rewrite lookup_delete; split; [done|by intros (o & [=] & _)]|]. by rewrite lookup_delete_ne.
Qed.

(** ** Theorems *)
(** As long as callers write to no element of a list a principal returns, a call that hits the cache
    returns exactly the principal stored last under its key. *)
Theorem C83_results_are_isolated_partial ls s key p : xrun ls xinit = Some s -> careful ls -> hit s key = Some p <-> stored_under ls key p.
Proof.
  intros H Hc. rewrite (cache_ok _ _ _ _ H). unfold hit. destruct (x_cache s !! key) as [o|]; [|split; [done|by intros (? & [=] & _)]].
  rewrite (says_accepted _ _ _ Hc H). split; [intros Ho; by exists o|]. by intros (? & [= <-] & ?).
Qed.
(** Callers who only read, append to what they got (and to the results of that) and copy are such. *)
Definition plain (l : xlabel) : Prop := match l with XWrite _ _ _ | XSub _ _ _ => False | _ => True end.
(** Slices on the array of an object's list start where it starts and are no shorter. *)
Definition covers (z y : sl) : Prop := s_arr z = s_arr y -> s_off z = s_off y /\ (s_len y <= s_len z)%nat.
Definition covering (s : xst) : Prop :=
  (forall z ob, z ∈ x_held s -> ob ∈ x_objs s -> covers z (o_roles ob) /\ covers z (o_auth ob)) /\
  forall ob ob', ob ∈ x_objs s -> ob' ∈ x_objs s -> covers (o_roles ob) (o_roles ob') /\ covers (o_roles ob) (o_auth ob') /\ covers (o_auth ob) (o_roles ob') /\ covers (o_auth ob) (o_auth ob').
Lemma covers_fresh h z y : in_heap h z -> s_arr y = length h -> covers z y /\ covers y z.
Proof. intros [H _] Hy. split; intros E; lia. Qed.
Lemma covering_run ls s : Forall plain ls -> xrun ls xinit = Some s -> covering s.
Proof.
  revert s. induction ls as [|l ls IH] using rev_ind; intros s Hp H.
  - injection H as <-. split; cbn; intros ? ? Hin; by apply elem_of_nil in Hin.
  - apply Forall_app in Hp as [Hp Hl]. apply Forall_inv in Hl. apply xrun_snoc in H as (s1 & H1 & H). pose proof (sound_run _ _ H1) as [S1 S2]. specialize (IH _ Hp H1) as [I1 I2].
    destruct l as [key p e1 e2|key|o|o|n i v|n v e|n a b|n e]; cbn [xstep] in H; try done.
    + unfold alloc in H. injection H as <-. set (r := Sl _ 0 (length (pr_roles p))). set (a := Sl _ 0 (length (pr_auth p))).
      assert (s_arr r = length (x_heap s1)) as Hr by done. assert (s_arr a = S (length (x_heap s1))) as Ha by (cbn [a s_arr]; rewrite app_length; cbn; lia).
      assert (forall z, in_heap (x_heap s1) z -> covers z r /\ covers r z /\ covers z a /\ covers a z) as Hf by (intros z [Hz _]; split_and!; intros E; lia).
      assert (covers r r /\ covers r a /\ covers a r /\ covers a a) as Hra by (split_and!; intros E; try lia; split; lia).
      split; cbn [x_held x_objs].
      * intros z ob Hz [Hob|Hob]%elem_of_app; [by apply I1|]. apply elem_of_list_singleton in Hob as ->. cbn [o_roles o_auth]. destruct (Hf z (S2 _ Hz)) as (? & ? & ? & ?). done.
      * intros ob ob' [Hob|Hob]%elem_of_app [Hob'|Hob']%elem_of_app; [by apply I2|..]; rewrite ?elem_of_list_singleton in *; subst; cbn [o_roles o_auth]; [destruct (S1 _ Hob) as [Q1 Q2]|destruct (S1 _ Hob') as [Q1 Q2]|tauto];
          apply Hf in Q1, Q2; tauto.
    + injection H as <-. by split.
    + destruct (x_objs s1 !! o) as [ob0|] eqn:E; [|done]. injection H as <-. apply elem_of_list_lookup_2 in E. split; cbn [x_held x_objs]; [|done]. intros z ob [Hz|Hz]%elem_of_app Hob; [by apply I1|]. apply elem_of_list_singleton in Hz as ->. destruct (I2 _ _ E Hob) as (? & ? & ? & ?). done.
    + destruct (x_objs s1 !! o) as [ob0|] eqn:E; [|done]. injection H as <-. apply elem_of_list_lookup_2 in E. split; cbn [x_held x_objs]; [|done]. intros z ob [Hz|Hz]%elem_of_app Hob; [by apply I1|]. apply elem_of_list_singleton in Hz as ->. destruct (I2 _ _ E Hob) as (? & ? & ? & ?). done.
    + destruct (x_held s1 !! n) as [y|] eqn:E; [|done]. apply elem_of_list_lookup_2 in E. destruct (s_len y <? space (x_heap s1) y)%nat.
      * injection H as <-. split; cbn [x_held x_objs]; [|done]. intros z ob [Hz|Hz]%elem_of_app Hob; [by apply I1|]. apply elem_of_list_singleton in Hz as ->. destruct (I1 _ _ E Hob) as [Q1 Q2].
        unfold covers in *. cbn [s_arr s_off s_len] in *. split; intros Ex; [destruct (Q1 Ex)|destruct (Q2 Ex)]; split; lia.
      * unfold alloc in H. injection H as <-. split; cbn [x_held x_objs]; [|done]. intros z ob [Hz|Hz]%elem_of_app Hob; [by apply I1|]. apply elem_of_list_singleton in Hz as ->. destruct (S1 _ Hob) as [Q1 Q2].
        split; eapply covers_fresh; done.
    + destruct (x_held s1 !! n) as [y|] eqn:E; [|done]. unfold alloc in H. injection H as <-. split; cbn [x_held x_objs]; [|done]. intros z ob [Hz|Hz]%elem_of_app Hob; [by apply I1|]. apply elem_of_list_singleton in Hz as ->. destruct (S1 _ Hob) as [Q1 Q2].
      split; eapply covers_fresh; done.
Qed.
Theorem C83_plain_use_is_careful ls : Forall plain ls -> careful ls.
Proof.
  intros Hp l1 l l2 s c -> H Ht (ob & Hob & Hw). apply Forall_app in Hp as [Hp1 Hp2]. apply Forall_inv in Hp2. destruct (covering_run _ _ Hp1 H) as [I1 _].
  destruct l as [key p e1 e2|key|o|o|n i v|n v e|n a b|n e]; cbn [target] in Ht; try done. destruct (x_held s !! n) as [z|] eqn:E; [|done]. apply elem_of_list_lookup_2 in E.
  destruct (s_len z <? space (x_heap s) z)%nat; [|done]. injection Ht as <-. destruct (I1 _ _ E Hob) as [Q1 Q2]. unfold covers, within in *. cbn in Hw. destruct Hw as [[E1 E2]|[E1 E2]]; [destruct (Q1 (eq_sym E1))|destruct (Q2 (eq_sym E1))]; lia.
Qed.
(** The condition is needed: any other write, if it writes something new, changes what a principal
    says. *)
Theorem C83_other_writes_are_seen ls l s s' c : xrun ls xinit = Some s -> xstep l s = Some s' -> target s l = Some c -> shown s c ->
  arr_of (x_heap s) c.1 !! c.2 <> Some (value_of l) -> exists o, says_now s o <> None /\ says_now s' o <> says_now s o.
Proof.
  intros H Hs Ht (ob & Hob & Hw) Hv. destruct (sound_run _ _ H) as [S1 _]. destruct (S1 _ Hob) as [Hr Ha]. apply elem_of_list_lookup_1 in Hob as [o Ho]. exists o.
  assert (x_objs s' = x_objs s /\ x_heap s' = poke c.1 c.2 (value_of l) (x_heap s)) as [Eo Eh].
  { destruct l as [key p e1 e2|key|o'|o'|n i v|n v e|n a b|n e]; cbn [target xstep value_of] in *; try done; (destruct (x_held s !! n) as [z|]; [|done]).
    - destruct (i <? s_len z)%nat; [|done]. injection Ht as <-. by injection Hs as <-.
    - destruct (s_len z <? space (x_heap s) z)%nat; [|done]. injection Ht as <-. by injection Hs as <-. }
  unfold says_now. rewrite Eo, Ho. split; [done|]. rewrite Eh. intros E.
  assert (elems (poke c.1 c.2 (value_of l) (x_heap s)) (o_roles ob) = elems (x_heap s) (o_roles ob) /\ elems (poke c.1 c.2 (value_of l) (x_heap s)) (o_auth ob) = elems (x_heap s) (o_auth ob)) as [E1 E2].
  { injection E. done. }
  clear E. destruct c as [id n]. cbn [fst snd] in *.
  assert (forall z, in_heap (x_heap s) z -> within (id, n) z -> elems (poke id n (value_of l) (x_heap s)) z = elems (x_heap s) z -> False) as Hx.
  { intros z [Z1 Z2] Hz Ez. rewrite elems_poke_in in Ez by done. apply Hv. destruct Hz as [Eid Hz]. cbn in Eid, Hz. subst id.
    assert (elems (x_heap s) z !! (n - s_off z)%nat = arr_of (x_heap s) (s_arr z) !! n) as El. { unfold elems. rewrite lookup_take, lookup_drop by lia. f_equal. lia. }
    rewrite <- El, <- Ez. apply list_lookup_insert. unfold elems. rewrite take_length, drop_length. lia. }
  destruct Hw as [Hw|Hw]; [apply (Hx _ Hr Hw E1)|apply (Hx _ Ha Hw E2)].
Qed.
Definition alice : principal := Principal (B "alice") [B "reader"; B "writer"] (B "dom") 0 10 [B "reader"] None.
(** So results are not isolated: one caller changes the roles a later caller is told. *)
Theorem C83_results_are_isolated_refuted : ~ forall ls s key p, xrun ls xinit = Some s -> stored_under ls key p -> hit s key = Some p.
Proof.
  intros H. specialize (H [XAccept (B "k") alice 0 0; XRoles 0; XWrite 0 0 (B "admin")]
    (XSt [[B "admin"; B "writer"]; [B "reader"]] [Object alice (Sl 0 0 2) (Sl 1 0 1)] {[B "k" := 0%nat]} [Sl 0 0 2]) (B "k") alice).
  assert (Some (Principal (B "alice") [B "admin"; B "writer"] (B "dom") 0 10 [B "reader"] None) = Some alice) as E; [|discriminate E].
  apply H; [reflexivity|]. exists [], [XRoles 0; XWrite 0 0 (B "admin")], 0%nat, 0%nat. split; [done|]. repeat constructor; cbn; tauto.
Qed.
(** Nor is append to a part of the list harmless. *)
Theorem C83_append_to_a_part_refuted : exists ls s, Forall (fun l => match l with XWrite _ _ _ => False | _ => True end) ls /\ xrun ls xinit = Some s /\
  stored_under ls (B "k") alice /\ hit s (B "k") = Some (Principal (B "alice") [B "reader"; B "admin"] (B "dom") 0 10 [B "reader"] None).
Proof.
  exists [XAccept (B "k") alice 0 0; XRoles 0; XSub 0 0 1; XAppend 1 (B "admin") 0],
    (XSt [[B "reader"; B "admin"]; [B "reader"]] [Object alice (Sl 0 0 2) (Sl 1 0 1)] {[B "k" := 0%nat]} [Sl 0 0 2; Sl 0 0 1; Sl 0 0 2]).
  split_and!; [repeat constructor|reflexivity| |reflexivity]. exists [], [XRoles 0; XSub 0 0 1; XAppend 1 (B "admin") 0], 0%nat, 0%nat. split; [done|]. repeat constructor; cbn; tauto.
Qed.
(** Even plain callers disturb each other, though not the principals: two of them append to the list
    they both got, and the second overwrites what the first appended. *)
Theorem C83_plain_callers_disturb_each_other_refuted : exists ls1 l s1 s2 z, Forall plain (ls1 ++ [l]) /\ xrun ls1 xinit = Some s1 /\ xstep l s1 = Some s2 /\ z ∈ x_held s1 /\
  elems (x_heap s1) z = [B "reader"; B "writer"; B "first"] /\ elems (x_heap s2) z = [B "reader"; B "writer"; B "second"].
Proof.
  exists [XAccept (B "k") alice 2 0; XRoles 0; XRoles 0; XAppend 0 (B "first") 0], (XAppend 1 (B "second") 0),
    (XSt [[B "reader"; B "writer"; B "first"; []]; [B "reader"]] [Object alice (Sl 0 0 2) (Sl 1 0 1)] {[B "k" := 0%nat]} [Sl 0 0 2; Sl 0 0 2; Sl 0 0 3]),
    (XSt [[B "reader"; B "writer"; B "second"; []]; [B "reader"]] [Object alice (Sl 0 0 2) (Sl 1 0 1)] {[B "k" := 0%nat]} [Sl 0 0 2; Sl 0 0 2; Sl 0 0 3; Sl 0 0 3]), (Sl 0 0 3).
  split_and!; [repeat constructor|reflexivity|reflexivity| |reflexivity|reflexivity]. by apply elem_of_list_lookup_2 with 2%nat.
Qed.
Definition busy_callers : list xlabel :=
  [XAccept (B "k") alice 2 1; XRoles 0; XAppend 0 (B "x") 0; XAppend 1 (B "y") 0; XAppend 2 (B "z") 3; XAccept (B "j") (with_auth alice []) 0 0; XAuth 1; XCopy 0 1; XDrop (B "j"); XAuth 0; XAppend 4 (B "w") 0].
Example C83_nonvacuous : Forall plain busy_callers /\ careful busy_callers /\ exists s, xrun busy_callers xinit = Some s /\ hit s (B "k") = Some alice /\ hit s (B "j") = None /\ length (x_held s) = 8%nat.
Proof.
  assert (Forall plain busy_callers) as Hp by (repeat constructor). split; [done|]. split; [by apply C83_plain_use_is_careful|].
  destruct (xrun busy_callers xinit) as [s|] eqn:E; [|vm_compute in E; discriminate E]. exists s. split; [done|].
  assert (Some s = xrun busy_callers xinit) as E' by done. clear E. vm_compute in E'. injection E' as ->. split_and!; vm_compute; reflexivity.
Qed.
Print Assumptions C83_results_are_isolated_partial.
Print Assumptions C83_plain_use_is_careful.
Print Assumptions C83_other_writes_are_seen.
Print Assumptions C83_results_are_isolated_refuted.
Print Assumptions C83_append_to_a_part_refuted.
Print Assumptions C83_plain_callers_disturb_each_other_refuted.
