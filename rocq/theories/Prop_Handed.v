(** * Property C114: what users do with the map of GetPolicyCache *)
From Verif Require Import Handed PolicyCheckers PolicyCheckFacts Prop_PolicyUpdate Prop_CheckPolicy Prop_Monotone.
From Verif Require Import Handed.
From Verif Require Import GoStrings.

(** ** Specification *)
(** The cache that the daemon's own steps make. *)
Definition daemon_step (c : cache) (l : glabel) : cache :=
  match l with
  | GAdd k a _ => <[k := match c !! k with
                         | Some asss => match a_effect a with None => asss ++ [a] | Some _ => a :: asss end
                         | None => [a] end]> c
  | GDrop k => delete k c
  | _ => c
  end.
Definition by_daemon (ls : list glabel) : cache := foldl daemon_step ∅ ls.
(** The user's step writes the cell of array [c.1] at place [c.2], or the assertion at [p]. *)
Definition writes_cell (s : gst) (l : glabel) (c : nat * nat) : Prop :=
  match l with
  | GWrite n k i _ => exists z, held s n k = Some z /\ c = (l_arr z, l_off z + i)%nat
  | GAppend n k _ _ => exists z, held s n k = Some z /\ (l_len z < room_of (g_heap s) z)%nat /\ c = (l_arr z, l_off z + l_len z)%nat
  | _ => False
  end.
Definition writes_assertion (s : gst) (l : glabel) (p : nat) : Prop :=
  match l with GField n k i _ => exists z, held s n k = Some z /\ ptrs (g_heap s) z !! i = Some (Some p) | _ => False end.
(** A cell, an assertion of a list in the cache. *)
Definition inside (c : nat * nat) (z : hsl) : Prop := l_arr z = c.1 /\ (l_off z <= c.2 < l_off z + l_len z)%nat.
Definition cached_cell (s : gst) (c : nat * nat) : Prop := exists k z, g_cache s !! k = Some z /\ inside c z.
Definition cached_assertion (s : gst) (p : nat) : Prop := exists k z, g_cache s !! k = Some z /\ Some p ∈ ptrs (g_heap s) z.
Definition harmless (s : gst) (l : glabel) : Prop :=
  (forall c, writes_cell s l c -> ~ cached_cell s c) /\ (forall p, writes_assertion s l p -> ~ cached_assertion s p).
Definition all_harmless (ls : list glabel) : Prop := forall l1 l l2 s, ls = l1 ++ l :: l2 -> grun l1 ginit = Some s -> harmless s l.
(** Users who only read, delete and move entries of their own map, and cut slices. *)
Definition only_reads (l : glabel) : Prop := match l with GWrite _ _ _ _ | GAppend _ _ _ _ | GField _ _ _ _ => False | _ => True end.

(** ** Facts *)
Lemma grun_app l1 l2 s : grun (l1 ++ l2) s = match grun l1 s with Some s' => grun l2 s' | None => None end.
Proof. revert s. induction l1 as [|l l1 IH]; intros s; [done|]. cbn [app grun]. destruct (gstep l s); [apply IH|done]. Qed.
Lemma grun_snoc ls l s0 s' : grun (ls ++ [l]) s0 = Some s' <-> exists s, grun ls s0 = Some s /\ gstep l s = Some s'.
Proof.
  rewrite grun_app. destruct (grun ls s0) as [s|]; [|split; [done|by intros (? & ? & _)]]. cbn [grun]. destruct (gstep l s) as [s2|] eqn:E.
  - split; [intros [= <-]; by exists s|]. intros (? & [= <-] & H). congruence.
  - split; [done|]. intros (? & [= <-] & H). congruence.
Qed.
Lemma at_new h a id : (id < length h)%nat -> arr_at (h ++ [a]) id = arr_at h id.
Proof. intros H. unfold arr_at. by rewrite lookup_app_l. Qed.
Lemma ptrs_new h a z : (l_arr z < length h)%nat -> ptrs (h ++ [a]) z = ptrs h z.
Proof. intros H. unfold ptrs. by rewrite at_new. Qed.
Lemma ptrs_fresh h l extra : ptrs (h ++ [l ++ replicate extra None]) (HSl (length h) 0 (length l)) = l.
Proof. unfold ptrs, arr_at. cbn [l_arr l_off l_len]. rewrite list_lookup_middle by done. cbn [default from_option id]. rewrite drop_0. by rewrite take_app. Qed.
Lemma at_put id n p h id' : (id' < length h)%nat -> arr_at (put id n p h) id' = if Nat.eqb id id' then <[n := p]> (arr_at h id') else arr_at h id'.
Proof.
  intros H. unfold put, arr_at at 1. destruct (Nat.eqb_spec id id') as [-> |Hne]; [by rewrite list_lookup_insert|]. by rewrite list_lookup_insert_ne.
Qed.
Lemma ptrs_put id n p h z : (l_arr z < length h)%nat -> ~ inside (id, n) z -> ptrs (put id n p h) z = ptrs h z.
Proof.
  intros Hl Hw. unfold ptrs. rewrite at_put by done. destruct (Nat.eqb_spec id (l_arr z)) as [-> |Hne]; [|done].
  apply list_eq. intros i. destruct (decide (i < l_len z)%nat) as [Hi|Hi]; [|by rewrite !lookup_take_ge by lia].
  rewrite !lookup_take, !lookup_drop by done. apply list_lookup_insert_ne. unfold inside in Hw. cbn in Hw. intros ->. apply Hw. lia.
Qed.
Definition fits (h : arrays) (z : hsl) : Prop := (l_arr z < length h)%nat /\ (l_off z + l_len z <= length (arr_at h (l_arr z)))%nat.
Lemma ptrs_append h z p : fits h z -> (l_len z < room_of h z)%nat ->
  ptrs (put (l_arr z) (l_off z + l_len z) p h) (HSl (l_arr z) (l_off z) (S (l_len z))) = ptrs h z ++ [p].
Proof.
  intros [H1 H2] Hr. unfold room_of in Hr. unfold ptrs. cbn [l_arr l_off l_len]. rewrite at_put by done. rewrite Nat.eqb_refl.
  apply list_eq. intros i. assert (length (take (l_len z) (drop (l_off z) (arr_at h (l_arr z)))) = l_len z) as El by (rewrite take_length, drop_length; lia).
  destruct (decide (i < l_len z)%nat) as [Hi|Hi].
  - rewrite lookup_app_l by lia. rewrite !lookup_take, !lookup_drop by lia. apply list_lookup_insert_ne. lia.
  - destruct (decide (i = l_len z)) as [-> |Hne].
    + rewrite lookup_app_r by lia. rewrite El, Nat.sub_diag. rewrite lookup_take, lookup_drop by lia. apply list_lookup_insert. lia.
    + rewrite lookup_take_ge by lia. symmetry. apply lookup_ge_None. rewrite app_length, El. cbn. lia.
Qed.
(** The lists of the cache lie in the memory, in different arrays, and their pointers lead to assertions. *)
Record tidy (s : gst) : Prop := {
  t_fits : forall k z, g_cache s !! k = Some z -> fits (g_heap s) z;
  t_apart : forall k k' z z', g_cache s !! k = Some z -> g_cache s !! k' = Some z' -> l_arr z = l_arr z' -> k = k';
  t_real : forall k z p, g_cache s !! k = Some z -> p ∈ ptrs (g_heap s) z -> exists i, p = Some i /\ (i < length (g_objs s))%nat }.
Lemma ginit_tidy : tidy ginit.
Proof. split; intros *; cbn; intros H; by rewrite lookup_empty in H. Qed.
Lemma fits_new h a z : fits h z -> fits (h ++ [a]) z.
Proof. intros [H1 H2]. split; [rewrite app_length; lia|]. by rewrite at_new. Qed.
Lemma fits_put id n p h z : fits h z -> fits (put id n p h) z.
Proof. intros [H1 H2]. split; [unfold put; by rewrite insert_length|]. rewrite at_put by done. destruct (Nat.eqb _ _); [by rewrite insert_length|done]. Qed.
Lemma fits_fresh h l extra : fits (h ++ [l ++ replicate extra None]) (HSl (length h) 0 (length l)).
Proof. split; cbn [l_arr l_off l_len]; [rewrite app_length; cbn; lia|]. unfold arr_at. rewrite list_lookup_middle by done. cbn. rewrite app_length. lia. Qed.
Lemma fresh_ok h l extra h' z' : new_array l extra h = (h', z') -> fits h' z' /\ ptrs h' z' = l /\
  forall z0, fits h z0 -> fits h' z0 /\ ptrs h' z0 = ptrs h z0 /\ l_arr z0 <> l_arr z'.
Proof.
  intros H. assert (h' = h ++ [l ++ replicate extra None] /\ z' = HSl (length h) 0 (length l)) as [-> ->] by (unfold new_array in H; by split; congruence).
  split; [apply fits_fresh|]. split; [apply ptrs_fresh|]. intros z0 Hf. split; [by apply fits_new|]. destruct Hf as [Hf _]. split; [by apply ptrs_new|]. cbn [l_arr]. lia.
Qed.
Lemma read_cons objs p (l : list (option nat)) : omap (deref objs) (p :: l) = match deref objs p with Some a => a :: omap (deref objs) l | None => omap (deref objs) l end.
Proof. reflexivity. Qed.
Lemma read_more objs a (l : list (option nat)) : (forall p, p ∈ l -> exists i, p = Some i /\ (i < length objs)%nat) -> omap (deref (objs ++ [a])) l = omap (deref objs) l.
Proof.
  induction l as [|p l IH]; intros H; [done|]. rewrite !read_cons, IH by (intros q Hq; apply H; by right).
  destruct (H p ltac:(left)) as (i & -> & Hi). cbn [deref]. by rewrite lookup_app_l.
Qed.
Lemma read_other objs i a (l : list (option nat)) : Some i ∉ l -> omap (deref (<[i := a]> objs)) l = omap (deref objs) l.
Proof.
  induction l as [|p l IH]; intros H; [done|]. apply not_elem_of_cons in H as [H1 H2]. rewrite !read_cons, IH by done.
  destruct p as [p|]; [|done]. cbn [deref]. rewrite list_lookup_insert_ne; [done|]. by intros ->.
Qed.
Lemma read_app objs (l1 l2 : list (option nat)) : omap (deref objs) (l1 ++ l2) = omap (deref objs) l1 ++ omap (deref objs) l2.
Proof. induction l1 as [|p l1 IH]; [done|]. change ((p :: l1) ++ l2) with (p :: (l1 ++ l2)). rewrite !read_cons, IH. by destruct (deref objs p). Qed.
Lemma read_new objs a : omap (deref (objs ++ [a])) [Some (length objs)] = [a].
Proof. cbn. by rewrite list_lookup_middle. Qed.

(** A memory change that leaves the cached lists alone. *)
Lemma view_same s h objs ms : (forall k z, g_cache s !! k = Some z -> omap (deref objs) (ptrs h z) = omap (deref (g_objs s)) (ptrs (g_heap s) z)) ->
  in_cache (GSt h objs (g_cache s) ms) = in_cache s.
Proof. intros H. unfold in_cache. cbn [g_cache g_heap g_objs]. apply map_fmap_ext. intros k z Hz. by apply (H k). Qed.
Lemma tidy_same s h objs ms : tidy s -> (length (g_objs s) <= length objs)%nat -> (forall k z, g_cache s !! k = Some z -> fits h z /\ ptrs h z = ptrs (g_heap s) z) ->
  tidy (GSt h objs (g_cache s) ms).
Proof.
  intros [T1 T2 T3] Hl H. split; cbn [g_cache g_heap g_objs].
  - intros k z Hz. by apply (H k).
  - done.
  - intros k z p Hz Hp. destruct (H _ _ Hz) as [_ E]. rewrite E in Hp. destruct (T3 _ _ _ Hz Hp) as (i & -> & Hi). exists i. split; [done|lia].
Qed.
(** Storing a list [z'] of new contents under [k]. *)
Lemma store_list s h a k z' c l : tidy s -> in_cache s = c -> fits h z' ->
  (forall k0 z0, k0 <> k -> g_cache s !! k0 = Some z0 -> fits h z0 /\ ptrs h z0 = ptrs (g_heap s) z0 /\ l_arr z0 <> l_arr z') ->
  (forall p, p ∈ ptrs h z' -> exists i, p = Some i /\ (i < S (length (g_objs s)))%nat) -> omap (deref (g_objs s ++ [a])) (ptrs h z') = l ->
  let s' := GSt h (g_objs s ++ [a]) (<[k := z']> (g_cache s)) (g_maps s) in tidy s' /\ in_cache s' = <[k := l]> c.
Proof.
  intros [T1 T2 T3] <- Hf Ho Hp Hl. cbn zeta. split.
  - split; cbn [g_cache g_heap g_objs].
    + intros k0 z0 [[<- <-]|[Hne Hz]]%lookup_insert_Some; [done|]. by destruct (Ho k0 z0 ltac:(done) Hz).
    + intros k1 k2 z1 z2 [[<- <-]|[Hn1 Hz1]]%lookup_insert_Some [[<- <-]|[Hn2 Hz2]]%lookup_insert_Some E; [done| | |by eapply T2].
      * destruct (Ho k2 z2 ltac:(done) Hz2) as (_ & _ & Hx). by destruct Hx.
      * destruct (Ho k1 z1 ltac:(done) Hz1) as (_ & _ & Hx). by destruct Hx.
    + intros k0 z0 p [[<- <-]|[Hne Hz]]%lookup_insert_Some Hin.
      * destruct (Hp _ Hin) as (i & -> & Hi). exists i. split; [done|]. rewrite app_length. cbn. lia.
      * destruct (Ho k0 z0 ltac:(done) Hz) as (_ & E & _). rewrite E in Hin. destruct (T3 _ _ _ Hz Hin) as (i & -> & Hi). exists i. split; [done|]. rewrite app_length. cbn. lia.
  - unfold in_cache. cbn [g_cache g_heap g_objs]. rewrite fmap_insert, Hl. apply map_eq. intros k0. destruct (decide (k0 = k)) as [-> |Hne]; [by rewrite !lookup_insert|].
    rewrite !lookup_insert_ne by done. rewrite !lookup_fmap. destruct (g_cache s !! k0) as [z0|] eqn:E; [|done]. cbn [fmap option_fmap option_map].
    destruct (Ho k0 z0 Hne E) as (_ & -> & _). f_equal. apply read_more. intros p Hin. by eapply T3.
Qed.

(** One step: the daemon's do what they should, harmless ones of users do nothing. *)
Lemma step_ok s l s' c : tidy s -> in_cache s = c -> gstep l s = Some s' -> harmless s l -> tidy s' /\ in_cache s' = daemon_step c l.
Proof.
  intros T Hc Hs [Hh1 Hh2]. pose proof T as [T1 T2 T3]. destruct l as [k a extra|k| |n k|n k n' k'|n k i j|n k i a|n k a extra|n k i a]; cbn [gstep daemon_step] in Hs |- *.
  - destruct (g_cache s !! k) as [z|] eqn:Ek.
    + assert (c !! k = Some (omap (deref (g_objs s)) (ptrs (g_heap s) z))) as Eck by (by rewrite <- Hc; unfold in_cache; rewrite lookup_fmap, Ek). rewrite Eck.
      pose proof (T1 _ _ Ek) as [F1 F2]. assert (forall p, p ∈ ptrs (g_heap s) z -> exists i, p = Some i /\ (i < length (g_objs s))%nat) as Hreal by (intros p Hp; by eapply T3).
      destruct (a_effect a) as [e|].
      * destruct (new_array (Some (length (g_objs s)) :: ptrs (g_heap s) z) extra (g_heap s)) as [h' z'] eqn:Ef. injection Hs as <-. destruct (fresh_ok _ _ _ _ _ Ef) as (G1 & G2 & G3). apply store_list; try done.
        -- intros k0 z0 Hne Hz. by apply G3, (T1 k0).
        -- intros p. rewrite G2. intros [-> |Hin]%elem_of_cons; [eexists; split; [done|lia]|].
           destruct (Hreal _ Hin) as (i & -> & Hi). exists i. split; [done|lia].
        -- rewrite G2. change (Some (length (g_objs s)) :: ptrs (g_heap s) z) with ([Some (length (g_objs s))] ++ ptrs (g_heap s) z).
           rewrite read_app, read_new, read_more by done. done.
      * unfold append_ptr in Hs. destruct (Nat.ltb_spec (l_len z) (room_of (g_heap s) z)) as [Hr|Hr].
        -- injection Hs as <-. apply store_list; try done.
           ++ destruct (fits_put (l_arr z) (l_off z + l_len z) (Some (length (g_objs s))) (g_heap s) z ltac:(done)) as [G1 G2]. split; [done|]. cbn [l_arr l_off l_len].
              rewrite at_put by done. rewrite Nat.eqb_refl, insert_length. unfold room_of in Hr. lia.
           ++ intros k0 z0 Hne Hz. assert (l_arr z0 <> l_arr z) as Ha by (intros E; apply Hne; by eapply T2). split; [by apply fits_put, (T1 k0)|]. split; [|done].
              apply ptrs_put; [by apply (T1 k0)|]. intros [E _]. cbn in E. done.
           ++ intros p. rewrite ptrs_append by done. intros [Hin| ->%elem_of_list_singleton]%elem_of_app; [|eexists; split; [done|lia]].
              destruct (Hreal _ Hin) as (i & -> & Hi). exists i. split; [done|lia].
           ++ rewrite ptrs_append by done. rewrite read_app, read_new, read_more by done. done.
        -- destruct (new_array (ptrs (g_heap s) z ++ [Some (length (g_objs s))]) extra (g_heap s)) as [h' z'] eqn:Ef. injection Hs as <-. destruct (fresh_ok _ _ _ _ _ Ef) as (G1 & G2 & G3). apply store_list; try done.
           ++ intros k0 z0 Hne Hz. by apply G3, (T1 k0).
           ++ intros p. rewrite G2. intros [Hin| ->%elem_of_list_singleton]%elem_of_app; [|eexists; split; [done|lia]].
              destruct (Hreal _ Hin) as (i & -> & Hi). exists i. split; [done|lia].
           ++ rewrite G2. rewrite read_app, read_new, read_more by done. done.
    + assert (c !! k = None) as -> by (by rewrite <- Hc; unfold in_cache; rewrite lookup_fmap, Ek). destruct (new_array [Some (length (g_objs s))] 0 (g_heap s)) as [h' z'] eqn:Ef. injection Hs as <-. destruct (fresh_ok _ _ _ _ _ Ef) as (G1 & G2 & G3). apply store_list; try done.
      * intros k0 z0 Hne Hz. by apply G3, (T1 k0).
      * intros p. rewrite G2. intros ->%elem_of_list_singleton. eexists. split; [done|lia].
      * rewrite G2. apply read_new.
  - injection Hs as <-. split.
    + split; cbn [g_cache g_heap g_objs].
      * intros k0 z [_ Hz]%lookup_delete_Some. by eapply T1.
      * intros k1 k2 z1 z2 [_ H1]%lookup_delete_Some [_ H2]%lookup_delete_Some. by eapply T2.
      * intros k0 z p [_ Hz]%lookup_delete_Some. by eapply T3.
    + subst c. unfold in_cache. cbn [g_cache g_heap g_objs]. by rewrite fmap_delete.
  - injection Hs as <-. split; [apply tidy_same; [done..|intros k z Hz; split; [by eapply T1|done]]|]. subst c. by apply view_same.
  - destruct (g_maps s !! n); [|done]. injection Hs as <-. split; [apply tidy_same; [done..|intros k0 z Hz; split; [by eapply T1|done]]|]. subst c. by apply view_same.
  - destruct (held s n' k'); [|done]. injection Hs as <-. split; [apply tidy_same; [done..|intros k0 z Hz; split; [by eapply T1|done]]|]. subst c. by apply view_same.
  - destruct (held s n k) as [z|]; [|done]. destruct ((i <=? j)%nat && (j <=? room_of (g_heap s) z)%nat); [|done]. injection Hs as <-.
    split; [apply tidy_same; [done..|intros k0 z0 Hz; split; [by eapply T1|done]]|]. subst c. by apply view_same.
  - destruct (held s n k) as [z|] eqn:Eh; [|done]. destruct (i <? l_len z)%nat; [|done]. injection Hs as <-.
    assert (forall k0 z0, g_cache s !! k0 = Some z0 -> ptrs (put (l_arr z) (l_off z + i) (Some (length (g_objs s))) (g_heap s)) z0 = ptrs (g_heap s) z0) as Hsame.
    { intros k0 z0 Hz. apply ptrs_put; [by eapply T1|]. intros Hin. eapply Hh1; [exists z; split; [done|done]|]. by exists k0, z0. }
    split; [apply tidy_same; [done|rewrite app_length; lia|intros k0 z0 Hz; split; [by eapply fits_put, T1|by eapply Hsame]]|].
    subst c. apply view_same. intros k0 z0 Hz. rewrite (Hsame _ _ Hz). apply read_more. intros p Hp. by eapply T3.
  - destruct (held s n k) as [z|] eqn:Eh; [|done]. unfold append_ptr in Hs. destruct (Nat.ltb_spec (l_len z) (room_of (g_heap s) z)) as [Hr|Hr].
    + injection Hs as <-. assert (forall k0 z0, g_cache s !! k0 = Some z0 -> ptrs (put (l_arr z) (l_off z + l_len z) (Some (length (g_objs s))) (g_heap s)) z0 = ptrs (g_heap s) z0) as Hsame.
      { intros k0 z0 Hz. apply ptrs_put; [by eapply T1|]. intros Hin. eapply Hh1; [exists z; split; [done|done]|]. by exists k0, z0. }
      split; [apply tidy_same; [done|rewrite app_length; lia|intros k0 z0 Hz; split; [by eapply fits_put, T1|by eapply Hsame]]|].
      subst c. apply view_same. intros k0 z0 Hz. rewrite (Hsame _ _ Hz). apply read_more. intros p Hp. by eapply T3.
    + destruct (new_array (ptrs (g_heap s) z ++ [Some (length (g_objs s))]) extra (g_heap s)) as [h' z'] eqn:Ef. injection Hs as <-. destruct (fresh_ok _ _ _ _ _ Ef) as (G1 & G2 & G3).
      split; [apply tidy_same; [done|rewrite app_length; lia|intros k0 z0 Hz; destruct (G3 _ (T1 _ _ Hz)) as (? & ? & _); by split]|].
      subst c. apply view_same. intros k0 z0 Hz. destruct (G3 _ (T1 _ _ Hz)) as (_ & -> & _). apply read_more. intros p Hp. by eapply T3.
  - destruct (held s n k) as [z|] eqn:Eh; [|done]. destruct (ptrs (g_heap s) z !! i) as [[p|]|] eqn:Ep; try done. injection Hs as <-.
    split; [apply tidy_same; [done|by rewrite insert_length|intros k0 z0 Hz; split; [by eapply T1|done]]|].
    subst c. apply view_same. intros k0 z0 Hz. apply read_other. intros Hin. eapply Hh2; [by exists z|]. by exists k0, z0.
Qed.
Lemma run_ok ls s : grun ls ginit = Some s -> all_harmless ls -> tidy s /\ in_cache s = by_daemon ls.
Proof.
  revert s. induction ls as [|l ls IH] using rev_ind; intros s H Hh.
  - injection H as <-. split; [apply ginit_tidy|]. unfold in_cache. cbn. by rewrite fmap_empty.
  - apply grun_snoc in H as (s1 & Hr & Hs). destruct (IH s1 Hr) as [T Hc]. { intros l1 l0 l2 s0 -> H0. apply (Hh l1 l0 (l2 ++ [l])); [by rewrite <- app_assoc|done]. }
    unfold by_daemon. rewrite foldl_app. cbn [foldl]. eapply step_ok; [done|done|done|]. by apply (Hh ls l []).
Qed.

(** ** Theorems *)
(** As long as no user writes into a list of the cache or an assertion of it, checks go by what the daemon put there. *)
Theorem C114_own_cache_partial ls s : grun ls ginit = Some s -> all_harmless ls -> in_cache s = by_daemon ls.
Proof. intros H Hh. by apply run_ok. Qed.
(** Users who change only the map they got are such. *)
Theorem C114_readers ls s : grun ls ginit = Some s -> Forall only_reads ls -> in_cache s = by_daemon ls.
Proof.
  intros H Hf. apply C114_own_cache_partial; [done|]. intros l1 l l2 s1 -> _. apply Forall_app in Hf as [_ Hf]. apply Forall_inv in Hf.
  split; [intros c Hw _|intros p Hw _]; by destruct l.
Qed.
(** Every check goes as in the run of the daemon's steps alone. *)
Definition is_daemon (l : glabel) : bool := match l with GAdd _ _ _ | GDrop _ => true | _ => false end.
Lemma daemon_runs ls s : (forall l, l ∈ ls -> is_daemon l = true) -> exists s', grun ls s = Some s'.
Proof.
  revert s. induction ls as [|l ls IH]; intros s H; [by exists s|]. cbn [grun]. assert (exists s1, gstep l s = Some s1) as [s1 ->].
  { pose proof (H l ltac:(left)) as Hl. destruct l; try done; cbn [gstep]; [|by eexists]. destruct (match g_cache s !! k with Some _ => _ | None => _ end). by eexists. }
  apply IH. intros l' Hl'. apply H. by right.
Qed.
Lemma daemon_folds ls c : foldl daemon_step c (List.filter is_daemon ls) = foldl daemon_step c ls.
Proof. revert c. induction ls as [|l ls IH]; intros c; [done|]. destruct l; cbn [List.filter is_daemon foldl]; apply IH. Qed.
Theorem C114_checks_partial ls s U domain roles action resource r : grun ls ginit = Some s -> all_harmless ls ->
  exists s0, grun (List.filter is_daemon ls) ginit = Some s0 /\
    (checked_by U domain roles action resource (in_cache s) r <-> checked_by U domain roles action resource (in_cache s0) r).
Proof.
  intros H Hh. assert (forall l, l ∈ List.filter is_daemon ls -> is_daemon l = true) as Hd by (intros l Hl; apply elem_of_list_In, filter_In in Hl; tauto).
  destruct (daemon_runs (List.filter is_daemon ls) ginit Hd) as [s0 Hs0]. exists s0. split; [done|].
  rewrite (C114_own_cache_partial _ _ H Hh). rewrite (C114_own_cache_partial _ _ Hs0); [unfold by_daemon; by rewrite daemon_folds|].
  intros l1 l l2 s1 E _. assert (is_daemon l = true) as El by (apply Hd; rewrite E; apply elem_of_app; right; left). split; [intros c Hw _|intros p Hw _]; by destruct l.
Qed.
(** The condition is exact: a write to the place of an assertion in the cache is what the next check reads there. *)
Definition touches (s : gst) (l : glabel) (k : str) (j : nat) : Prop := exists z, g_cache s !! k = Some z /\ (j < l_len z)%nat /\
  (writes_cell s l (l_arr z, l_off z + j)%nat \/ exists p, writes_assertion s l p /\ ptrs (g_heap s) z !! j = Some (Some p)).
Definition written (l : glabel) : option assertion := match l with GWrite _ _ _ a | GAppend _ _ a _ | GField _ _ _ a => Some a | _ => None end.
Lemma read_at objs (l : list (option nat)) j : (forall p, p ∈ l -> exists i, p = Some i /\ (i < length objs)%nat) ->
  omap (deref objs) l !! j = match l !! j with Some p => deref objs p | None => None end.
Proof.
  revert j. induction l as [|p l IH]; intros j H; [done|]. rewrite read_cons. destruct (H p ltac:(left)) as (i & -> & Hi). cbn [deref].
  destruct (lookup_lt_is_Some_2 objs i Hi) as [a Ha]. rewrite Ha. destruct j as [|j]; [cbn; by rewrite Ha|]. cbn. apply IH. intros q Hq. apply H. by right.
Qed.
Lemma ptrs_put_in h z j p : fits h z -> (j < l_len z)%nat -> ptrs (put (l_arr z) (l_off z + j) p h) z = <[j := p]> (ptrs h z).
Proof.
  intros [H1 H2] Hj. unfold ptrs. rewrite at_put by done. rewrite Nat.eqb_refl. apply list_eq. intros i. destruct (decide (i < l_len z)%nat) as [Hi|Hi].
  - rewrite lookup_take, lookup_drop by done. destruct (decide (i = j)) as [-> |Hne].
    + rewrite !list_lookup_insert; [done|rewrite take_length, drop_length; lia|lia].
    + rewrite !list_lookup_insert_ne by lia. by rewrite lookup_take, lookup_drop.
  - rewrite lookup_take_ge by lia. rewrite list_lookup_insert_ne by lia. by rewrite lookup_take_ge by lia.
Qed.
Theorem C114_writes_are_felt ls l s s' k j : grun ls ginit = Some s -> all_harmless ls -> gstep l s = Some s' -> touches s l k j ->
  exists asss, in_cache s' !! k = Some asss /\ asss !! j = written l.
Proof.
  intros Hr Hh Hs (z & Hz & Hj & Ht). destruct (run_ok _ _ Hr Hh) as [[T1 T2 T3] _].
  assert (forall p, p ∈ <[j := Some (length (g_objs s))]> (ptrs (g_heap s) z) -> exists i, p = Some i /\ (i < S (length (g_objs s)))%nat) as Hnew.
  { intros p Hp. apply elem_of_list_lookup in Hp as [i Hi]. apply list_lookup_insert_Some in Hi as [(_ & <- & _)|[_ Hi]]; [eexists; split; [done|lia]|].
    destruct (T3 _ _ p Hz) as (i0 & -> & Hi0); [by apply elem_of_list_lookup_2 in Hi|]. exists i0. split; [done|lia]. }
  assert (length (ptrs (g_heap s) z) = l_len z) as El. { destruct (T1 _ _ Hz). unfold ptrs. rewrite take_length, drop_length. lia. }
  assert (forall a : assertion, omap (deref (g_objs s ++ [a])) (<[j := Some (length (g_objs s))]> (ptrs (g_heap s) z)) !! j = Some a) as Hput.
  { intros a. rewrite read_at. - rewrite list_lookup_insert by lia. cbn [deref]. by rewrite list_lookup_middle.
    - intros p Hp. destruct (Hnew p Hp) as (i & -> & Hi). exists i. split; [done|]. rewrite app_length. cbn [length]. lia. }
  destruct l as [k1 a extra|k1| |n k1|n k1 n' k'|n k1 i i2|n k1 i a|n k1 a extra|n k1 i a]; cbn [writes_cell writes_assertion] in Ht;
    try (by destruct Ht as [[]|(? & [] & _)]); cbn [gstep written] in Hs |- *.
  - destruct Ht as [(z1 & Eh & [= Ea Eo])|(? & [] & _)]. rewrite Eh in Hs. destruct (i <? l_len z1)%nat; [|done]. injection Hs as <-.
    unfold in_cache. cbn [g_cache g_heap g_objs]. rewrite lookup_fmap, Hz. eexists. split; [done|]. rewrite <- Ea, <- Eo, ptrs_put_in by (done || by apply (T1 k)). apply Hput.
  - destruct Ht as [(z1 & Eh & Hroom & [= Ea Eo])|(? & [] & _)]. rewrite Eh in Hs. unfold append_ptr in Hs. apply Nat.ltb_lt in Hroom. rewrite Hroom in Hs. injection Hs as <-.
    unfold in_cache. cbn [g_cache g_heap g_objs]. rewrite lookup_fmap, Hz. eexists. split; [done|]. rewrite <- Ea, <- Eo, ptrs_put_in by (done || by apply (T1 k)). apply Hput.
  - destruct Ht as [[]|(p & (z1 & Eh & Ep) & Ej)]. rewrite Eh, Ep in Hs. injection Hs as <-.
    unfold in_cache. cbn [g_cache g_heap g_objs]. rewrite lookup_fmap, Hz. eexists. split; [done|]. rewrite read_at.
    + rewrite Ej. cbn [deref]. apply list_lookup_insert. destruct (T3 _ _ (Some p) Hz) as (i0 & [= <-] & Hi0); [by apply elem_of_list_lookup_2 in Ej|done].
    + intros q Hq. rewrite insert_length. by apply (T3 k z).
Qed.

(** ** The daemon's cache is not safe from users *)
Definition to_assertion (r : raw) : list assertion := match conv U0 r with Ok a => [a] | _ => [] end.
Definition rk := B "d:role.r".
(** The check of role r of domain d, by the cache as it is. *)
Definition seen (ls : list glabel) (w m : nat) (act res : str) : option (outcome (list str)) :=
  match grun ls ginit with
  | Some s => match run U0 (B "d") [B "r"] act res (chk1 w m) (start [B "r"] (in_cache s) false) with
              | Some q => match s_main q with MDone r => Some r | _ => None end | None => None end
  | None => None
  end.
Lemma seen_checked ls w m act res r : seen ls w m act res = Some r ->
  exists s, grun ls ginit = Some s /\ checked_by U0 (B "d") [B "r"] act res (in_cache s) r.
Proof.
  unfold seen. destruct (grun ls ginit) as [s|]; [|discriminate]. intros H. exists s. split; [reflexivity|].
  destruct (run _ _ _ _ _ (chk1 w m) _) as [q|] eqn:E; [|discriminate]. destruct (s_main q) as [| |r'] eqn:Em; try discriminate. injection H as <-.
  assert (Forall (fun l => match l with EnvCancel | EnvSwap _ _ | EnvMutate _ _ => False | _ => True end) (chk1 w m)) as HF.
  { unfold chk1. repeat (apply Forall_app; split); repeat constructor; by apply Forall_replicate. }
  rewrite Forall_forall in HF. exists (chk1 w m), q. split_and!; [exact E|exact Em|by intros Hin%HF|].
  intros p c'. split; by intros Hin%HF.
Qed.
Definition adds (rs : list raw) (extra : nat) : list glabel := map (fun a => GAdd rk a extra) (rs ≫= to_assertion).
Definition with_one (r : raw) (f : assertion -> glabel) : list glabel := map f (to_assertion r).
Definition a_doc := rw "d:role.r" "read" "d:doc" "allow".
Definition a_tmp := rw "d:role.r" "read" "d:tmp" "allow".
Definition a_log := rw "d:role.r" "read" "d:log" "allow".
(** A user's assignment to an element of a list: what was denied is granted. *)
Theorem C114_own_cache_refuted : exists ls l s s', grun ls ginit = Some s /\ Forall only_reads ls /\ grun (ls ++ [l]) ginit = Some s' /\
  match l with GWrite _ _ _ _ => True | _ => False end /\
  checked_by U0 (B "d") [B "r"] (B "read") (B "secret") (in_cache s) (Err ErrDenyByPolicy) /\
  checked_by U0 (B "d") [B "r"] (B "read") (B "secret") (in_cache s') (Ok [B "r"]).
Proof.
  destruct (to_assertion a_all) as [|a [|]] eqn:Ea; [vm_compute in Ea; discriminate Ea| |vm_compute in Ea; discriminate Ea].
  destruct (seen_checked (adds [d_sec; a_all] 0 ++ [GShow]) 6 2 (B "read") (B "secret") (Err ErrDenyByPolicy)) as (s & Hs & H1); [vm_compute; reflexivity|].
  destruct (seen_checked (adds [d_sec; a_all] 0 ++ GShow :: with_one a_all (GWrite 0 rk 0)) 6 3 (B "read") (B "secret") (Ok [B "r"])) as (s' & Hs' & H2); [vm_compute; reflexivity|].
  exists (adds [d_sec; a_all] 0 ++ [GShow]), (GWrite 0 rk 0 a), s, s'. split_and!; [exact Hs| | |exact I|exact H1|exact H2].
  - vm_compute. repeat constructor.
  - unfold with_one in Hs'. rewrite Ea in Hs'. by rewrite <- app_assoc.
Qed.
(** The same through the pointer: an exported field is set. *)
Theorem C114_fields_refuted : exists ls l s s', grun ls ginit = Some s /\ Forall only_reads ls /\ grun (ls ++ [l]) ginit = Some s' /\
  match l with GField _ _ _ _ => True | _ => False end /\
  checked_by U0 (B "d") [B "r"] (B "read") (B "secret") (in_cache s) (Err ErrDenyByPolicy) /\
  checked_by U0 (B "d") [B "r"] (B "read") (B "secret") (in_cache s') (Ok [B "r"]).
Proof.
  destruct (to_assertion a_all) as [|a [|]] eqn:Ea; [vm_compute in Ea; discriminate Ea| |vm_compute in Ea; discriminate Ea].
  destruct (seen_checked (adds [a_all; d_sec] 0 ++ [GShow]) 6 2 (B "read") (B "secret") (Err ErrDenyByPolicy)) as (s & Hs & H1); [vm_compute; reflexivity|].
  destruct (seen_checked (adds [a_all; d_sec] 0 ++ GShow :: with_one a_all (GField 0 rk 0)) 6 3 (B "read") (B "secret") (Ok [B "r"])) as (s' & Hs' & H2); [vm_compute; reflexivity|].
  exists (adds [a_all; d_sec] 0 ++ [GShow]), (GField 0 rk 0 a), s, s'. split_and!; [exact Hs| | |exact I|exact H1|exact H2].
  - vm_compute. repeat constructor.
  - unfold with_one in Hs'. rewrite Ea in Hs'. by rewrite <- app_assoc.
Qed.
(** Even append, which seems to leave the list alone: the daemon has meanwhile added an assertion in the room behind the
    list the user got, and the user's append replaces it.  What no policy allows is granted. *)
Theorem C114_append_refuted : exists ls l s s', grun ls ginit = Some s /\ Forall only_reads ls /\ grun (ls ++ [l]) ginit = Some s' /\
  match l with GAppend _ _ _ _ => True | _ => False end /\
  checked_by U0 (B "d") [B "r"] (B "read") (B "secret") (in_cache s) (Err ErrNoMatch) /\
  checked_by U0 (B "d") [B "r"] (B "read") (B "secret") (in_cache s') (Ok [B "r"]).
Proof.
  destruct (to_assertion a_all) as [|a [|]] eqn:Ea; [vm_compute in Ea; discriminate Ea| |vm_compute in Ea; discriminate Ea].
  destruct (seen_checked (adds [a_doc; a_tmp] 2 ++ GShow :: adds [a_log] 0) 10 2 (B "read") (B "secret") (Err ErrNoMatch)) as (s & Hs & H1); [vm_compute; reflexivity|].
  destruct (seen_checked (adds [a_doc; a_tmp] 2 ++ GShow :: adds [a_log] 0 ++ with_one a_all (fun a => GAppend 0 rk a 0)) 10 3 (B "read") (B "secret") (Ok [B "r"])) as (s' & Hs' & H2); [vm_compute; reflexivity|].
  exists (adds [a_doc; a_tmp] 2 ++ GShow :: adds [a_log] 0), (GAppend 0 rk a 0), s, s'. split_and!; [exact Hs| | |exact I|exact H1|exact H2].
  - vm_compute. repeat constructor.
  - unfold with_one in Hs'. rewrite Ea in Hs'. by rewrite <- app_assoc.
Qed.
(** What a user sees in the n-th map under [k]. *)
Definition view (s : gst) (n : nat) (k : str) : option (list assertion) := (fun z => omap (deref (g_objs s)) (ptrs (g_heap s) z)) <$> held s n k.
(** Slices are cut within their length (not up to the capacity). *)
Definition within (ls : list glabel) : Prop := forall l1 n k a b l2 s l, ls = l1 ++ GSub n k a b :: l2 -> grun l1 ginit = Some s -> view s n k = Some l -> (b <= length l)%nat.
Definition view_after (s : gst) (l : glabel) (n : nat) (k : str) : option (list assertion) :=
  match l with
  | GShow => if decide (n = length (g_maps s)) then in_cache s !! k else view s n k
  | GDel n0 k0 => if decide ((n, k) = (n0, k0)) then None else view s n k
  | GSet n0 k0 n1 k1 => if decide ((n, k) = (n0, k0) /\ (n < length (g_maps s))%nat) then view s n1 k1 else view s n k
  | GSub n0 k0 a b => if decide ((n, k) = (n0, k0)) then (fun l => take (b - a) (drop a l)) <$> view s n k else view s n k
  | _ => view s n k
  end.
Definition real (objs : list assertion) (l : list (option nat)) : Prop := forall p, p ∈ l -> exists i, p = Some i /\ (i < length objs)%nat.
Lemma read_len objs (l : list (option nat)) : real objs l -> length (omap (deref objs) l) = length l.
Proof.
  induction l as [|p l IH]; intros H; [done|]. rewrite read_cons. destruct (H p ltac:(left)) as (i & -> & Hi). cbn [deref].
  destruct (lookup_lt_is_Some_2 objs i Hi) as [a ->]. cbn [length]. f_equal. apply IH. intros q Hq. apply H. by right.
Qed.
Lemma real_take objs l n : real objs l -> real objs (take n l).
Proof. intros H p Hp. apply H. rewrite <- (take_drop n l). apply elem_of_app. by left. Qed.
Lemma real_drop objs l n : real objs l -> real objs (drop n l).
Proof. intros H p Hp. apply H. rewrite <- (take_drop n l). apply elem_of_app. by right. Qed.
Lemma read_cut objs (l : list (option nat)) n m : real objs l -> omap (deref objs) (take n (drop m l)) = take n (drop m (omap (deref objs) l)).
Proof.
  intros H. apply list_eq. intros i. rewrite read_at by (by apply real_take, real_drop). destruct (decide (i < n)%nat) as [Hi|Hi].
  - rewrite !lookup_take, !lookup_drop by done. by rewrite read_at.
  - by rewrite !lookup_take_ge by lia.
Qed.
(** The lists users hold end before those of the cache in the same array. *)
Record snug (s : gst) : Prop := {
  sn_fits : forall n k z, held s n k = Some z -> fits (g_heap s) z;
  sn_real : forall n k z, held s n k = Some z -> real (g_objs s) (ptrs (g_heap s) z);
  sn_before : forall n k z k' z', held s n k = Some z -> g_cache s !! k' = Some z' -> l_arr z = l_arr z' -> (l_off z + l_len z <= l_off z' + l_len z')%nat }.
Lemma held_set (s : gst) h o c (n0 : nat) (k0 : str) (z0 : hsl) n k : held (GSt h o c (Handed.set_map n0 k0 z0 s)) n k = if decide ((n, k) = (n0, k0) /\ (n < length (g_maps s))%nat) then Some z0 else held s n k.
Proof.
  unfold held, Handed.set_map. cbn [g_maps]. destruct (g_maps s !! n0) as [m|] eqn:Em.
  - pose proof (lookup_lt_Some _ _ _ Em) as Hl. destruct (decide (n = n0)) as [-> |Hne].
    + rewrite list_lookup_insert by done. rewrite Em. destruct (decide (k = k0)) as [-> |Hk].
      * rewrite lookup_insert. by rewrite decide_True.
      * rewrite lookup_insert_ne by done. rewrite decide_False; [done|]. intros [[= E] _]. done.
    + rewrite list_lookup_insert_ne by done. rewrite decide_False; [done|]. intros [[= E _] _]. done.
  - rewrite decide_False; [done|]. intros [[= -> _] Hl]. apply lookup_ge_None in Em. lia.
Qed.
Lemma held_lt s n k z : held s n k = Some z -> (n < length (g_maps s))%nat.
Proof. unfold held. destruct (g_maps s !! n) eqn:E; [|done]. intros _. by eapply lookup_lt_Some. Qed.
(** Memory that grows and leaves the lists users hold as they are. *)
Lemma snug_add s h a k0 z0 : snug s -> (forall n k z, held s n k = Some z -> fits h z /\ ptrs h z = ptrs (g_heap s) z /\ (l_arr z = l_arr z0 -> (l_off z + l_len z <= l_off z0 + l_len z0)%nat)) ->
  let s' := GSt h (g_objs s ++ [a]) (<[k0 := z0]> (g_cache s)) (g_maps s) in snug s' /\ forall n k, view s' n k = view s n k.
Proof.
  intros [S1 S2 S3] H. cbn zeta. split.
  - split; change (held (GSt h (g_objs s ++ [a]) (<[k0:=z0]> (g_cache s)) (g_maps s))) with (held s); cbn [g_heap g_objs g_cache].
    + intros n k z Hz. by destruct (H _ _ _ Hz).
    + intros n k z Hz p Hp. destruct (H _ _ _ Hz) as (_ & E & _). rewrite E in Hp. destruct (S2 _ _ _ Hz _ Hp) as (i & -> & Hi). exists i. split; [done|]. rewrite app_length. lia.
    + intros n k z k' z' Hz [[<- <-]|[_ Hc]]%lookup_insert_Some; [by destruct (H _ _ _ Hz) as (_ & _ & ?)|by eapply S3].
  - intros n k. unfold view. change (held (GSt h (g_objs s ++ [a]) (<[k0:=z0]> (g_cache s)) (g_maps s))) with (held s). cbn [g_heap g_objs].
    destruct (held s n k) as [z|] eqn:Ez; [|done]. cbn [fmap option_fmap option_map]. destruct (H _ _ _ Ez) as (_ & -> & _). f_equal. apply read_more. by eapply S2.
Qed.
Lemma snug_step s l s' : tidy s -> snug s -> only_reads l -> gstep l s = Some s' ->
  (forall n k a b v, l = GSub n k a b -> view s n k = Some v -> (b <= length v)%nat) -> snug s' /\ forall n k, view s' n k = view_after s l n k.
Proof.
  intros [T1 T2 T3] SN Ho Hs Hb. pose proof SN as [S1 S2 S3]. destruct l as [k0 a extra|k0| |n0 k0|n0 k0 n' k'|n0 k0 i j|n0 k0 i a|n0 k0 a extra|n0 k0 i a]; try done; cbn [gstep view_after] in Hs |- *.
  - assert (forall l extra h' z', new_array l extra (g_heap s) = (h', z') ->
      let s' := GSt h' (g_objs s ++ [a]) (<[k0 := z']> (g_cache s)) (g_maps s) in snug s' /\ forall n k, view s' n k = view s n k) as Hnew.
    { intros l ex h' z' Ef. destruct (fresh_ok _ _ _ _ _ Ef) as (_ & _ & G). apply snug_add; [done|]. intros n k z Hz. destruct (G z) as (? & ? & ?); [by eapply S1|]. by split_and!. }
    destruct (g_cache s !! k0) as [z|] eqn:Ek.
    + destruct (a_effect a) as [e|].
      * destruct (new_array _ extra (g_heap s)) as [h' z'] eqn:Ef. injection Hs as <-. by eapply Hnew.
      * unfold append_ptr in Hs. destruct (l_len z <? room_of (g_heap s) z)%nat.
        -- injection Hs as <-. apply snug_add; [done|]. intros n k z1 Hz1. split; [by eapply fits_put, S1|]. split.
           ++ apply ptrs_put; [by eapply S1|]. intros [E Hin]. cbn in E, Hin. pose proof (S3 _ _ _ _ _ Hz1 Ek E). lia.
           ++ cbn [l_arr l_off l_len]. intros E. pose proof (S3 _ _ _ _ _ Hz1 Ek E). lia.
        -- destruct (new_array _ extra (g_heap s)) as [h' z'] eqn:Ef. injection Hs as <-. by eapply Hnew.
    + destruct (new_array _ 0 (g_heap s)) as [h' z'] eqn:Ef. injection Hs as <-. by eapply Hnew.
  - injection Hs as <-. split; [|done]. split; [exact S1|exact S2|]. cbn [g_cache]. intros n k z k' z' Hz [_ Hc]%lookup_delete_Some. by eapply S3.
  - injection Hs as <-. assert (forall n k, held (GSt (g_heap s) (g_objs s) (g_cache s) (g_maps s ++ [g_cache s])) n k = if decide (n = length (g_maps s)) then g_cache s !! k else held s n k) as Hh.
    { intros n k. unfold held. cbn [g_maps]. destruct (decide (n = length (g_maps s))) as [-> |Hne]; [by rewrite list_lookup_middle|].
      destruct (decide (n < length (g_maps s))%nat) as [Hl|Hl]; [by rewrite lookup_app_l|]. rewrite (lookup_ge_None_2 (g_maps s)) by lia. rewrite lookup_ge_None_2; [done|]. rewrite app_length. cbn. lia. }
    split; [split; cbn [g_heap g_objs g_cache]|].
    + intros n k z. rewrite Hh. destruct (decide _); [by apply T1|by apply S1].
    + intros n k z. rewrite Hh. destruct (decide _); [|by apply S2]. intros Hz p Hp. by eapply T3.
    + intros n k z k' z'. rewrite Hh. destruct (decide _); [|by apply S3]. intros Hz Hz' E. pose proof (T2 _ _ _ _ Hz Hz' E) as ->. assert (z = z') as -> by congruence. lia.
    + intros n k. unfold view. rewrite Hh. destruct (decide _); [|done]. unfold in_cache. by rewrite lookup_fmap.
  - destruct (g_maps s !! n0) as [m|] eqn:Em; [|done]. injection Hs as <-.
    assert (forall n k, held (GSt (g_heap s) (g_objs s) (g_cache s) (<[n0:=delete k0 m]> (g_maps s))) n k = if decide ((n, k) = (n0, k0)) then None else held s n k) as Hh.
    { intros n k. unfold held. cbn [g_maps]. destruct (decide (n = n0)) as [-> |Hne].
      - rewrite list_lookup_insert by (by eapply lookup_lt_Some). rewrite Em. destruct (decide (k = k0)) as [-> |Hk]; [rewrite lookup_delete; by rewrite decide_True|].
        rewrite lookup_delete_ne by done. rewrite decide_False; [done|]. intros [= E]. done.
      - rewrite list_lookup_insert_ne by done. rewrite decide_False; [done|]. intros [= E _]. done. }
    split; [split; cbn [g_heap g_objs g_cache]|].
    + intros n k z. rewrite Hh. destruct (decide _); [done|by apply S1].
    + intros n k z. rewrite Hh. destruct (decide _); [done|by apply S2].
    + intros n k z k' z'. rewrite Hh. destruct (decide _); [done|by apply S3].
    + intros n k. unfold view. rewrite Hh. by destruct (decide _).
  - destruct (held s n' k') as [z0|] eqn:E0; [|done]. injection Hs as <-. split; [split; cbn [g_heap g_objs g_cache]|].
    + intros n k z. rewrite held_set. destruct (decide _); [intros [= <-]; by eapply S1|by apply S1].
    + intros n k z. rewrite held_set. destruct (decide _); [intros [= <-]; by eapply S2|by apply S2].
    + intros n k z k1 z'. rewrite held_set. destruct (decide _); [intros [= <-]; by eapply S3|by apply S3].
    + intros n k. unfold view. rewrite held_set. destruct (decide _); [by rewrite E0|done].
  - destruct (held s n0 k0) as [z0|] eqn:E0; [|done]. destruct ((i <=? j)%nat && (j <=? room_of (g_heap s) z0)%nat) eqn:Eb; [|done]. injection Hs as <-.
    apply andb_prop in Eb as [Hij%Nat.leb_le Hr%Nat.leb_le]. pose proof (S2 _ _ _ E0) as R0. pose proof (S1 _ _ _ E0) as [F1 F2].
    assert (length (ptrs (g_heap s) z0) = l_len z0) as El by (unfold ptrs; rewrite take_length, drop_length; lia).
    assert (j <= l_len z0)%nat as Hj. { specialize (Hb n0 k0 i j (omap (deref (g_objs s)) (ptrs (g_heap s) z0)) eq_refl). rewrite read_len, El in Hb by done. apply Hb. unfold view. by rewrite E0. }
    assert (ptrs (g_heap s) (HSl (l_arr z0) (l_off z0 + i) (j - i)) = take (j - i) (drop i (ptrs (g_heap s) z0))) as Ep.
    { unfold ptrs. cbn [l_arr l_off l_len]. rewrite <- drop_drop, skipn_firstn_comm, take_take. f_equal. lia. }
    split; [split; cbn [g_heap g_objs g_cache]|].
    + intros n k z. rewrite held_set. destruct (decide _); [|by apply S1]. intros [= <-]. split; cbn [l_arr l_off l_len]; [done|lia].
    + intros n k z. rewrite held_set. destruct (decide _); [|by apply S2]. intros [= <-]. rewrite Ep. by apply real_take, real_drop.
    + intros n k z k1 z'. rewrite held_set. destruct (decide _); [|by apply S3]. intros [= <-] Hz' E. cbn [l_arr l_off l_len] in *. pose proof (S3 _ _ _ _ _ E0 Hz' E). lia.
    + intros n k. unfold view. rewrite held_set. cbn [g_heap g_objs]. pose proof (held_lt _ _ _ _ E0) as Hl. destruct (decide ((n, k) = (n0, k0))) as [[= -> ->]|Hne].
      * rewrite decide_True by done. rewrite E0. cbn [fmap option_fmap option_map]. f_equal. rewrite Ep. by apply read_cut.
      * rewrite decide_False; [done|]. by intros [? _].
Qed.
(** The map itself is the user's: each step changes what it should, and none of the daemon's does. *)
Theorem C114_own_map_partial ls l s s' n k : Forall only_reads (ls ++ [l]) -> within (ls ++ [l]) -> grun ls ginit = Some s -> gstep l s = Some s' ->
  view s' n k = view_after s l n k.
Proof.
  intros HF HW Hr Hs. assert (forall ls s, Forall only_reads ls -> within ls -> grun ls ginit = Some s -> snug s) as Hinv.
  { clear. intros ls. induction ls as [|l ls IH] using rev_ind; intros s HF HW Hr.
    - injection Hr as <-. split; intros *; cbn; done.
    - apply grun_snoc in Hr as (s1 & Hr & Hs). apply Forall_app in HF as [HF HF1]. apply Forall_inv in HF1. eapply snug_step; [|eapply IH; [done| |done]|done|done|].
      + apply (run_ok ls); [done|]. intros l1 l0 l2 s2 -> _. apply Forall_app in HF as [_ HF]. apply Forall_inv in HF. split; [intros c Hw _|intros p Hw _]; by destruct l0.
      + intros l1 n k a b l2 s2 v -> H1 H2. eapply (HW l1 n k a b (l2 ++ [l])); [by rewrite <- app_assoc|done|done].
      + intros n k a b v -> Hv. by eapply (HW ls n k a b []). }
  apply Forall_app in HF as [HF HF1]. apply Forall_inv in HF1. eapply snug_step; [|eapply Hinv; [exact HF| |done]|done|done|].
  - apply (run_ok ls); [done|]. intros l1 l0 l2 s2 -> _. apply Forall_app in HF as [_ HF]. apply Forall_inv in HF. split; [intros c Hw _|intros p Hw _]; by destruct l0.
  - intros l1 n1 k1 a b l2 s2 v -> H1 H2. eapply (HW l1 n1 k1 a b (l2 ++ [l])); [by rewrite <- app_assoc|done|done].
  - intros n1 k1 a b v -> Hv. by eapply (HW ls n1 k1 a b []).
Qed.
(** Without the condition on cutting: of a slice cut up to the capacity, the daemon's next addition becomes part. *)
Theorem C114_own_map_refuted : exists ls l s s' n k, Forall only_reads (ls ++ [l]) /\ grun ls ginit = Some s /\ gstep l s = Some s' /\
  match l with GAdd _ _ _ => True | _ => False end /\ view s' n k <> view s n k.
Proof.
  assert (exists a, a_effect a = None) as [a Ha].
  { destruct (to_assertion a_all) as [|a l] eqn:Ea; [vm_compute in Ea; discriminate Ea|]. exists a. vm_compute in Ea. by injection Ea as <- _. }
  exists [GAdd rk a 0; GAdd rk a 2; GShow; GSub 0 rk 0 3], (GAdd rk a 0).
  destruct (grun [GAdd rk a 0; GAdd rk a 2; GShow; GSub 0 rk 0 3] ginit) as [s|] eqn:Es; [|cbn in Es; by rewrite Ha in Es].
  destruct (gstep (GAdd rk a 0) s) as [s'|] eqn:Es'.
  - exists s, s', 0%nat, rk. split; [repeat constructor|]. split_and!; [done|done|done|]. cbn in Es. rewrite Ha in Es. cbn in Es. injection Es as <-.
    cbn in Es'. rewrite Ha in Es'. cbn in Es'. injection Es' as <-. cbn. discriminate.
  - cbn in Es. rewrite Ha in Es. cbn in Es. injection Es as <-. cbn in Es'. by rewrite Ha in Es'.
Qed.
(** ** A concrete case *)
(** A user empties the map they got and cuts a list: the check goes on as before. *)
Definition reader : list glabel := adds [d_sec; a_all] 1 ++ [GShow; GShow; GSub 0 rk 0 1; GDel 1 rk; GSet 1 (B "x") 0 rk] ++ adds [a_doc] 0.
Example C114_nonvacuous : Forall only_reads reader /\ option_map in_cache (grun reader ginit) = Some (by_daemon reader) /\
  option_map (fun s => map_size (in_cache s)) (grun reader ginit) = Some 1%nat /\
  seen reader 6 2 (B "read") (B "secret") = Some (Err ErrDenyByPolicy).
Proof.
  assert (Forall only_reads reader) as HF by (vm_compute; repeat constructor). split; [done|].
  destruct (seen_checked reader 6 2 (B "read") (B "secret") (Err ErrDenyByPolicy)) as (s & Hs & _); [vm_compute; reflexivity|].
  split; [rewrite Hs; cbn [option_map]; f_equal; by apply C114_readers|]. split; vm_compute; reflexivity.
Qed.
(** A write into a list that is no longer in the cache is harmless. *)
Lemma all_harmless_snoc ls l : all_harmless ls -> (forall s, grun ls ginit = Some s -> harmless s l) -> all_harmless (ls ++ [l]).
Proof.
  intros H Hl l1 l0 l2 s E Hr. destruct l2 as [|x l2 _] using rev_ind.
  - apply app_inj_tail in E as [-> ->]. by apply Hl.
  - change (l0 :: l2 ++ [x]) with ((l0 :: l2) ++ [x]) in E. rewrite app_assoc in E. apply app_inj_tail in E as [-> _]. by apply (H l1 l0 l2).
Qed.
Lemma reads_harmless ls : Forall only_reads ls -> all_harmless ls.
Proof. intros HF l1 l l2 s -> _. apply Forall_app in HF as [_ HF]. apply Forall_inv in HF. split; [intros c Hw _|intros p Hw _]; by destruct l. Qed.
Example C114_harmless_write a0 a : all_harmless [GAdd rk a0 0; GShow; GDrop rk; GWrite 0 rk 0 a] /\
  is_Some (grun [GAdd rk a0 0; GShow; GDrop rk; GWrite 0 rk 0 a] ginit).
Proof.
  split; [|by eexists]. apply (all_harmless_snoc [GAdd rk a0 0; GShow; GDrop rk]); [apply reads_harmless; repeat constructor|].
  intros s Hs. assert (g_cache s = delete rk (<[rk := HSl 0 0 1]> ∅)) as E by (cbn [grun] in Hs; by injection Hs as <-).
  assert (forall k z, g_cache s !! k = Some z -> False) as Hno.
  { intros k z. rewrite E. intros [Hne [[<- _]|[_ H]]%lookup_insert_Some]%lookup_delete_Some; [done|]. by rewrite lookup_empty in H. }
  split; [intros c _ (k & z & Hz & _)|intros p _ (k & z & Hz & _)]; exact (Hno _ _ Hz).
Qed.

(** A map that is kept while the daemon goes on. *)
Lemma within_snoc ls l : within ls -> (forall n k a b s v, l = GSub n k a b -> grun ls ginit = Some s -> view s n k = Some v -> (b <= length v)%nat) -> within (ls ++ [l]).
Proof.
  intros H Hl l1 n k a b l2 s v E Hr Hv. destruct l2 as [|x l2 _] using rev_ind.
  - apply app_inj_tail in E as [-> ->]. by eapply Hl.
  - change (GSub n k a b :: l2 ++ [x]) with ((GSub n k a b :: l2) ++ [x]) in E. rewrite app_assoc in E. apply app_inj_tail in E as [-> _]. by eapply (H l1 n k a b l2).
Qed.
Example C114_kept_map a b : exists s s', Forall only_reads [GAdd rk a 0; GShow; GSub 0 rk 0 1; GDrop rk] /\ within [GAdd rk a 0; GShow; GSub 0 rk 0 1; GDrop rk; GAdd rk b 0] /\
  grun [GAdd rk a 0; GShow; GSub 0 rk 0 1; GDrop rk] ginit = Some s /\ gstep (GAdd rk b 0) s = Some s' /\ view s 0 rk = Some [a] /\ view s' 0 rk = Some [a] /\ in_cache s' !! rk = Some [b].
Proof.
  eexists. eexists. split; [repeat constructor|]. split.
  - apply (within_snoc [GAdd rk a 0; GShow; GSub 0 rk 0 1; GDrop rk]); [|by intros]. apply (within_snoc [GAdd rk a 0; GShow; GSub 0 rk 0 1]); [|by intros].
    apply (within_snoc [GAdd rk a 0; GShow]).
    + apply (within_snoc [GAdd rk a 0]); [|by intros]. apply (within_snoc []); [|by intros]. intros l1 n k i j l2 s v E. by destruct l1.
    + intros n k i j s v [= <- <- <- <-] Hr. cbn in Hr. injection Hr as <-. cbn. intros [= <-]. done.
  - split_and!; reflexivity.
Qed.

Print Assumptions C114_own_cache_partial.
Print Assumptions C114_readers.
Print Assumptions C114_writes_are_felt.
Print Assumptions C114_own_cache_refuted.
Print Assumptions C114_fields_refuted.
Print Assumptions C114_append_refuted.
Print Assumptions C114_checks_partial.
Print Assumptions C114_own_map_partial.
Print Assumptions C114_own_map_refuted.
Print Assumptions C114_nonvacuous.
