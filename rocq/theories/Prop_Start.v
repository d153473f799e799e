(** * Property C65: the authority's Start *)
From Verif Require Import Prop_Daemon Daemon.
From Verif Require Export GoStrings.

Global Instance loc_eq_dec : EqDecision loc.
Proof. solve_decision. Defined.
Definition areaches (pub pol jw : bool) (ls : list alabel) (s : ast) : Prop := arun ls (ainit pub pol jw) = Some s.
(** The errors Update of child [i] returned, in order. *)
Definition kid_failures (i : nat) (ls : list alabel) : list str :=
  ls ≫= fun l => match l with AKid j l => if Nat.eqb j i then failure l else [] | _ => [] end.
(** The messages of child [i] in a log of (child, message) pairs. *)
Definition from (i : nat) (log : list (nat * str)) : list str := map snd (List.filter (fun p => Nat.eqb (fst p) i) log).
(** How a message of child [i] reads on the authority's channel: it says which daemon it is from. *)
Definition source (i : nat) : str :=
  match i with 0%nat => B "update pubkey error" | 1%nat => B "update policy error" | _ => B "update jwk error" end.
Definition tagged (p : nat * str) : str := source (fst p) ++ B ": " ++ snd p.

Lemma arun_app ls1 ls2 s : arun (ls1 ++ ls2) s = match arun ls1 s with Some s' => arun ls2 s' | None => None end.
Proof. revert s. induction ls1 as [|l ls1 IH]; intros s; [done|]. cbn [app arun]. destruct (astep l s); [apply IH|done]. Qed.
Lemma areaches_ind pub pol jw (P : list alabel -> ast -> Prop) : P [] (ainit pub pol jw) ->
  (forall ls s l s', areaches pub pol jw ls s -> P ls s -> astep l s = Some s' -> P (ls ++ [l]) s') ->
  forall ls s, areaches pub pol jw ls s -> P ls s.
Proof.
  intros H0 HS ls. induction ls as [|l ls IH] using rev_ind; intros s H.
  - unfold areaches in H. cbn [arun] in H. by injection H as <-.
  - unfold areaches in H. rewrite arun_app in H. destruct (arun ls (ainit pub pol jw)) as [s1|] eqn:E; [|done]. cbn [arun] in H.
    destruct (astep l s1) as [s2|] eqn:E2; [|done]. injection H as <-. apply (HS _ s1); auto.
Qed.

Definition pending (l : aloc) : list str := match l with ASend m => [m] | _ => [] end.
(** A child's run inside the authority. *)
Definition kid_ok (ls : list alabel) (log : list (nat * str)) (cx : option str) (i : nat) (k : rst) : Prop :=
  (exists kls, reaches (kid_kind i) (kid_prefix i) kls k /\ failures kls = kid_failures i ls /\ (forall e, cancelled kls e -> ACancel e ∈ ls)) /\
  r_got k = from i log /\ r_ctx k = cx.
Definition start_ok (ls : list alabel) (s : ast) : Prop :=
  exists log, (forall i k, s_kids s !! i = Some (Some k) -> kid_ok ls log (s_ctx s) i k) /\
    (forall i m, (i, m) ∈ log -> exists k, s_kids s !! i = Some (Some k)) /\
    (forall e, s_ctx s = Some e -> ACancel e ∈ ls) /\
    match s_loc s with
    | ABye e => ACancel e ∈ ls /\ s_cleared s = true /\ s_got s ++ s_ech s = map tagged log
    | AEnd => s_cleared s = true /\ exists e, ACancel e ∈ ls /\ s_got s ++ s_ech s = map tagged log ++ [e]
    | l => s_got s ++ s_ech s ++ pending l = map tagged log
    end.
Lemma kid_failures_snoc i ls l : kid_failures i (ls ++ [l]) = kid_failures i ls ++ (match l with AKid j l => if Nat.eqb j i then failure l else [] | _ => [] end).
Proof. unfold kid_failures. rewrite bind_app. cbn. by rewrite app_nil_r. Qed.
Lemma in_snoc {A} (x : A) ls l : x ∈ ls -> x ∈ ls ++ [l].
Proof. intros. apply elem_of_app. by left. Qed.
Lemma in_last {A} (x : A) ls : x ∈ ls ++ [x].
Proof. apply elem_of_app. right. by apply elem_of_list_singleton. Qed.
Lemma reaches_snoc k pre ls s l s' : reaches k pre ls s -> rstep k pre l s = Some s' -> reaches k pre (ls ++ [l]) s'.
Proof. unfold reaches. intros H1 H2. rewrite rrun_app, H1. cbn [rrun]. by rewrite H2. Qed.
Lemma kid_mono ls log cx i k l : (match l with AKid j _ => j <> i | _ => True end) -> kid_ok ls log cx i k -> kid_ok (ls ++ [l]) log cx i k.
Proof.
  intros Hl [(kls & H1 & H2 & H3) H4]. split; [|done]. exists kls. split_and!; [done| |intros; apply in_snoc; auto].
  rewrite kid_failures_snoc, H2. destruct l; rewrite ?app_nil_r; try done. apply Nat.eqb_neq in Hl. rewrite Hl. by rewrite app_nil_r.
Qed.
Lemma rstep_got k pre l s s' : rstep k pre l s = Some s' -> l <> RRecv -> r_got s' = r_got s.
Proof. intros H Hl. destruct s as [lo re ti ec bu go cx]. destruct l; try done; step_cases H; repeat case_match; done. Qed.
Lemma rstep_ctx k pre l s s' : rstep k pre l s = Some s' -> (forall e, l <> RCancel e) -> r_ctx s' = r_ctx s.
Proof. intros H Hl. destruct s as [lo re ti ec bu go cx]. destruct l; try (by destruct (Hl e)); step_cases H; repeat case_match; done. Qed.
Lemma start_inv pub pol jw ls s : areaches pub pol jw ls s -> start_ok ls s.
Proof.
  apply (areaches_ind pub pol jw start_ok).
  { exists []. cbn [ainit s_kids s_ctx s_loc s_got s_ech]. split_and!; [|by intros i m H; apply elem_of_nil in H|done|done]. intros i k Hk. assert (k = rinit) as ->.
    { destruct i as [|[|[|i]]]; cbn in Hk; [destruct pub|destruct pol|destruct jw|]; by simplify_eq. }
    split; [|done]. exists []. split_and!; [done|done|]. intros e He. by apply elem_of_nil in He. }
  clear. intros ls s l s' _ (log & H1 & H2 & H3 & H4) H. destruct l as [i l|e| |i| |]; unfold astep in H.
  - (* AKid *) destruct (s_kids s !! i) as [[k|]|] eqn:Ek; [|by destruct l..].
    assert (exists k', rstep (kid_kind i) (kid_prefix i) l k = Some k' /\ s' = set_kids (<[i := Some k']> (s_kids s)) s /\ l <> RRecv /\ forall e, l <> RCancel e) as (k' & Hs & -> & Hl1 & Hl2).
    { destruct l; try done; (destruct (rstep _ _ _ k) as [k'|] eqn:E; [|done]); cbn [option_map] in H; injection H as <-; by exists k'. }
    clear H. exists log. unfold set_kids. cbn [s_kids s_ctx s_loc s_got s_ech s_cleared]. split_and!.
    + intros j kj Hj. destruct (decide (j = i)) as [-> |Hne].
      * rewrite list_lookup_insert in Hj by (by eapply lookup_lt_Some). injection Hj as <-. destruct (H1 i k Ek) as [(kls & R1 & R2 & R3) [R4 R5]]. split.
        -- exists (kls ++ [l]). split_and!; [by eapply reaches_snoc| |].
           ++ rewrite failures_snoc, kid_failures_snoc, R2. by rewrite Nat.eqb_refl.
           ++ intros e He. apply elem_of_app in He as [He|He]; [apply in_snoc; auto|]. apply elem_of_list_singleton in He. by destruct (Hl2 e).
        -- by rewrite (rstep_got _ _ _ _ _ Hs), (rstep_ctx _ _ _ _ _ Hs).
      * rewrite list_lookup_insert_ne in Hj by done. apply kid_mono; auto.
    + intros j m Hj. destruct (H2 j m Hj) as [kj Hkj]. destruct (decide (j = i)) as [-> |Hne]; [|exists kj; by rewrite list_lookup_insert_ne].
      exists k'. by rewrite list_lookup_insert by (by eapply lookup_lt_Some).
    + intros e He. apply in_snoc. auto.
    + destruct (s_loc s); try done; [|destruct H4 as [H5 (e & H6 & H7)]; split; [done|]; exists e; split; [by apply in_snoc|done]]. destruct H4. split; [by apply in_snoc|done].
  - (* ACancel *) destruct (s_ctx s) as [c|] eqn:Ec; [done|]. injection H as <-. exists log. cbn [s_kids s_ctx s_loc s_got s_ech s_cleared]. split_and!.
    + intros j kj Hj. rewrite list_lookup_fmap in Hj. destruct (s_kids s !! j) as [[k|]|] eqn:Ek; cbn in Hj; try done. injection Hj as <-. destruct (H1 j k Ek) as [(kls & R1 & R2 & R3) [R4 R5]].
      split; [|done]. exists (kls ++ [RCancel e]). split_and!.
      * eapply reaches_snoc; [done|]. cbn. by rewrite R5.
      * rewrite failures_snoc, kid_failures_snoc, R2. done.
      * intros x Hx. apply elem_of_app in Hx as [Hx|Hx]; [apply in_snoc; auto|]. apply elem_of_list_singleton in Hx as [= ->]. apply in_last.
    + intros j m Hj. destruct (H2 j m Hj) as [kj Hkj]. rewrite list_lookup_fmap, Hkj. by eexists.
    + intros x [= ->]. apply in_last.
    + destruct (s_loc s); try done; [|destruct H4 as [H5 (x & H6 & H7)]; split; [done|]; exists x; split; [by apply in_snoc|done]]. destruct H4. split; [by apply in_snoc|done].
  - (* ADone *) destruct (s_loc s) eqn:El; try done. destruct (s_ctx s) as [e|] eqn:Ec; [|done]. injection H as <-. exists log. cbn [s_kids s_ctx s_loc s_got s_ech s_cleared]. cbn [pending] in H4. rewrite app_nil_r in H4. split_and!; try done.
    + intros. apply kid_mono; auto.
    + intros. apply in_snoc; auto.
    + apply in_snoc. auto.
  - (* ATake *) destruct (s_loc s) eqn:El; try done. destruct (s_kids s !! i) as [[k|]|] eqn:Ek; try done. destruct (r_ech k) as [|m q] eqn:Eq.
    + assert (s' = s) as -> by (destruct (r_loc k); by simplify_eq). exists log. split_and!; [intros; apply kid_mono; auto|done|intros; apply in_snoc; auto|by rewrite El].
    + cbn [rstep] in H. rewrite Eq in H. cbn [option_map] in H. injection H as <-. exists (log ++ [(i, m)]). unfold set_aloc, set_kids. cbn [s_kids s_ctx s_loc s_got s_ech s_cleared]. split_and!.
      * intros j kj Hj. destruct (decide (j = i)) as [-> |Hne].
        -- rewrite list_lookup_insert in Hj by (by eapply lookup_lt_Some). injection Hj as <-. destruct (H1 i k Ek) as [(kls & R1 & R2 & R3) [R4 R5]]. split; [|split; [|done]].
           ++ exists (kls ++ [RRecv]). split_and!; [eapply reaches_snoc; [done|]; cbn; by rewrite Eq|by rewrite failures_snoc, kid_failures_snoc, R2|].
              intros e He. apply elem_of_app in He as [He|He]; [apply in_snoc; auto|]. by apply elem_of_list_singleton in He.
           ++ cbn [r_got]. unfold from. rewrite List.filter_app, map_app. cbn [List.filter fst]. rewrite Nat.eqb_refl. by rewrite R4.
        -- rewrite list_lookup_insert_ne in Hj by done. destruct (kid_mono ls log (s_ctx s) j kj (ATake i) I (H1 _ _ Hj)) as [K1 [K2 K3]]. split; [done|split; [|done]]. rewrite K2. unfold from. rewrite List.filter_app, map_app. cbn [List.filter fst].
           assert (Nat.eqb i j = false) as -> by (by apply Nat.eqb_neq). by rewrite app_nil_r.
      * intros j x Hj. destruct (decide (j = i)) as [-> |Hne]; [eexists; by rewrite list_lookup_insert by (by eapply lookup_lt_Some)|]. apply elem_of_app in Hj as [Hj|Hj]; [|apply elem_of_list_singleton in Hj; congruence].
        destruct (H2 j x Hj) as [kj Hkj]. exists kj. by rewrite list_lookup_insert_ne.
      * intros e He. apply in_snoc. auto.
      * cbn [pending] in *. rewrite map_app, app_assoc. rewrite app_nil_r in H4. by rewrite H4.
  - (* AStep *) destruct (s_loc s) eqn:El; try done; (destruct (_ <? _)%nat; [|done]); injection H as <-; exists log; cbn [s_kids s_ctx s_loc s_got s_ech s_cleared]; (split; [intros; apply kid_mono; auto|]; split; [done|]; split; [intros; apply in_snoc; auto|]).
    + cbn [pending] in *. by rewrite app_nil_r.
    + destruct H4 as (H5 & H6 & H7). split; [done|]. exists m. split; [by apply in_snoc|]. by rewrite app_assoc, H7.
  - (* ARecv *) destruct (s_ech s) as [|m q] eqn:Eq; [done|]. injection H as <-. exists log. cbn [s_kids s_ctx s_loc s_got s_ech s_cleared]. rewrite <- !app_assoc. cbn [app]. split_and!; [intros; apply kid_mono; auto|done|intros; apply in_snoc; auto|].
    destruct (s_loc s).
    + exact H4.
    + rewrite <- ?app_assoc. exact H4.
    + destruct H4 as (? & ? & H4). split_and!; [by apply in_snoc|done|]. rewrite <- ?app_assoc. exact H4.
    + destruct H4 as (? & e & ? & H4). split; [done|]. exists e. split; [by apply in_snoc|]. rewrite <- ?app_assoc. exact H4.
Qed.

(** Errors child [i] could report so far. *)
Definition reports (i : nat) : str :=
  match i with 0%nat => B "error update pubkey" | 1%nat => B "error update policy" | _ => B "error update athenz json web key" end.
Definition child_stream (i : nat) (ls : list alabel) : list str := map (fun e => reports i ++ B ": " ++ e) (kid_failures i ls).
Lemma child_stream_wrap i ls : child_stream i ls = map (wrap (kid_prefix i)) (kid_failures i ls).
Proof. reflexivity. Qed.

Definition last_words (s : ast) (ls : list alabel) (rest : list str) : Prop :=
  match s_loc s with AEnd => exists e, ACancel e ∈ ls /\ rest = [e] | _ => rest = [] end.
(** pubkeyd (0) and policyd (1): what was taken is a prefix of the errors, or all of them and then
    the error of the context. *)
Definition in_order (i : nat) (ls : list alabel) (got : list str) : Prop :=
  (exists tail, child_stream i ls = got ++ tail) \/ exists e, ACancel e ∈ ls /\ got = child_stream i ls ++ [e].
(** jwkd (2): the same with consecutive errors merged. *)
Definition in_order_merged (i : nat) (ls : list alabel) (got : list str) : Prop :=
  exists blocks tail, child_stream i ls = concat blocks ++ tail /\ Forall (fun b => b <> []) blocks /\
    (got = map merged blocks \/ exists e, ACancel e ∈ ls /\ got = map merged blocks ++ [farewell tail e]).
Lemma from_nil i log : (forall m, (i, m) ∉ log) -> from i log = [].
Proof.
  intros H. unfold from. induction log as [|[j m] log IH]; [done|]. cbn [List.filter fst]. destruct (Nat.eqb j i) eqn:E.
  - apply Nat.eqb_eq in E as ->. destruct (H m). left.
  - apply IH. intros x Hx. destruct (H x). by right.
Qed.
Lemma kid_in_order ls log cx i k : (i < 2)%nat -> kid_ok ls log cx i k -> in_order i ls (from i log).
Proof.
  intros Hi [(kls & R1 & R2 & R3) [<- _]]. unfold in_order. rewrite !child_stream_wrap. rewrite <- R2. assert (kid_kind i = Sending) as Ek by (destruct i as [|[|i]]; [done|done|lia]). rewrite Ek in R1.
  destruct (decide (r_loc k = LEnd)) as [He|He].
  - destruct (C62_closing _ _ _ R1 He) as (e & H1 & H2). destruct (r_ech k) as [|m q _] eqn:Eq using rev_ind.
    + right. exists e. split; [auto|]. by rewrite app_nil_r in H2.
    + left. exists q. rewrite app_assoc in H2. by apply app_inj_tail in H2 as [<- _].
  - destruct (C62_errors_in_order _ _ _ R1 He) as (rest & -> & _). left. by eexists.
Qed.
Lemma kid_in_order_merged ls log cx k : kid_ok ls log cx 2 k -> in_order_merged 2 ls (from 2 log).
Proof.
  intros [(kls & R1 & R2 & R3) [<- _]]. unfold in_order_merged. rewrite !child_stream_wrap. rewrite <- R2. cbn [kid_kind] in R1.
  assert (forall (g q : list str) blocks, g ++ q = map merged blocks -> Forall (fun b => b <> []) blocks -> exists b1 b2, blocks = b1 ++ b2 /\ g = map merged b1 /\ Forall (fun b => b <> []) b1) as Hsplit.
  { clear. intros g q bl H Hf. symmetry in H. apply fmap_app_inv in H as (b1 & b2 & -> & -> & ->). exists b1, b2. split_and!; [done..|]. by apply Forall_app in Hf as [? _]. }
  destruct (decide (r_loc k = LEnd)) as [He|He].
  - destruct (C62_jwk_closing _ _ _ R1 He) as (bl & kept & e & H1 & H2 & H3 & H4). destruct (r_ech k) as [|m q _] eqn:Eq using rev_ind.
    + rewrite app_nil_r in H4. exists bl, kept. split_and!; [done|done|]. right. exists e. auto.
    + rewrite app_assoc in H4. apply app_inj_tail in H4 as [H4 _]. destruct (Hsplit _ _ _ H4 H2) as (b1 & b2 & -> & Hg & Hf). exists b1, (concat b2 ++ kept). split_and!; [by rewrite H1, concat_app, <- app_assoc|done|by left].
  - destruct (C62_jwk_errors_in_order _ _ _ R1 He) as (bl & rest & H1 & H2 & H3). destruct (Hsplit _ _ _ H3 H2) as (b1 & b2 & -> & Hg & Hf). exists b1, (concat b2 ++ rest). split_and!; [by rewrite H1, concat_app, <- app_assoc|done|by left].
Qed.
(** Everything delivered is a tagged message of a child, and each child's messages keep their
    order, none repeated or made up; at the end comes the error of the context. *)
Theorem C65_fan_in pub pol jw ls s : areaches pub pol jw ls s ->
  exists log rest, map tagged log ++ rest = s_got s ++ s_ech s ++ pending (s_loc s) /\ last_words s ls rest /\
    (forall i m, (i, m) ∈ log -> (i < 3)%nat /\ [pub; pol; jw] !! i = Some true) /\
    in_order 0 ls (from 0 log) /\ in_order 1 ls (from 1 log) /\ in_order_merged 2 ls (from 2 log).
Proof.
  intros H. pose proof (start_inv _ _ _ _ _ H) as (log & H1 & H2 & H3 & H4).
  assert (exists rest, map tagged log ++ rest = s_got s ++ s_ech s ++ pending (s_loc s) /\ last_words s ls rest) as (rest & Hr1 & Hr2).
  { unfold last_words. destruct (s_loc s); cbn [pending] in *.
    - exists []. by rewrite !app_nil_r in *.
    - exists []. by rewrite app_nil_r in *.
    - exists []. destruct H4 as (_ & _ & H4). by rewrite !app_nil_r.
    - destruct H4 as (_ & e & He & H4). exists [e]. split; [by rewrite app_nil_r|by exists e]. }
  exists log, rest. split_and!; [done|done| |..].
  - assert (forall i k, s_kids s !! i = Some (Some k) -> [pub; pol; jw] !! i = Some true) as Hk.
    { clear -H. revert ls s H. apply (areaches_ind pub pol jw (fun _ s => forall i k, s_kids s !! i = Some (Some k) -> [pub; pol; jw] !! i = Some true)).
      - intros i k. cbn [ainit s_kids]. destruct i as [|[|[|i]]]; cbn; intros Hk; [destruct pub|destruct pol|destruct jw|]; by simplify_eq.
      - clear. intros ls s l s' _ IH H i k Hi.
        assert (exists k', s_kids s !! i = Some (Some k')) as [k' Hk']; [|by eapply IH].
        destruct l as [j l|e| |j| |]; unfold astep in H.
        + destruct (s_kids s !! j) as [[kj|]|] eqn:Ej; [|by destruct l..].
          assert (exists k', s' = set_kids (<[j := Some k']> (s_kids s)) s) as [k' ->].
          { destruct l; try done; (destruct (rstep _ _ _ kj) as [k'|] eqn:E; [|done]); cbn [option_map] in H; injection H as <-; by exists k'. }
          cbn [set_kids s_kids] in Hi. destruct (decide (i = j)) as [-> |Hne]; [by eexists|]. rewrite list_lookup_insert_ne in Hi by done. by eexists.
        + destruct (s_ctx s); [done|]. injection H as <-. cbn [s_kids] in Hi. rewrite list_lookup_fmap in Hi. destruct (s_kids s !! i) as [[kj|]|]; cbn in Hi; try done. by eexists.
        + destruct (s_loc s); try done. destruct (s_ctx s); [|done]. injection H as <-. by eexists.
        + destruct (s_loc s); try done. destruct (s_kids s !! j) as [[kj|]|] eqn:Ej; try done. destruct (r_ech kj) eqn:Eq; [destruct (r_loc kj); simplify_eq; by eexists|].
          cbn [rstep] in H. rewrite Eq in H. cbn [option_map] in H. injection H as <-. cbn [set_aloc set_kids s_kids] in Hi. destruct (decide (i = j)) as [-> |Hne]; [by eexists|]. rewrite list_lookup_insert_ne in Hi by done. by eexists.
        + destruct (s_loc s); try done; (destruct (_ <? _)%nat; [|done]); injection H as <-; by eexists.
        + destruct (s_ech s); [done|]. injection H as <-. by eexists. }
    intros i m Hi. destruct (H2 i m Hi) as [k Hkk]. apply Hk in Hkk. split; [|done]. by apply lookup_lt_Some in Hkk.
  - destruct (s_kids s !! 0%nat) as [[k|]|] eqn:Ek; [by apply (kid_in_order ls log (s_ctx s) 0 k); [lia|apply H1]|..]; rewrite (from_nil 0 log) by (intros m Hm; apply H2 in Hm as [? ?]; congruence); left; by eexists.
  - destruct (s_kids s !! 1%nat) as [[k|]|] eqn:Ek; [by apply (kid_in_order ls log (s_ctx s) 1 k); [lia|apply H1]|..]; rewrite (from_nil 1 log) by (intros m Hm; apply H2 in Hm as [? ?]; congruence); left; by eexists.
  - destruct (s_kids s !! 2%nat) as [[k|]|] eqn:Ek; [by apply (kid_in_order_merged ls log (s_ctx s) k), H1|..]; rewrite (from_nil 2 log) by (intros m Hm; apply H2 in Hm as [? ?]; congruence); exists [], (child_stream 2 ls); (split_and!; [done|constructor|by left]).
Qed.
(** Closing: only after the context ended, with its error last, and with the cache emptied. *)
Theorem C65_closing pub pol jw ls s : areaches pub pol jw ls s -> s_loc s = AEnd -> s_cleared s = true /\ exists e l, ACancel e ∈ ls /\ s_got s ++ s_ech s = l ++ [e].
Proof. intros H He. apply start_inv in H as (log & _ & _ & _ & H). rewrite He in H. destruct H as (Hc & e & H1 & H2). split; [done|]. by exists e, (map tagged log). Qed.
(** And the cache is not emptied before. *)
Theorem C65_kept_until_the_end pub pol jw ls s : areaches pub pol jw ls s -> s_cleared s = true -> (s_loc s = AEnd \/ exists e, s_loc s = ABye e) /\ exists e, ACancel e ∈ ls.
Proof.
  intros H Hc. assert (s_loc s = AEnd \/ exists e, s_loc s = ABye e) as Hl.
  { revert Hc. apply (areaches_ind pub pol jw (fun _ s => s_cleared s = true -> s_loc s = AEnd \/ exists e, s_loc s = ABye e)) with (ls := ls); [done| |done]. clear. intros ls s l s' _ IH H.
    destruct l as [j l|e| |j| |]; unfold astep in H.
    - destruct (s_kids s !! j) as [[kj|]|]; [|by destruct l..]. destruct l; try done; (destruct (rstep _ _ _ kj); [|done]); by injection H as <-.
    - destruct (s_ctx s); [done|]. by injection H as <-.
    - destruct (s_loc s); try done. destruct (s_ctx s) as [e|]; [|done]. injection H as <-. intros _. right. by exists e.
    - destruct (s_loc s) eqn:El; try done. destruct (s_kids s !! j) as [[kj|]|]; try done. destruct (r_ech kj); [destruct (r_loc kj); try done; injection H as <-; rewrite El; done|]. destruct (rstep _ _ _ kj); [|done]. injection H as <-. cbn. intros Hc. destruct (IH Hc) as [?|[? ?]]; done.
    - destruct (s_loc s) eqn:El; try done; (destruct (length (s_ech s) <? acap)%nat; [|done]); injection H as <-; cbn [s_loc s_cleared]; intros Hc; [destruct (IH Hc) as [?|[? ?]]; done|by left].
    - destruct (s_ech s); [done|]. by injection H as <-. }
  split; [done|]. apply start_inv in H as (log & _ & _ & _ & H). destruct Hl as [Hl|[e Hl]]; rewrite Hl in H; [destruct H as (_ & e & ? & _)|destruct H as [? _]]; by exists e.
Qed.
(** If nobody reads Start's channel, pubkeyd and policyd stop after at most 302 errors. *)
Theorem C65_backlog_bound pub pol jw ls s i k : areaches pub pol jw ls s -> (i < 2)%nat -> s_kids s !! i = Some (Some k) ->
  (length (kid_failures i ls) <= length (s_got s) + 302)%nat.
Proof.
  intros H Hi Hk. assert (length (s_ech s) <= 200)%nat as He.
  { clear -H. apply (areaches_ind pub pol jw (fun _ s => (length (s_ech s) <= 200)%nat)) in H; [done|cbn; lia|]. clear. intros ls s l s' _ IH H.
    destruct l as [j l|e| |j| |]; unfold astep in H.
    - destruct (s_kids s !! j) as [[kj|]|]; [|by destruct l..]. destruct l; try done; (destruct (rstep _ _ _ kj); [|done]); by injection H as <-.
    - destruct (s_ctx s); [done|]. by injection H as <-.
    - destruct (s_loc s); try done. destruct (s_ctx s); [|done]. by injection H as <-.
    - destruct (s_loc s); try done. destruct (s_kids s !! j) as [[kj|]|]; try done. destruct (r_ech kj); [destruct (r_loc kj); by simplify_eq|]. destruct (rstep _ _ _ kj); [|done]. by injection H as <-.
    - unfold acap in H. destruct (s_loc s); try done; (destruct (length (s_ech s) <? 200)%nat eqn:E; [|done]); injection H as <-; cbn [s_ech]; rewrite app_length; cbn; lia.
    - destruct (s_ech s); [done|]. injection H as <-. cbn in *. lia. }
  apply start_inv in H as (log & H1 & _ & _ & H4). destruct (H1 i k Hk) as [(kls & R1 & R2 & _) [R4 _]].
  assert (kid_kind i = Sending) as Ek by (destruct i as [|[|i]]; [done|done|lia]). rewrite Ek in R1. apply C63_backlog_bound in R1. rewrite R2, R4 in R1.
  assert (length (from i log) <= length log)%nat.
  { unfold from. rewrite map_length. clear. induction log as [|x log IH]; [done|]. cbn [List.filter]. destruct (Nat.eqb _ _); cbn; lia. }
  assert (length (map tagged log) <= length (s_got s) + length (s_ech s) + 1)%nat as Hm.
  { destruct (s_loc s); cbn [pending] in H4; try (rewrite <- H4, !app_length; cbn; lia).
    - destruct H4 as (_ & _ & <-). rewrite app_length. lia.
    - destruct H4 as (_ & e & _ & H4). apply (f_equal length) in H4. rewrite !app_length in H4. cbn in H4. lia. }
  rewrite map_length in Hm. lia.
Qed.
Definition kid_fail (i : nat) (e : str) : list alabel := map (AKid i) (fail e).
Definition delivered (ls : list alabel) : option (aloc * list str) := option_map (fun s => (s_loc s, s_got s ++ s_ech s)) (arun ls (ainit true true true)).
(** Errors may be lost at shutdown: the authority does not drain its children. *)
Theorem C65_errors_can_be_lost_at_shutdown : exists ls s, areaches true true true ls s /\ kid_failures 1 ls = [B "x"] /\ s_loc s = AEnd /\ s_got s ++ s_ech s = [B "c"].
Proof. exists (kid_fail 1 (B "x") ++ [ACancel (B "c"); ADone; AStep]). eexists. split_and!; [vm_compute; reflexivity|vm_compute; reflexivity|done|done]. Qed.
Example C65_nonvacuous :
  delivered (kid_fail 1 (B "x") ++ kid_fail 0 (B "y") ++ [ATake 0; AStep; ATake 1; AStep; ARecv; AKid 1 RRetry; AKid 1 (RUpdated None); ACancel (B "c"); AKid 1 RDone; AKid 1 RStep; ATake 1; AStep; ATake 1; ADone; AStep]) =
  Some (AEnd, [B "update pubkey error: error update pubkey: y"; B "update policy error: error update policy: x"; B "update policy error: c"; B "c"]).
Proof. vm_compute. reflexivity. Qed.

Print Assumptions C65_fan_in.
Print Assumptions C65_closing.
Print Assumptions C65_kept_until_the_end.
Print Assumptions C65_backlog_bound.
Print Assumptions C65_errors_can_be_lost_at_shutdown.
Print Assumptions C65_nonvacuous.
