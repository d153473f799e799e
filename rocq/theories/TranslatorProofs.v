(** * Specification of mapping rules, and proofs *)
From Verif Require Export UnicodeFacts Translator.

(** ** What a rule says *)
(** "{...}" *)
Definition braced (s : str) : bool :=
  match s with "{"%char :: t => bool_decide (last t = Some "}"%char) | _ => false end.
(** A literal matches itself, a placeholder anything. *)
Definition fits (v : str) (p : param) : Prop := p_ph p = true \/ v = p_name p.
Definition rule_matches (U : unicode) (r : rule) (meth path query : str) : Prop :=
  to_lower U (r_method r) = to_lower U meth /\
  Forall2 fits (split "/"%char path) (r_split r) /\
  exists rq, parse_query query = Some rq /\
    (forall k, is_Some (rq !! k) <-> is_Some (r_query r !! k)) /\
    forall k vs p, rq !! k = Some vs -> r_query r !! k = Some p -> exists v, vs = [v] /\ fits v p.
(** The request's value for a placeholder. *)
Definition binds (r : rule) (path query : str) (n v : str) : Prop :=
  (exists i, split "/"%char path !! i = Some v /\ r_split r !! i = Some (Param n true)) \/
  (exists k rq, parse_query query = Some rq /\ rq !! k = Some [v] /\ r_query r !! k = Some (Param n true)).
(** Placeholder names are distinct. *)
Definition distinct_names (r : rule) : Prop :=
  (forall i j n, r_split r !! i = Some (Param n true) -> r_split r !! j = Some (Param n true) -> i = j) /\
  (forall k k' n, r_query r !! k = Some (Param n true) -> r_query r !! k' = Some (Param n true) -> k = k') /\
  (forall i k n, r_split r !! i = Some (Param n true) -> r_query r !! k = Some (Param n true) -> False).

(** ** Templates *)
Inductive piece := Lit (s : str) | Hole (x : str).
Definition render1 (p : piece) : str := match p with Lit s => s | Hole x => "{"%char :: x ++ ["}"%char] end.
Definition render (ps : list piece) : str := concat (map render1 ps).
(** Literal text has no opening brace, placeholder names have no brace. *)
Definition well_formed (ps : list piece) : Prop :=
  Forall (fun p => match p with Lit s => "{"%char ∉ s | Hole x => "{"%char ∉ x /\ "}"%char ∉ x end) ps.
Definition ph_name (x : str) : str := "{"%char :: x ++ ["}"%char].
(** Simultaneous substitution. *)
Definition fill (f : str -> option str) (p : piece) : piece :=
  match p with
  | Lit s => Lit s
  | Hole x => match f (ph_name x) with Some v => Lit v | None => Hole x end
  end.

(** ** Matching *)
Lemma match_path_some segs sp ph : length segs = length sp ->
  (exists ph', match_path segs sp ph = Some ph') <-> Forall2 fits segs sp.
Proof.
  revert sp ph. induction segs as [|s segs IH]; intros [|p sp] ph Hl; cbn in Hl; try done; cbn [match_path].
  - split; [constructor|by exists ph].
  - injection Hl as Hl. destruct (p_ph p) eqn:Ep.
    + rewrite IH by done. split; [intros H; constructor; [by left|done]|by inversion 1].
    + case_bool_decide as Hs.
      * rewrite IH by done. split; [intros H; constructor; [by right|done]|by inversion 1].
      * split; [by intros [? ?]|]. inversion 1 as [|? ? ? ? [Hf|Hf]]; subst; congruence.
Qed.
Lemma match_path_lookup segs sp ph ph' n : match_path segs sp ph = Some ph' -> length segs = length sp ->
  (forall i j, sp !! i = Some (Param n true) -> sp !! j = Some (Param n true) -> i = j) ->
  forall v, ph' !! n = Some v <->
    (exists i, segs !! i = Some v /\ sp !! i = Some (Param n true)) \/ (ph !! n = Some v /\ forall i, sp !! i <> Some (Param n true)).
Proof.
  revert sp ph. induction segs as [|s segs IH]; intros [|p sp] ph H Hl Hu v; cbn in Hl; try done; cbn [match_path] in H.
  - injection H as <-. split; [intros Hv; right; split; [done|]; done|]. intros [(i & Hi & _)|[Hv _]]; [done|done].
  - injection Hl as Hl.
    assert (forall i j, sp !! i = Some (Param n true) -> sp !! j = Some (Param n true) -> i = j) as Hu'.
    { intros i j Hi Hj. specialize (Hu (S i) (S j) Hi Hj). by injection Hu. }
    destruct p as [pn [|]]; cbn [p_ph p_name] in H.
    + rewrite (IH _ _ H Hl Hu' v). destruct (decide (pn = n)) as [->|Hne].
      * rewrite lookup_insert. split.
        -- intros [(i & Hi & Hp)|[[= ->] Hn]]; [specialize (Hu O (S i) eq_refl Hp); done|]. left. by exists O.
        -- intros [([|i] & Hi & Hp)|[_ Hn]]; cbn in *.
           ++ injection Hi as ->. right. split; [done|]. intros i Hi. specialize (Hu O (S i) eq_refl Hi). done.
           ++ specialize (Hu O (S i) eq_refl Hp). done.
           ++ by destruct (Hn O).
      * rewrite lookup_insert_ne by done. split.
        -- intros [(i & Hi & Hp)|[Hv Hn]]; [left; by exists (S i)|right]. split; [done|]. intros [|i]; cbn; [congruence|apply Hn].
        -- intros [([|i] & Hi & Hp)|[Hv Hn]]; cbn in *; [congruence|left; by exists i|right]. split; [done|]. intros i. apply (Hn (S i)).
    + case_bool_decide; [|done]. rewrite (IH _ _ H Hl Hu' v). split.
      * intros [(i & Hi & Hp)|[Hv Hn]]; [left; by exists (S i)|right]. split; [done|]. intros [|i]; cbn; [congruence|apply Hn].
      * intros [([|i] & Hi & Hp)|[Hv Hn]]; cbn in *; [congruence|left; by exists i|right]. split; [done|]. intros i. apply (Hn (S i)).
Qed.
Definition qfits (rq : gmap str (list str)) (qm : gmap str param) (k : str) : Prop :=
  exists v p, rq !! k = Some [v] /\ qm !! k = Some p /\ fits v p.
Lemma match_query_some rq qm keys ph : (exists ph', match_query rq qm keys ph = Some ph') <-> Forall (qfits rq qm) keys.
Proof.
  revert ph. induction keys as [|k keys IH]; intros ph; cbn [match_query]; [split; [constructor|by exists ph]|].
  destruct (rq !! k) as [[|v [|]]|] eqn:Ek; cbn [from_option id];
    try (split; [by intros [? ?]|]; inversion 1 as [|? ? (v' & p' & Hv & _)]; subst; congruence).
  destruct (qm !! k) as [p|] eqn:Eq; [|split; [by intros [? ?]|]; inversion 1 as [|? ? (v' & p' & Hv & Hp & _)]; subst; congruence].
  destruct (p_ph p) eqn:Ep.
  - rewrite IH. split; [intros H; constructor; [|done]; exists v, p; split_and!; [done..|by left]|by inversion 1].
  - case_bool_decide as Hs.
    + rewrite IH. split; [intros H; constructor; [|done]; exists v, p; split_and!; [done..|by right]|by inversion 1].
    + split; [by intros [? ?]|]. inversion 1 as [|? ? (v' & p' & Hv & Hp & [Hf|Hf])]; subst; congruence.
Qed.
Lemma match_query_lookup rq qm keys ph ph' n : match_query rq qm keys ph = Some ph' -> NoDup keys ->
  (forall k k', qm !! k = Some (Param n true) -> qm !! k' = Some (Param n true) -> k = k') ->
  forall v, ph' !! n = Some v <->
    (exists k, k ∈ keys /\ rq !! k = Some [v] /\ qm !! k = Some (Param n true)) \/
    (ph !! n = Some v /\ forall k, k ∈ keys -> qm !! k <> Some (Param n true)).
Proof.
  revert ph. induction keys as [|k keys IH]; intros ph H Hnd Hu v; cbn [match_query] in H.
  - injection H as <-. split; [intros Hv; right; split; [done|]; by intros k ?%elem_of_nil|]. intros [(k & ?%elem_of_nil & _)|[Hv _]]; done.
  - apply NoDup_cons in Hnd as [Hk Hnd]. destruct (rq !! k) as [[|w [|]]|] eqn:Ek; cbn [from_option id] in H; try done.
    destruct (qm !! k) as [[pn [|]]|] eqn:Eq; [| |done]; cbn [p_ph p_name] in H.
    + rewrite (IH _ H Hnd Hu v). destruct (decide (pn = n)) as [->|Hne].
      * rewrite lookup_insert. split.
        -- intros [(k' & Hi & Hv & Hp)|[[= ->] Hn]]; [rewrite (Hu _ _ Hp Eq) in Hi; done|]. left. exists k. split_and!; [left|done..].
        -- intros [(k' & Hi & Hv & Hp)|[_ Hn]].
           ++ rewrite (Hu _ _ Hp Eq) in Hv. rewrite Ek in Hv. injection Hv as ->. right. split; [done|].
              intros k2 Hk2 Hp2. rewrite (Hu _ _ Hp2 Eq) in Hk2. done.
           ++ destruct (Hn k); [left|done].
      * rewrite lookup_insert_ne by done. split.
        -- intros [(k' & Hi & Hv & Hp)|[Hv Hn]]; [left; exists k'; split_and!; [by right|done..]|right]. split; [done|].
           intros k' Hk'. apply elem_of_cons in Hk' as [-> |Hk']; [congruence|by apply Hn].
        -- intros [(k' & Hi & Hv & Hp)|[Hv Hn]].
           ++ apply elem_of_cons in Hi as [-> |Hi]; [congruence|]. left. by exists k'.
           ++ right. split; [done|]. intros k' Hk'. apply Hn. by right.
    + case_bool_decide; [|done]. rewrite (IH _ H Hnd Hu v). split.
      * intros [(k' & Hi & Hv & Hp)|[Hv Hn]]; [left; exists k'; split_and!; [by right|done..]|right]. split; [done|].
        intros k' Hk'. apply elem_of_cons in Hk' as [-> |Hk']; [congruence|by apply Hn].
      * intros [(k' & Hi & Hv & Hp)|[Hv Hn]].
        -- apply elem_of_cons in Hi as [-> |Hi]; [congruence|]. left. by exists k'.
        -- right. split; [done|]. intros k' Hk'. apply Hn. by right.
Qed.
Lemma map_size_dom {A C} (m : gmap str A) (m' : gmap str C) : (forall k, is_Some (m !! k) -> is_Some (m' !! k)) ->
  map_size m = map_size m' <-> forall k, is_Some (m' !! k) -> is_Some (m !! k).
Proof.
  intros H. unfold map_size. split.
  - intros Hs k Hk.
    assert (map fst (map_to_list m) ⊆+ map fst (map_to_list m')) as Hsub.
    { apply NoDup_submseteq; [apply NoDup_fst_map_to_list|]. intros x Hx. apply elem_of_list_fmap in Hx as ([k0 a] & -> & Ha).
      apply elem_of_map_to_list in Ha. destruct (H k0) as [b Hb]; [by exists a|]. apply elem_of_list_fmap. exists (k0, b). split; [done|]. by apply elem_of_map_to_list. }
    assert (k ∈ map fst (map_to_list m)) as Hin.
    { apply submseteq_Permutation_length_eq in Hsub; [|by rewrite !map_length]. rewrite Hsub.
      destruct Hk as [b Hb]. apply elem_of_list_fmap. exists (k, b). split; [done|]. by apply elem_of_map_to_list. }
    apply elem_of_list_fmap in Hin as ([k0 a] & Heq & Ha). cbn in Heq. subst. apply elem_of_map_to_list in Ha. by exists a.
  - intros H'.
    assert (map fst (map_to_list m) ≡ₚ map fst (map_to_list m')) as Hp.
    { apply NoDup_Permutation; [apply NoDup_fst_map_to_list..|]. intros k.
      assert (forall {T} (mm : gmap str T), k ∈ map fst (map_to_list mm) <-> is_Some (mm !! k)) as Hm.
      { intros T mm. rewrite elem_of_list_fmap. split; [intros ([k0 a] & -> & Ha); apply elem_of_map_to_list in Ha; by exists a|].
        intros [a Ha]. exists (k, a). split; [done|]. by apply elem_of_map_to_list. }
      rewrite !Hm. split; [apply H|apply H']. }
    apply Permutation_length in Hp. by rewrite !map_length in Hp.
Qed.
(** The code's tests for one rule, against [rule_matches]. *)
Definition head_fits (U : unicode) (r : rule) (meth path : str) : Prop :=
  to_lower U (r_method r) = to_lower U meth /\ length (split "/"%char path) = length (r_split r).
Lemma matches_head U r meth path query : rule_matches U r meth path query -> head_fits U r meth path.
Proof. intros (H & Hf & _). split; [done|]. by eapply Forall2_length. Qed.
Lemma tests_iff U r meth path query rq o : parse_query query = Some rq -> head_fits U r meth path ->
  (rule_matches U r meth path query <->
   map_size rq = map_size (r_query r) /\
   exists ph ph', match_path (split "/"%char path) (r_split r) ∅ = Some ph /\ match_query rq (r_query r) (range_order o rq) ph = Some ph').
Proof.
  intros Hq [Hm Hl]. destruct (range_order_spec o rq) as [_ Hk]. unfold rule_matches. split.
  - intros (_ & Hf & rq' & Hrq & Hdom & Hfit). rewrite Hq in Hrq. injection Hrq as <-. split.
    + apply map_size_dom; intros k; apply Hdom.
    + apply (match_path_some _ _ ∅ Hl) in Hf as [ph Hph].
      assert (Forall (qfits rq (r_query r)) (range_order o rq)) as Hall.
      { apply Forall_forall. intros k Hin. apply Hk in Hin as [vs Hvs]. destruct (proj1 (Hdom k)) as [p Hp]; [by exists vs|].
        destruct (Hfit _ _ _ Hvs Hp) as (v & -> & Hv). by exists v, p. }
      apply (match_query_some _ _ _ ph) in Hall as [ph' Hph']. by exists ph, ph'.
  - intros (Hs & ph & ph' & Hph & Hph').
    assert (Forall2 fits (split "/"%char path) (r_split r)) as Hf by (eapply match_path_some; [done|by exists ph]).
    assert (Forall (qfits rq (r_query r)) (range_order o rq)) as Hall by (eapply match_query_some; by exists ph').
    assert (forall k, is_Some (rq !! k) -> qfits rq (r_query r) k) as Hall'.
    { intros k Hk'. apply Hk in Hk'. rewrite Forall_forall in Hall. by apply Hall. }
    split; [done|]. split; [done|]. exists rq. split; [done|]. split.
    + assert (forall k, is_Some (rq !! k) -> is_Some (r_query r !! k)) as H1.
      { intros k Hk'. destruct (Hall' _ Hk') as (v & p & _ & Hp & _). by exists p. }
      intros k. split; [apply H1|]. by apply (proj1 (map_size_dom _ _ H1) Hs).
    + intros k vs p Hvs Hp. destruct (Hall' k) as (v & p' & Hv & Hp' & Hfv); [by exists vs|]. exists v. split; [congruence|]. by replace p with p' by congruence.
Qed.
Lemma bindings_iff U r meth path query rq o ph ph' : parse_query query = Some rq -> head_fits U r meth path -> distinct_names r ->
  match_path (split "/"%char path) (r_split r) ∅ = Some ph -> match_query rq (r_query r) (range_order o rq) ph = Some ph' ->
  forall n v, ph' !! n = Some v <-> binds r path query n v.
Proof.
  intros Hq [_ Hl] (D1 & D2 & D3) Hph Hph' n v. destruct (range_order_spec o rq) as [Hnd Hk].
  rewrite (match_query_lookup _ _ _ _ _ n Hph' Hnd (fun k k' => D2 k k' n) v).
  rewrite (match_path_lookup _ _ _ _ n Hph Hl (fun i j => D1 i j n) v). unfold binds. split.
  - intros [(k & _ & Hv & Hp)|[[H|[H _]] _]]; [right; by exists k, rq|by left|by rewrite lookup_empty in H].
  - intros [H|(k & rq' & Hrq & Hv & Hp)].
    + right. split; [by left|]. intros k _ Hp. destruct H as (i & _ & Hi). by eapply D3.
    + rewrite Hq in Hrq. injection Hrq as <-. left. exists k. split; [|done]. apply Hk. by exists [v].
Qed.

(** ** Substitution *)
Lemma replace_lit old new s t : "{"%char ∉ s -> has_prefix (B "{") old = true ->
  replace_go old new 0 (s ++ t) = s ++ replace_go old new 0 t.
Proof.
  intros Hs Ho. apply has_prefix_spec in Ho as [o' ->]. induction s as [|c s IH]; [done|]. apply not_elem_of_cons in Hs as [Hc Hs].
  cbn [app replace_go]. assert (has_prefix (B "{" ++ o') (c :: s ++ t) = false) as ->.
  { apply has_prefix_false. intros x Hx. cbn in Hx. by injection Hx as ->. }
  by rewrite IH.
Qed.
Lemma replace_skip old new s t : replace_go old new (length s) (s ++ t) = replace_go old new 0 t.
Proof. induction s as [|c s IH]; [done|]. cbn [length app replace_go]. exact IH. Qed.
Lemma hole_prefix x n t : "}"%char ∉ x -> "}"%char ∉ n -> has_prefix (ph_name n) (ph_name x ++ t) = true <-> x = n.
Proof.
  intros Hx Hn. rewrite has_prefix_spec. unfold ph_name. split.
  - intros [u Hu]. cbn in Hu. injection Hu as Hu. rewrite <- !app_assoc in Hu. cbn in Hu.
    assert (cut ["}"%char] (x ++ "}"%char :: t) = Some (x, t)) as H1 by (by apply cut_char_some).
    assert (cut ["}"%char] (n ++ "}"%char :: u) = Some (n, u)) as H2 by (by apply cut_char_some).
    rewrite Hu, H2 in H1. by injection H1.
  - intros ->. by exists t.
Qed.
Lemma replace_render ps n v : well_formed ps -> "}"%char ∉ n ->
  replace_all (render ps) (ph_name n) v = render (map (fill (fun k => if bool_decide (k = ph_name n) then Some v else None)) ps).
Proof.
  unfold replace_all. intros Hwf Hn. induction ps as [|p ps IH]; [done|]. inversion Hwf as [|? ? Hp Hps]; subst. specialize (IH Hps).
  unfold render in *. cbn [map concat]. destruct p as [s|x]; cbn [render1 fill].
  - rewrite replace_lit by done. by rewrite IH.
  - destruct Hp as [Hx1 Hx2]. case_bool_decide as Heq.
    + unfold ph_name in Heq. injection Heq as Heq. apply app_inv_tail in Heq as ->. fold (ph_name n).
      assert (has_prefix (ph_name n) (ph_name n ++ concat (map render1 ps)) = true) as Hpre by apply has_prefix_app.
      change (ph_name n ++ concat (map render1 ps)) with ("{"%char :: (n ++ ["}"%char]) ++ concat (map render1 ps)) in *. cbn [replace_go].
      rewrite Hpre. cbn [render1]. f_equal. change (length (ph_name n) - 1)%nat with (length (n ++ ["}"%char]) - 0)%nat. rewrite Nat.sub_0_r. rewrite replace_skip. exact IH.
    + fold (ph_name x). assert (has_prefix (ph_name n) (ph_name x ++ concat (map render1 ps)) = false) as Hpre.
      { destruct (has_prefix _ _) eqn:E; [|done]. apply hole_prefix in E as ->; done. }
      change (ph_name x ++ concat (map render1 ps)) with ("{"%char :: (x ++ ["}"%char]) ++ concat (map render1 ps)) in *. cbn [replace_go].
      rewrite Hpre. cbn [render1 app]. f_equal. rewrite replace_lit; [by rewrite IH| |done].
      rewrite not_elem_of_app. split; [done|]. by intros ?%elem_of_list_singleton.
Qed.
Definition simple (n : str) : Prop := exists x, n = ph_name x /\ "{"%char ∉ x /\ "}"%char ∉ x.
Lemma replace_many ph keys ps : well_formed ps -> Forall simple keys -> (forall k, k ∈ keys -> exists v : str, ph !! k = Some v /\ "{"%char ∉ v) ->
  replace_placeholders ph keys (render ps) = render (map (fill (fun k => if bool_decide (k ∈ keys) then ph !! k else None)) ps).
Proof.
  intros Hwf Hsim. revert ps Hwf. induction keys as [|k keys IH]; intros ps Hwf Hv; unfold replace_placeholders; cbn [fold_left].
  - f_equal. induction ps as [|[s|x] ps IHp]; [done|..]; inversion Hwf; subst; cbn [map fill]; by rewrite <- IHp.
  - inversion Hsim as [|? ? (x & -> & Hx1 & Hx2) Hs]; subst. destruct (Hv (ph_name x)) as (v & Hp & Hb); [left|]. rewrite Hp. cbn [from_option id].
    rewrite replace_render by done. etransitivity; [refine (IH Hs _ _ _); [|intros k Hk; apply Hv; by right]|].
    + clear -Hwf Hb. induction Hwf as [|p ps Hp Hps IHp]; [constructor|]. constructor; [|done]. destruct p as [s|y]; cbn [fill]; [done|].
      by case_bool_decide.
    + f_equal. rewrite map_map. apply map_ext_in. intros p _. destruct p as [s|y]; cbn [fill]; [done|]. case_bool_decide as Hy.
      * rewrite Hy. cbn [fill]. rewrite (bool_decide_eq_true_2 (ph_name x ∈ _)) by left. by rewrite Hp.
      * cbn [fill]. destruct (decide (ph_name y ∈ keys)) as [Hin|Hin].
        -- rewrite !bool_decide_eq_true_2; [done|by right|done].
        -- rewrite !bool_decide_eq_false_2; [done| |done]. intros Hc. apply elem_of_cons in Hc as [|]; done.
Qed.
