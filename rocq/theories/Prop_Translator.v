(** * Properties C56-C58: mapping rules *)
From Verif Require Import TranslatorProofs.

(** ** C56 *)
Lemma translate_pass U o i r l meth path query : ~ rule_matches U r meth path query ->
  (parse_query query = None -> ~ head_fits U r meth path) ->
  translate_rules U o i (r :: l) meth path query = translate_rules U o (S i) l meth path query.
Proof.
  intros Hn He. cbn [translate_rules]. case_bool_decide as Hm; [|done].
  destruct (Nat.eqb_spec (length (split "/"%char path)) (length (r_split r))) as [Hl|]; [|done]. cbn [negb].
  destruct (parse_query query) as [rq|] eqn:Hq; [|by destruct (He eq_refl)].
  destruct (Nat.eqb_spec (map_size rq) (map_size (r_query r))) as [Hs|]; [|done]. cbn [negb].
  destruct (match_path _ _ _) as [ph|] eqn:Hp; [|done]. destruct (match_query _ _ _ _) as [ph'|] eqn:Hp'; [|done].
  exfalso. apply Hn. eapply tests_iff; [done|done|]. split; [done|]. by exists ph, ph'.
Qed.
Lemma translate_pass_all U o i l1 l meth path query : Forall (fun r => ~ rule_matches U r meth path query) l1 ->
  (parse_query query = None -> Forall (fun r => ~ head_fits U r meth path) l1) ->
  translate_rules U o i (l1 ++ l) meth path query = translate_rules U o (i + length l1) l meth path query.
Proof.
  revert i. induction l1 as [|r l1 IH]; intros i Hn He; [by rewrite Nat.add_0_r|]. inversion Hn as [|? ? H1 H2]; subst. cbn [app].
  rewrite translate_pass; [|done|]. 2:{ intros Hq. specialize (He Hq). by inversion He. }
  rewrite IH; [|done|]. 2:{ intros Hq. specialize (He Hq). by inversion He. }
  f_equal. cbn. lia.
Qed.
(** The first matching rule decides: its action, and its resource with the bound values put in
    place of the placeholders, in some order. *)
Theorem C56_first_match U m o domain l l1 r l2 meth path query : m !! domain = Some (Some l) -> l = l1 ++ r :: l2 ->
  Forall (fun r => ~ rule_matches U r meth path query) l1 -> rule_matches U r meth path query -> distinct_names r ->
  exists (σ : gmap str str) (names : list str), (forall n v, σ !! n = Some v <-> binds r path query n v) /\ NoDup names /\ (forall n, n ∈ names <-> is_Some (σ !! n)) /\
    translate U (Some m) o domain meth path query = Ok (r_action r, replace_placeholders σ names (r_resource r)).
Proof.
  intros Hm -> Hn Hr Hd. unfold translate. rewrite Hm. cbn [from_option id].
  pose proof (matches_head _ _ _ _ _ Hr) as Hh. destruct Hr as (H1 & H2 & rq & Hq & H3). 
  assert (rule_matches U r meth path query) as Hr by (split; [done|]; split; [done|]; by exists rq).
  rewrite translate_pass_all; [|done|by rewrite Hq]. cbn [translate_rules].
  rewrite bool_decide_eq_true_2 by done. rewrite (proj2 (Nat.eqb_eq _ _)) by apply Hh. cbn [negb]. rewrite Hq.
  apply (tests_iff _ _ _ _ _ _ (o_query o (0 + length l1)%nat) Hq Hh) in Hr as (Hs & ph & ph' & Hp & Hp').
  rewrite (proj2 (Nat.eqb_eq _ _)) by done. cbn [negb]. rewrite Hp, Hp'.
  destruct (range_order_spec (o_ph o) ph') as [Hnd Hk].
  exists ph', (range_order (o_ph o) ph'). split_and!; [|done..]. by eapply bindings_iff.
Qed.
Theorem C56_no_match_unchanged U m o domain l meth path query : m !! domain = Some (Some l) ->
  Forall (fun r => ~ rule_matches U r meth path query) l ->
  (parse_query query = None -> Forall (fun r => ~ head_fits U r meth path) l) ->
  translate U (Some m) o domain meth path query = Ok (meth, path).
Proof.
  intros Hm Hn He. unfold translate. rewrite Hm. cbn [from_option id]. rewrite <- (app_nil_r l). by rewrite translate_pass_all.
Qed.
Theorem C56_unknown_domain_unchanged U m o domain meth path query : default None (m !! domain) = None ->
  translate U (Some m) o domain meth path query = Ok (meth, path) /\ translate U None o domain meth path query = Ok (meth, path).
Proof. intros Hm. unfold translate. by rewrite Hm. Qed.
(** A malformed query is an error as soon as a rule has the method and the number of segments. *)
Theorem C56_malformed_query_rejected U m o domain l r meth path query : m !! domain = Some (Some l) -> parse_query query = None ->
  r ∈ l -> head_fits U r meth path -> translate U (Some m) o domain meth path query = Err (ErrMsg "invalid query").
Proof.
  intros Hm Hq Hin Hh. unfold translate. rewrite Hm. cbn [from_option id]. generalize 0%nat. clear Hm. induction l as [|r0 l IH]; intros i; [by apply elem_of_nil in Hin|].
  cbn [translate_rules]. case_bool_decide as Hme.
  - destruct (Nat.eqb_spec (length (split "/"%char path)) (length (r_split r0))) as [Hl|Hl]; cbn [negb]; [by rewrite Hq|].
    apply elem_of_cons in Hin as [-> |Hin]; [by destruct Hh|]. by apply IH.
  - apply elem_of_cons in Hin as [-> |Hin]; [by destruct Hh|]. by apply IH.
Qed.

(** ** C57 *)
(** Values without opening braces in a template of literals and placeholders: the result is the
    simultaneous substitution, for every iteration order. *)
Theorem C57_deterministic_partial U m o domain l l1 r l2 meth path query ps : m !! domain = Some (Some l) -> l = l1 ++ r :: l2 ->
  Forall (fun r => ~ rule_matches U r meth path query) l1 -> rule_matches U r meth path query -> distinct_names r ->
  r_resource r = render ps -> well_formed ps ->
  (forall n v, binds r path query n v -> simple n /\ "{"%char ∉ v) ->
  forall f, (forall n v, f n = Some v <-> binds r path query n v) ->
  translate U (Some m) o domain meth path query = Ok (r_action r, render (map (fill f) ps)).
Proof.
  intros Hm Hl Hn Hr Hd Hres Hwf Hb f Hf.
  destruct (C56_first_match U m o domain l l1 r l2 meth path query Hm Hl Hn Hr Hd) as (σ & names & Hσ & Hnd & Hnames & ->).
  do 2 f_equal. rewrite Hres, replace_many; [|done| |].
  - f_equal. apply map_ext. intros [s|x]; cbn [fill]; [done|]. destruct (f (ph_name x)) as [v|] eqn:Ef.
    + apply Hf, Hσ in Ef. rewrite bool_decide_eq_true_2; [by rewrite Ef|]. apply Hnames. by exists v.
    + rewrite bool_decide_eq_false_2; [done|]. intros Hin. apply Hnames in Hin as [v Hv]. apply Hσ, Hf in Hv. by rewrite Ef in Hv.
  - apply Forall_forall. intros n Hin. apply Hnames in Hin as [v Hv]. apply Hσ, Hb in Hv. apply Hv.
  - intros n Hin. apply Hnames in Hin as [v Hv]. exists v. split; [done|]. apply Hσ, Hb in Hv. apply Hv.
Qed.

(** ** C58 *)
Definition param_of (s : str) : param := Param s (braced s).
(** The path and query parts of a rule's path. *)
Definition path_parts (s p : str) (q : option str) : Prop :=
  "?"%char ∉ p /\ match q with Some q => s = p ++ "?"%char :: q | None => s = p end.
Definition rule_ok (r : rule) : Prop :=
  r_method r <> [] /\ r_action r <> [] /\ r_resource r <> [] /\ (r_path r = [] \/ exists t, r_path r = "/"%char :: t) /\
  exists p q, path_parts (r_path r) p q /\
    B "{}" ∉ split "/"%char p /\ NoDup (List.filter braced (split "/"%char p)) /\
    match q with
    | None => True
    | Some q => exists vals, parse_query q = Some vals /\
        forall k vs, vals !! k = Some vs -> exists v, vs = [v] /\ v <> B "{}" /\
          (braced v = true -> v ∉ split "/"%char p /\ forall k', vals !! k' = Some [v] -> k' = k)
    end.
(** What the validated rule records. *)
Definition parsed (r r' : rule) : Prop :=
  r_method r' = r_method r /\ r_path r' = r_path r /\ r_action r' = r_action r /\ r_resource r' = r_resource r /\
  exists p q, path_parts (r_path r) p q /\ r_split r' = map param_of (split "/"%char p) /\
    match q with
    | None => r_query r' = ∅
    | Some q => exists vals, parse_query q = Some vals /\
        forall k x, r_query r' !! k = Some x <-> exists v, vals !! k = Some [v] /\ x = param_of v
    end.

Lemma looks_braced s : looks_ph s = braced s.
Proof.
  unfold looks_ph, braced. destruct s as [|c s]; [done|]. destruct (has_prefix (B "{") (c :: s)) eqn:Hp.
  - apply has_prefix_spec in Hp as [t Ht]. cbn in Ht. injection Ht as -> ->. cbn [andb]. destruct (has_suffix (B "}") ("{"%char :: t)) eqn:Hs.
    + apply has_suffix_spec in Hs as [u Hu]. destruct u as [|x u]; [done|]. cbn in Hu. injection Hu as _ ->. by rewrite last_snoc, bool_decide_eq_true_2.
    + case_bool_decide as Hl; [|done]. apply last_Some in Hl as [u ->]. assert (has_suffix (B "}") ("{"%char :: u ++ ["}"%char]) = true) as Hc; [|by rewrite Hc in Hs].
      apply has_suffix_spec. by exists ("{"%char :: u).
  - cbn [andb]. destruct (ascii_dec c "{"%char) as [-> |Hc].
    + by assert (has_prefix (B "{") ("{"%char :: s) = true) as Hc by (apply has_prefix_spec; by exists s); rewrite Hc in Hp.
    + destruct c as [[] [] [] [] [] [] [] []]; done.
Qed.
Lemma is_placeholder_iff sp qm s b : is_placeholder sp qm s = Ok b <->
  s <> B "{}" /\ b = braced s /\ (braced s = true -> Param s true ∉ sp /\ forall k, qm !! k <> Some (Param s true)).
Proof.
  unfold is_placeholder. case_bool_decide as He; [split; [done|]; by intros []|]. rewrite looks_braced. destruct (braced s).
  - assert (existsb (fun p => p_ph p && bool_decide (p_name p = s)) sp = true <-> Param s true ∈ sp) as H1.
    { rewrite existsb_exists, elem_of_list_In. split.
      - intros ([n x] & Hin & Hb). cbn in Hb. apply andb_true_iff in Hb as [-> Hb]. apply bool_decide_eq_true in Hb as ->. done.
      - intros Hin. exists (Param s true). split; [done|]. cbn. by apply bool_decide_eq_true. }
    assert (existsb (fun kp : str * param => p_ph (snd kp) && bool_decide (p_name (snd kp) = s)) (map_to_list qm) = true <-> exists k, qm !! k = Some (Param s true)) as H2.
    { rewrite existsb_exists. split.
      - intros ([k [n x]] & Hin & Hb). cbn in Hb. apply andb_true_iff in Hb as [-> Hb]. apply bool_decide_eq_true in Hb as ->.
        apply elem_of_list_In, elem_of_map_to_list in Hin. by exists k.
      - intros [k Hk]. exists (k, Param s true). split; [by apply elem_of_list_In, elem_of_map_to_list|]. cbn. by apply bool_decide_eq_true. }
    destruct (existsb _ sp).
    { split; [done|]. intros (_ & _ & H). destruct (H eq_refl) as [H' _]. exfalso. apply H'. by apply H1. }
    destruct (existsb _ (map_to_list qm)).
    { split; [done|]. intros (_ & _ & H). destruct (H eq_refl) as [_ H']. destruct (proj1 H2 eq_refl) as [k Hk]. by destruct (H' k). }
    split.
    + intros [= <-]. split_and!; [done..|]. intros _. split; [intros Hin; by apply H1 in Hin|]. intros k Hk. by assert (false = true) by (apply H2; by exists k).
    + by intros (_ & -> & _).
  - split; [intros [= <-]; done|by intros (_ & -> & _)].
Qed.
Lemma filter_cons_in (f : str -> bool) x l : x ∈ List.filter f l <-> x ∈ l /\ f x = true.
Proof. rewrite !elem_of_list_In. apply filter_In. Qed.
Lemma validate_path_iff qm acc segs sp : validate_path qm acc segs = Ok sp <->
  sp = acc ++ map param_of segs /\ B "{}" ∉ segs /\ NoDup (List.filter braced segs) /\
  forall s, s ∈ segs -> braced s = true -> Param s true ∉ acc /\ forall k, qm !! k <> Some (Param s true).
Proof.
  revert acc. induction segs as [|s segs IH]; intros acc; cbn [validate_path].
  - rewrite app_nil_r. split; [intros [= <-]; split_and!; [done|apply not_elem_of_nil|constructor|by intros s ?%elem_of_nil]|by intros [-> _]].
  - destruct (is_placeholder acc qm s) as [b|e|] eqn:E.
    + cbn [obind]. apply is_placeholder_iff in E as (Hs & -> & Hb). rewrite IH. cbn [map List.filter]. rewrite <- app_assoc. cbn [app]. fold (param_of s).
      rewrite not_elem_of_cons. destruct (braced s) eqn:Eb.
      * rewrite NoDup_cons, filter_cons_in. split.
        -- intros (-> & H1 & H2 & H3). split_and!; [done|done|done|..].
           ++ intros [Hin _]. destruct (H3 _ Hin Eb) as [H _]. apply H. apply elem_of_app. right. unfold param_of. rewrite Eb. left.
           ++ done.
           ++ intros s' Hin Hb'. apply elem_of_cons in Hin as [-> |Hin]; [by apply Hb|]. destruct (H3 _ Hin Hb') as [H4 H5]. split; [|done].
              intros Hin'. apply H4. apply elem_of_app. by left.
        -- intros (-> & [_ H1] & [H2 H3] & H4). split_and!; [done..|]. intros s' Hin Hb'. destruct (H4 s') as [H5 H6]; [by right|done|]. split; [|done].
           intros Hin'. apply elem_of_app in Hin' as [Hin'|Hin']; [done|]. apply elem_of_list_singleton in Hin'. injection Hin' as ->. by apply H2.
      * split.
        -- intros (-> & H1 & H2 & H3). split_and!; [done..|]. intros s' Hin Hb'. apply elem_of_cons in Hin as [-> |Hin]; [congruence|].
           destruct (H3 _ Hin Hb') as [H4 H5]. split; [|done]. intros Hin'. apply H4. apply elem_of_app. by left.
        -- intros (-> & [_ H1] & H2 & H3). split_and!; [done..|]. intros s' Hin Hb'. destruct (H3 s') as [H5 H6]; [by right|done|]. split; [|done].
           intros Hin'. apply elem_of_app in Hin' as [Hin'|Hin']; [done|]. apply elem_of_list_singleton in Hin'. unfold param_of in Hin'. rewrite Eb in Hin'. discriminate Hin'.
    + cbn [obind]. split; [done|]. intros (_ & H1 & _ & H2). apply not_elem_of_cons in H1 as [H1 _].
      assert (is_placeholder acc qm s = Ok (braced s)) as Hc; [|by rewrite Hc in E]. apply is_placeholder_iff. split_and!; [done..|]. intros Hb. apply H2; [left|done].
    + exfalso. unfold is_placeholder in E. repeat (case_match; try done).
Qed.
Lemma validate_query_iff sp vals qm keys qm' : NoDup keys -> (forall k, k ∈ keys -> qm !! k = None) ->
  validate_query sp vals qm keys = Ok qm' <->
  (forall k x, qm' !! k = Some x <-> (k ∈ keys /\ exists v, vals !! k = Some [v] /\ x = param_of v) \/ (k ∉ keys /\ qm !! k = Some x)) /\
  forall k, k ∈ keys -> exists v, vals !! k = Some [v] /\ v <> B "{}" /\
    (braced v = true -> Param v true ∉ sp /\ (forall k', qm !! k' <> Some (Param v true)) /\ forall k', k' ∈ keys -> vals !! k' = Some [v] -> k' = k).
Proof.
  revert qm. induction keys as [|k keys IH]; intros qm Hnd Hqm; cbn [validate_query].
  - split.
    + intros [= <-]. split; [|by intros k ?%elem_of_nil]. intros k x. split; [intros H; right; split; [apply not_elem_of_nil|done]|].
      intros [[?%elem_of_nil _]|[_ H]]; done.
    + intros [H _]. f_equal. apply map_eq. intros k. apply option_eq. intros x. rewrite H. split; [intros H'; right; split; [apply not_elem_of_nil|done]|].
      intros [[?%elem_of_nil _]|[_ H']]; done.
  - apply NoDup_cons in Hnd as [Hk Hnd].
    assert (forall vs, vals !! k = Some vs \/ vals !! k = None /\ vs = [] -> (forall v, vs <> [v]) ->
      ~ (forall k0, k0 ∈ k :: keys -> exists v, vals !! k0 = Some [v] /\ v <> B "{}" /\
        (braced v = true -> Param v true ∉ sp /\ (forall k', qm !! k' <> Some (Param v true)) /\ forall k', k' ∈ k :: keys -> vals !! k' = Some [v] -> k' = k0))) as Hbad.
    { intros vs Hvs Hne H. destruct (H k) as (v & Hv & _); [left|]. destruct Hvs as [Hvs|[Hvs _]]; rewrite Hvs in Hv; [|done]. injection Hv as ->. by destruct (Hne v). }
    destruct (vals !! k) as [[|v [|]]|] eqn:Ev; cbn [from_option id];
      try (split; [done|]; intros [_ H]; exfalso; first [eapply (Hbad _ (or_introl eq_refl)); [|exact H]; done|eapply (Hbad [] (or_intror (conj eq_refl eq_refl))); [|exact H]; done]).
    clear Hbad. destruct (is_placeholder sp qm v) as [b|e|] eqn:E.
    + cbn [obind]. apply is_placeholder_iff in E as (Hs & -> & Hb). fold (param_of v). rewrite IH; [|done|].
      2:{ intros k' Hk'. rewrite lookup_insert_ne by (by intros ->). apply Hqm. by right. }
      split.
      * intros [H1 H2]. split.
        -- intros k0 x. rewrite H1. destruct (decide (k0 = k)) as [-> |Hne].
           ++ rewrite lookup_insert. split.
              ** intros [[Hc _]|[_ [= <-]]]; [done|]. left. split; [left|]. by exists v.
              ** intros [[_ (v' & Hv' & ->)]|[Hc _]]; [|by destruct Hc; left]. rewrite Ev in Hv'. injection Hv' as <-. by right.
           ++ rewrite lookup_insert_ne by done. rewrite not_elem_of_cons, elem_of_cons. naive_solver.
        -- intros k0 Hk0. apply elem_of_cons in Hk0 as [-> |Hk0].
           ++ exists v. split_and!; [done..|]. intros Hbv. destruct (Hb Hbv) as [Hb1 Hb2]. split_and!; [done..|]. intros k' Hk' Hv'.
              apply elem_of_cons in Hk' as [-> |Hk']; [done|]. destruct (H2 _ Hk') as (v' & Hv'' & _ & Hp). rewrite Hv' in Hv''. injection Hv'' as <-.
              destruct (Hp Hbv) as (_ & Hc & _). destruct (Hc k). rewrite lookup_insert. unfold param_of. by rewrite Hbv.
           ++ destruct (H2 _ Hk0) as (v' & Hv' & Hne & Hp). exists v'. split_and!; [done..|]. intros Hbv. destruct (Hp Hbv) as (Hp1 & Hp2 & Hp3). split_and!; [done|..].
              ** intros k'. destruct (decide (k' = k)) as [-> |Hne']; [rewrite (Hqm k) by left; done|]. specialize (Hp2 k'). by rewrite lookup_insert_ne in Hp2.
              ** intros k' Hk' Hv''. apply elem_of_cons in Hk' as [-> |Hk']; [|by apply Hp3]. rewrite Ev in Hv''. injection Hv'' as ->.
                 destruct (Hp2 k). rewrite lookup_insert. unfold param_of. by rewrite Hbv.
      * intros [H1 H2]. split.
        -- intros k0 x. rewrite H1. destruct (decide (k0 = k)) as [-> |Hne].
           ++ rewrite lookup_insert. split.
              ** intros [[_ (v' & Hv' & ->)]|[Hc _]]; [|by destruct Hc; left]. rewrite Ev in Hv'. injection Hv' as <-. by right.
              ** intros [[Hc _]|[_ [= <-]]]; [done|]. left. split; [left|]. by exists v.
           ++ rewrite lookup_insert_ne by done. rewrite not_elem_of_cons, elem_of_cons. naive_solver.
        -- intros k0 Hk0. destruct (H2 k0) as (v' & Hv' & Hne & Hp); [by right|]. exists v'. split_and!; [done..|]. intros Hbv. destruct (Hp Hbv) as (Hp1 & Hp2 & Hp3).
           split_and!; [done|..].
           ++ intros k'. destruct (decide (k' = k)) as [-> |Hne']; [|by rewrite lookup_insert_ne]. rewrite lookup_insert. unfold param_of. intros [= -> _].
              assert (k = k0) as -> by (apply Hp3; [left|done]). done.
           ++ intros k' Hk' Hv''. apply Hp3; [by right|done].
    + cbn [obind]. split; [done|]. intros [_ H]. exfalso. destruct (H k) as (v' & Hv' & Hne & Hp); [left|]. rewrite Ev in Hv'. injection Hv' as <-.
      assert (is_placeholder sp qm v = Ok (braced v)) as Hc; [|by rewrite Hc in E]. apply is_placeholder_iff. split_and!; [done..|]. intros Hbv. destruct (Hp Hbv) as (? & ? & _). done.
    + exfalso. unfold is_placeholder in E. repeat (case_match; try done).
Qed.

(** A rule may have been validated before; then its leftover query placeholders are not in the path.
    A rule built outside the package has none. *)
Definition fresh_enough (r : rule) : Prop :=
  forall p q k n, path_parts (r_path r) p q -> r_query r !! k = Some (Param n true) -> n ∉ split "/"%char p.
Lemma path_parts_fun s p q p' q' : path_parts s p q -> path_parts s p' q' -> p = p' /\ q = q'.
Proof.
  intros [H1 H2] [H1' H2']. destruct q as [q|], q' as [q'|]; subst.
  - assert (cut ["?"%char] (p ++ "?"%char :: q) = Some (p, q)) as E1 by (by apply cut_char_some).
    assert (cut ["?"%char] (p' ++ "?"%char :: q') = Some (p', q')) as E2 by (by apply cut_char_some).
    rewrite H2', E2 in E1. by injection E1 as -> ->.
  - exfalso. apply H1'. apply elem_of_app. right. left.
  - exfalso. apply H1. apply elem_of_app. right. left.
  - done.
Qed.
Lemma cut_parts s : path_parts s (match cut (B "?") s with Some (p, q) => p | None => s end) (match cut (B "?") s with Some (p, q) => Some q | None => None end).
Proof.
  change (B "?") with ["?"%char]. destruct (cut ["?"%char] s) as [[p q]|] eqn:E.
  - apply cut_char_some in E as [-> H]. by split.
  - apply cut_char_none in E. by split.
Qed.
Lemma validate_rule_iff o r r' : fresh_enough r -> validate_rule o r = Ok r' <-> rule_ok r /\ parsed r r'.
Proof.
  intros Hf. unfold validate_rule.
  destruct (bool_decide_reflect (r_method r = [])) as [H|Hm]; [split; [done|]; by intros [(? & _) _]|].
  destruct (bool_decide_reflect (r_action r = [])) as [H|Ha]; [split; [done|]; by intros [(_ & ? & _) _]|].
  destruct (bool_decide_reflect (r_resource r = [])) as [H|Hr]; [split; [done|]; by intros [(_ & _ & ? & _) _]|]. cbn [orb].
  assert ((negb (bool_decide (r_path r = [])) && negb (has_prefix (B "/") (r_path r))) = true <-> ~ (r_path r = [] \/ exists t, r_path r = "/"%char :: t)) as Hslash.
  { rewrite andb_true_iff, !negb_true_iff, bool_decide_eq_false, has_prefix_false. change (B "/") with ["/"%char]. cbn [app]. naive_solver. }
  destruct (negb _ && negb _).
  { split; [done|]. intros [(_ & _ & _ & Hp & _) _]. by destruct (proj1 Hslash eq_refl). }
  assert (r_path r = [] \/ exists t, r_path r = "/"%char :: t) as Hp.
  { destruct (r_path r) as [|c t] eqn:E; [by left|]. right. destruct (ascii_dec c "/"%char) as [-> |Hc]; [by exists t|].
    exfalso. assert (false = true) as Hx; [|done]. apply Hslash. intros [|[t' Ht]]; [done|]. by injection Ht. }
  clear Hslash. pose proof (cut_parts (r_path r)) as Hparts.
  set (p := match cut (B "?") (r_path r) with Some (p, q) => p | None => r_path r end) in *.
  set (q := match cut (B "?") (r_path r) with Some (p, q) => Some q | None => None end) in *.
  assert ((match cut (B "?") (r_path r) with Some (p, q) => (p, Some q) | None => (r_path r, None) end) = (p, q)) as -> by (unfold p, q; by destruct (cut _ _) as [[? ?]|]).
  clearbody p q.
  assert (forall sp, validate_path (r_query r) [] (split "/"%char p) = Ok sp <->
    sp = map param_of (split "/"%char p) /\ B "{}" ∉ split "/"%char p /\ NoDup (List.filter braced (split "/"%char p))) as Hpath.
  { intros sp. rewrite validate_path_iff. cbn [app]. split; [by intros (-> & ? & ? & _)|]. intros (-> & ? & ?). split_and!; [done..|].
    intros s Hs Hb. split; [apply not_elem_of_nil|]. intros k Hk. by apply (Hf _ _ _ _ Hparts Hk). }
  assert (forall s, Param s true ∈ map param_of (split "/"%char p) <-> s ∈ split "/"%char p /\ braced s = true) as Hin.
  { intros s. rewrite elem_of_list_fmap. split; [intros (y & Heq & Hy); unfold param_of in Heq; injection Heq as -> Hb; done|].
    intros [Hs Hb]. exists s. unfold param_of. by rewrite Hb. }
  destruct (validate_path (r_query r) [] (split "/"%char p)) as [sp|e|] eqn:Ep.
  - cbn [obind]. destruct (proj1 (Hpath sp) eq_refl) as (-> & Hp1 & Hp2). clear Hpath. destruct q as [q|].
    + destruct (parse_query q) as [vals|] eqn:Eq.
      * destruct (range_order_spec o vals) as [Hnd Hk].
        assert (forall qm, validate_query (map param_of (split "/"%char p)) vals ∅ (range_order o vals) = Ok qm <->
          (forall k x, qm !! k = Some x <-> exists v, vals !! k = Some [v] /\ x = param_of v) /\
          forall k vs, vals !! k = Some vs -> exists v, vs = [v] /\ v <> B "{}" /\
            (braced v = true -> v ∉ split "/"%char p /\ forall k', vals !! k' = Some [v] -> k' = k)) as Hquery.
        { intros qm. rewrite validate_query_iff; [|done|intros k _; apply lookup_empty]. split.
          - intros [H1 H2]. split.
            + intros k x. rewrite H1, lookup_empty. split; [intros [[_ H]|[_ H]]; done|]. intros (v & Hv & ->). left. split; [apply Hk; by exists [v]|by exists v].
            + intros k vs Hvs. destruct (H2 k) as (v & Hv & Hne & Hb); [apply Hk; by exists vs|]. rewrite Hvs in Hv. injection Hv as ->. exists v. split_and!; [done..|].
              intros Hbv. destruct (Hb Hbv) as (Hb1 & _ & Hb3). split; [intros Hs; apply Hb1; by apply Hin|]. intros k' Hk'. apply Hb3; [apply Hk; by exists [v]|done].
          - intros [H1 H2]. split.
            + intros k x. rewrite H1, lookup_empty. split; [intros (v & Hv & ->); left; split; [apply Hk; by exists [v]|by exists v]|]. intros [[_ H]|[_ H]]; done.
            + intros k Hk'. apply Hk in Hk' as [vs Hvs]. destruct (H2 _ _ Hvs) as (v & -> & Hne & Hb). exists v. split_and!; [done..|].
              intros Hbv. destruct (Hb Hbv) as [Hb1 Hb2]. split_and!; [intros Hs; apply Hin in Hs as [Hs _]; done|intros k'; by rewrite lookup_empty|].
              intros k' _. apply Hb2. }
        destruct (validate_query _ _ _ _) as [qm|e|] eqn:Ev; cbn [obind].
        -- destruct (proj1 (Hquery qm) eq_refl) as [Hq1 Hq2]. split.
           ++ intros [= <-]. split.
              ** split_and!; [done..|]. exists p, (Some q). split_and!; [done..|]. by exists vals.
              ** split_and!; [done..|]. exists p, (Some q). split_and!; [done..|]. by exists vals.
           ++ intros [_ (E1 & E2 & E3 & E4 & p' & q' & Hparts' & Hsp & Hqm)]. destruct (path_parts_fun _ _ _ _ _ Hparts Hparts') as [<- <-].
              destruct Hqm as (vals' & Hv' & Hqm). rewrite Eq in Hv'. injection Hv' as <-. destruct r' as [a b c d sp' qm']; cbn in *. subst. do 2 f_equal.
              apply map_eq. intros k. apply option_eq. intros x. by rewrite Hq1, Hqm.
        -- split; [done|]. intros [(_ & _ & _ & _ & p' & q' & Hparts' & _ & _ & Hq) (_ & _ & _ & _ & p2 & q2 & Hparts2 & _ & Hqm)].
           destruct (path_parts_fun _ _ _ _ _ Hparts Hparts') as [<- <-]. destruct (path_parts_fun _ _ _ _ _ Hparts Hparts2) as [<- <-].
           destruct Hq as (v1 & Hv1 & Hq), Hqm as (v2 & Hv2 & Hqm). rewrite Eq in Hv1, Hv2. injection Hv1 as <-. injection Hv2 as <-.
           by assert (Err e = Ok (r_query r')) as Hx by (by apply Hquery).
        -- split; [done|]. intros [(_ & _ & _ & _ & p' & q' & Hparts' & _ & _ & Hq) (_ & _ & _ & _ & p2 & q2 & Hparts2 & _ & Hqm)].
           destruct (path_parts_fun _ _ _ _ _ Hparts Hparts') as [<- <-]. destruct (path_parts_fun _ _ _ _ _ Hparts Hparts2) as [<- <-].
           destruct Hq as (v1 & Hv1 & Hq), Hqm as (v2 & Hv2 & Hqm). rewrite Eq in Hv1, Hv2. injection Hv1 as <-. injection Hv2 as <-.
           by assert (Panic = Ok (r_query r')) as Hx by (by apply Hquery).
      * split; [done|]. intros [(_ & _ & _ & _ & p' & q' & Hparts' & _ & _ & Hq) _]. destruct (path_parts_fun _ _ _ _ _ Hparts Hparts') as [<- <-].
        destruct Hq as (v1 & Hv1 & _). by rewrite Eq in Hv1.
    + split.
      * intros [= <-]. split; (split_and!; [done..|]); exists p, None; done.
      * intros [_ (E1 & E2 & E3 & E4 & p' & q' & Hparts' & Hsp & Hqm)]. destruct (path_parts_fun _ _ _ _ _ Hparts Hparts') as [<- <-].
        destruct r' as [a b c d sp' qm']; cbn in *. by subst.
  - cbn [obind]. split; [done|]. intros [(_ & _ & _ & _ & p' & q' & Hparts' & H1 & H2 & _) _]. destruct (path_parts_fun _ _ _ _ _ Hparts Hparts') as [<- <-].
    by assert (Err e = Ok (map param_of (split "/"%char p))) as Hx by (by apply Hpath).
  - cbn [obind]. split; [done|]. intros [(_ & _ & _ & _ & p' & q' & Hparts' & H1 & H2 & _) _]. destruct (path_parts_fun _ _ _ _ _ Hparts Hparts') as [<- <-].
    by assert (Panic = Ok (map param_of (split "/"%char p))) as Hx by (by apply Hpath).
Qed.
Lemma validate_list_iff o l l' : Forall fresh_enough l -> validate_list o l = Ok l' <-> Forall2 (fun r r' => rule_ok r /\ parsed r r') l l'.
Proof.
  revert o l'. induction l as [|r l IH]; intros o l' Hf; cbn [validate_list].
  - split; [intros [= <-]; constructor|by inversion 1].
  - inversion Hf as [|? ? Hr Hl]; subst. destruct (validate_rule (o 0%nat) r) as [r'|e|] eqn:Er; cbn [obind].
    + apply validate_rule_iff in Er; [|done]. destruct (validate_list _ l) as [l1|e|] eqn:El; cbn [obind].
      * apply IH in El; [|done]. split.
        -- intros [= <-]. by constructor.
        -- inversion 1 as [|? r2 ? l2 H1 H2]; subst. f_equal.
           assert (validate_rule (o 0%nat) r = Ok r') as E1 by (by apply validate_rule_iff).
           assert (validate_rule (o 0%nat) r = Ok r2) as E2 by (by apply validate_rule_iff).
           assert (validate_list o l = Ok l1) as E3 by (by apply IH).
           assert (validate_list o l = Ok l2) as E4 by (by apply IH). congruence.
      * split; [done|]. inversion 1 as [|? r2 ? l2 H1 H2]; subst. apply (IH (fun i => o (S i))) in H2; [|done]. by rewrite H2 in El.
      * split; [done|]. inversion 1 as [|? r2 ? l2 H1 H2]; subst. apply (IH (fun i => o (S i))) in H2; [|done]. by rewrite H2 in El.
    + split; [done|]. inversion 1 as [|? r2 ? l2 H1 H2]; subst. apply (validate_rule_iff (o 0%nat)) in H1; [|done]. by rewrite H1 in Er.
    + split; [done|]. inversion 1 as [|? r2 ? l2 H1 H2]; subst. apply (validate_rule_iff (o 0%nat)) in H1; [|done]. by rewrite H1 in Er.
Qed.
Definition domain_ok (d : str) (v v' : option (list rule)) : Prop :=
  d <> [] /\ exists l l', v = Some l /\ v' = Some l' /\ Forall2 (fun r r' => rule_ok r /\ parsed r r') l l'.
Lemma validate_iff o ds m m' : NoDup ds -> (forall d l, d ∈ ds -> m !! d = Some (Some l) -> Forall fresh_enough l) ->
  (forall d, d ∈ ds -> is_Some (m !! d)) ->
  validate o ds m = Ok m' <-> (forall d, d ∈ ds -> exists v v', m !! d = Some v /\ m' !! d = Some v' /\ domain_ok d v v') /\ forall d, d ∉ ds -> m' !! d = m !! d.
Proof.
  revert m. induction ds as [|d ds IH]; intros m Hnd Hfr Hsome; cbn [validate].
  - split; [intros [= <-]; split; [by intros d ?%elem_of_nil|done]|]. intros [_ H]. f_equal. apply map_eq. intros d. symmetry. apply H. apply not_elem_of_nil.
  - apply NoDup_cons in Hnd as [Hd Hnd]. destruct (Hsome d) as [v Hv]; [left|]. rewrite Hv. cbn [from_option id].
    assert (forall l', validate_domain (o d) d v = Ok l' <-> domain_ok d v (Some l')) as Hdom.
    { intros l'. unfold validate_domain, domain_ok. case_bool_decide as He; [split; [done|]; by intros [? _]|]. destruct v as [l|].
      - rewrite validate_list_iff by (eapply Hfr; [left|done]). split; [intros H; split; [done|]; by exists l, l'|]. intros (_ & l1 & l2 & [= <-] & [= <-] & H). done.
      - split; [done|]. by intros (_ & l1 & l2 & ? & _). }
    destruct (validate_domain (o d) d v) as [l'|e|] eqn:E; cbn [obind].
    + rewrite IH; [|done|..].
      * split.
        -- intros [H1 H2]. split.
           ++ intros d' Hd'. apply elem_of_cons in Hd' as [-> |Hd'].
              ** exists v, (Some l'). split; [done|]. split; [|by apply Hdom]. rewrite H2 by done. apply lookup_insert.
              ** destruct (H1 _ Hd') as (v1 & v2 & Hv1 & Hv2 & Hok). rewrite lookup_insert_ne in Hv1 by (by intros ->). by exists v1, v2.
           ++ intros d' Hd'. apply not_elem_of_cons in Hd' as [Hne Hd']. rewrite H2 by done. by apply lookup_insert_ne.
        -- intros [H1 H2]. split.
           ++ intros d' Hd'. destruct (H1 d') as (v1 & v2 & Hv1 & Hv2 & Hok); [by right|]. exists v1, v2. rewrite lookup_insert_ne by (by intros ->). done.
           ++ intros d' Hd'. destruct (decide (d' = d)) as [-> |Hne].
              ** rewrite lookup_insert. destruct (H1 d) as (v1 & v2 & Hv1 & Hv2 & Hok); [left|]. rewrite Hv in Hv1. injection Hv1 as <-. rewrite Hv2.
                 destruct v2 as [l2|]; [|by destruct Hok as (_ & ? & ? & _ & ? & _)]. apply Hdom in Hok. congruence.
              ** rewrite lookup_insert_ne by done. apply H2. by apply not_elem_of_cons.
      * intros d' l Hd' Hl. rewrite lookup_insert_ne in Hl by (by intros ->). eapply Hfr; [by right|done].
      * intros d' Hd'. rewrite lookup_insert_ne by (by intros ->). apply Hsome. by right.
    + split; [done|]. intros [H1 _]. destruct (H1 d) as (v1 & v2 & Hv1 & _ & Hok); [left|]. rewrite Hv in Hv1. injection Hv1 as <-.
      destruct v2 as [l2|]; [|by destruct Hok as (_ & ? & ? & _ & ? & _)]. by apply Hdom in Hok.
    + split; [done|]. intros [H1 _]. destruct (H1 d) as (v1 & v2 & Hv1 & _ & Hok); [left|]. rewrite Hv in Hv1. injection Hv1 as <-.
      destruct v2 as [l2|]; [|by destruct Hok as (_ & ? & ? & _ & ? & _)]. by apply Hdom in Hok.
Qed.
(** NewMappingRules accepts exactly the well-formed rule sets, and records each rule as it reads;
    no iteration order matters. *)
Theorem C58_accepts_exactly od o m m' : (forall d l, m !! d = Some (Some l) -> Forall fresh_enough l) ->
  new_mapping_rules od o (Some m) = Ok m' <->
  (forall d v, m !! d = Some v -> exists v', m' !! d = Some v' /\ domain_ok d v v') /\ (forall d, m !! d = None -> m' !! d = None).
Proof.
  intros Hf. unfold new_mapping_rules. destruct (range_order_spec od m) as [Hnd Hk]. rewrite validate_iff; [|done|by intros; eapply Hf|intros d; apply Hk]. split.
  - intros [H1 H2]. split.
    + intros d v Hv. destruct (H1 d) as (v1 & v2 & Hv1 & Hv2 & Hok); [apply Hk; by exists v|]. rewrite Hv in Hv1. injection Hv1 as <-. by exists v2.
    + intros d Hd. rewrite H2; [done|]. intros Hc. apply Hk in Hc as [v Hc]. by rewrite Hd in Hc.
  - intros [H1 H2]. split.
    + intros d Hd. apply Hk in Hd as [v Hv]. destruct (H1 _ _ Hv) as (v' & Hv' & Hok). by exists v, v'.
    + intros d Hd. destruct (m !! d) as [v|] eqn:E; [|by apply H2]. exfalso. apply Hd, Hk. by exists v.
Qed.
Theorem C58_nil_rejected od o : new_mapping_rules od o None = Err (ErrMsg "rules is nil").
Proof. done. Qed.
(** Validating validated rules again changes nothing. *)
Theorem C58_idempotent od od2 o o2 m m' : (forall d l, m !! d = Some (Some l) -> Forall fresh_enough l) ->
  new_mapping_rules od o (Some m) = Ok m' -> new_mapping_rules od2 o2 (Some m') = Ok m'.
Proof.
  intros Hf H. apply C58_accepts_exactly in H as [H1 H2]; [|done].
  assert (forall r r', rule_ok r -> parsed r r' -> fresh_enough r' /\ rule_ok r' /\ parsed r' r') as Hrule.
  { intros r r' Hok (E1 & E2 & E3 & E4 & p & q & Hp & Hs & Hq). split; [|split].
    - intros p2 q2 k n Hp2 Hn. rewrite E2 in Hp2. destruct (path_parts_fun _ _ _ _ _ Hp Hp2) as [<- <-]. destruct q as [q|].
      + destruct Hq as (vals & Hv & Hq). apply Hq in Hn as (v & Hv' & Heq). unfold param_of in Heq. injection Heq as -> Hb.
        destruct Hok as (_ & _ & _ & _ & p3 & q3 & Hp3 & _ & _ & Hok). destruct (path_parts_fun _ _ _ _ _ Hp Hp3) as [<- <-].
        destruct Hok as (vals2 & Hv2 & Hok). rewrite Hv in Hv2. injection Hv2 as <-. destruct (Hok _ _ Hv') as (v2 & [= <-] & _ & Hb2). by apply Hb2.
      + rewrite Hq in Hn. by rewrite lookup_empty in Hn.
    - unfold rule_ok. rewrite E1, E2, E3, E4. exact Hok.
    - split_and!; [done..|]. exists p, q. rewrite E2. done. }
  assert (forall d v', m' !! d = Some v' -> exists v, m !! d = Some v /\ domain_ok d v v') as Hback.
  { intros d v' Hv'. destruct (m !! d) as [v|] eqn:E; [|by rewrite (H2 _ E) in Hv']. destruct (H1 _ _ E) as (v2 & Hv2 & Hok). exists v. split; [done|]. congruence. }
  assert (forall l l', Forall2 (fun r r' => rule_ok r /\ parsed r r') l l' -> Forall fresh_enough l' /\ Forall2 (fun r r' => rule_ok r /\ parsed r r') l' l') as Hlist.
  { induction 1 as [|r r' l l' [Hr Hp] _ [IH1 IH2]]; [split; constructor|]. destruct (Hrule _ _ Hr Hp) as (F1 & F2 & F3). split; constructor; done. }
  apply C58_accepts_exactly.
  - intros d l' Hl'. destruct (Hback _ _ Hl') as (v & _ & _ & l & l2 & _ & [= <-] & HF). by eapply Hlist.
  - split; [|done]. intros d v' Hv'. exists v'. split; [done|]. destruct (Hback _ _ Hv') as (v & _ & Hd & l & l2 & _ & -> & HF). split; [done|].
    exists l2, l2. split_and!; [done..|]. by eapply Hlist.
Qed.
(** An accepted rule has distinct placeholder names, so C56 and C57 apply to it. *)
Theorem C58_names_distinct r r' : rule_ok r -> parsed r r' -> distinct_names r'.
Proof.
  intros (_ & _ & _ & _ & p & q & Hp & _ & Hnd & Hq) (_ & _ & _ & _ & p2 & q2 & Hp2 & Hs & Hq2). destruct (path_parts_fun _ _ _ _ _ Hp Hp2) as [<- <-].
  assert (forall i n, r_split r' !! i = Some (Param n true) -> split "/"%char p !! i = Some n /\ braced n = true) as Hsp.
  { intros i n Hi. rewrite Hs, list_lookup_fmap in Hi. destruct (split "/"%char p !! i) as [s|]; cbn in Hi; [|done]. injection Hi as -> Hb. done. }
  split_and!.
  - intros i j n Hi Hj. apply Hsp in Hi as [Hi Hb], Hj as [Hj _]. clear -Hnd Hi Hj Hb. revert i j Hi Hj. generalize dependent (split "/"%char p).
    induction l as [|s l IH]; intros Hnd i j Hi Hj; [done|]. cbn [List.filter] in Hnd.
    assert (NoDup (List.filter braced l)) as Hnd'. { destruct (braced s); [|done]. by apply NoDup_cons in Hnd as [_ ?]. }
    destruct i as [|i], j as [|j]; cbn in Hi, Hj; [done|..].
    + injection Hi as ->. rewrite Hb in Hnd. apply NoDup_cons in Hnd as [Hc _]. destruct Hc. apply filter_cons_in. split; [by eapply elem_of_list_lookup_2|done].
    + injection Hj as ->. rewrite Hb in Hnd. apply NoDup_cons in Hnd as [Hc _]. destruct Hc. apply filter_cons_in. split; [by eapply elem_of_list_lookup_2|done].
    + f_equal. by apply IH.
  - intros k k' n Hk Hk'. destruct q as [q|]; [|rewrite Hq2 in Hk; by rewrite lookup_empty in Hk]. destruct Hq as (vals & Hv & Hq), Hq2 as (vals2 & Hv2 & Hq2).
    rewrite Hv in Hv2. injection Hv2 as <-. apply Hq2 in Hk as (v & Hk & E), Hk' as (v' & Hk' & E'). unfold param_of in E, E'. injection E as -> Hb. injection E' as -> _.
    destruct (Hq _ _ Hk) as (v2 & [= <-] & _ & Hb2). symmetry. by apply Hb2.
  - intros i k n Hi Hk. apply Hsp in Hi as [Hi Hb]. destruct q as [q|]; [|rewrite Hq2 in Hk; by rewrite lookup_empty in Hk].
    destruct Hq as (vals & Hv & Hq), Hq2 as (vals2 & Hv2 & Hq2).
    rewrite Hv in Hv2. injection Hv2 as <-. apply Hq2 in Hk as (v & Hk & E). unfold param_of in E. injection E as -> _.
    destruct (Hq _ _ Hk) as (v2 & [= <-] & _ & Hb2). apply Hb2 in Hb as [Hb _]. apply Hb. by eapply elem_of_list_lookup_2.
Qed.

(** ** Concrete cases *)
Definition rule_ab := Rule (B "get") (B "/{a}/{b}") (B "read") (B "{a}-{b}") [] ∅.
Definition rule_q := Rule (B "GET") (B "/path/{p}?key={k}&fixed=v") (B "act") (B "res.{p}.{k}.{other}") [] ∅.
Definition rules_ex : rules := {[ B "dom" := Some [rule_q; rule_ab] ]}.
Definition checked : outcome rules := new_mapping_rules [] (fun _ _ => []) (Some rules_ex).
Definition read_rules : rules := match checked with Ok m => m | _ => ∅ end.
Lemma checked_ok : checked = Ok read_rules.
Proof. unfold read_rules. assert (is_ok checked = true) as H by (vm_compute; reflexivity). by destruct checked. Qed.
Definition first_a := Orders (fun _ => []) [B "{a}"; B "{b}"].
Definition first_b := Orders (fun _ => []) [B "{b}"; B "{a}"].
(** A request value that is itself a placeholder is substituted again, or not, by chance. *)
Theorem C57_deterministic_refuted : exists m m' d meth path query o1 o2,
  new_mapping_rules [] (fun _ _ => []) (Some m) = Ok m' /\
  translate U0 (Some m') o1 d meth path query <> translate U0 (Some m') o2 d meth path query.
Proof.
  exists rules_ex, read_rules, (B "dom"), (B "GET"), (B "/{b}/x"), [], first_a, first_b. split; [exact checked_ok|].
  assert (translate U0 (Some read_rules) first_a (B "dom") (B "GET") (B "/{b}/x") [] = Ok (B "read", B "x-x")) as -> by (vm_compute; reflexivity).
  assert (translate U0 (Some read_rules) first_b (B "dom") (B "GET") (B "/{b}/x") [] = Ok (B "read", B "{b}-x")) as -> by (vm_compute; reflexivity).
  discriminate.
Qed.
Definition read_q := Rule (B "GET") (B "/path/{p}?key={k}&fixed=v") (B "act") (B "res.{p}.{k}.{other}")
  [Param [] false; Param (B "path") false; Param (B "{p}") true] {[ B "key" := Param (B "{k}") true; B "fixed" := Param (B "v") false ]}.
Definition read_ab := Rule (B "get") (B "/{a}/{b}") (B "read") (B "{a}-{b}") [Param [] false; Param (B "{a}") true; Param (B "{b}") true] ∅.
#[local] Instance param_eq : EqDecision param. Proof. solve_decision. Defined.
#[local] Instance rule_eq : EqDecision rule. Proof. solve_decision. Defined.
Lemma read_rules_eq : read_rules = {[ B "dom" := Some [read_q; read_ab] ]}.
Proof. refine (bool_decide_unpack _ _). vm_compute. exact I. Qed.
Lemma fresh_ex d l : rules_ex !! d = Some (Some l) -> Forall fresh_enough l.
Proof.
  unfold rules_ex. intros [_ [= <-]]%lookup_singleton_Some. 
  apply Forall_cons. split; [|apply Forall_cons; split; [|apply Forall_nil_2]]; intros p q k n _; cbn [r_query rule_q rule_ab]; by rewrite lookup_empty.
Qed.
Example C58_nonvacuous : checked = Ok {[ B "dom" := Some [read_q; read_ab] ]} /\
  (forall d v, rules_ex !! d = Some v -> exists v', read_rules !! d = Some v' /\ domain_ok d v v') /\
  new_mapping_rules [B "z"] (fun _ _ => [B "fixed"]) (Some read_rules) = Ok read_rules /\
  distinct_names read_q /\
  is_ok (new_mapping_rules [] (fun _ _ => []) (Some {[ B "dom" := Some [Rule (B "get") (B "/{a}/{a}") (B "r") (B "s") [] ∅] ]})) = false /\
  is_ok (new_mapping_rules [] (fun _ _ => []) (Some {[ B "dom" := Some [Rule (B "get") (B "/{a}?x={a}") (B "r") (B "s") [] ∅] ]})) = false /\
  is_ok (new_mapping_rules [] (fun _ _ => []) (Some {[ B "dom" := Some [Rule (B "get") (B "/a?x=1&x=2") (B "r") (B "s") [] ∅] ]})) = false /\
  is_ok (new_mapping_rules [] (fun _ _ => []) (Some {[ B "" := Some [rule_ab] ]})) = false.
Proof.
  pose proof checked_ok as Hok.
  assert (forall d v, rules_ex !! d = Some v -> exists v', read_rules !! d = Some v' /\ domain_ok d v v') as Hex by (by apply (C58_accepts_exactly [] (fun _ _ => []) _ _ fresh_ex)).
  split_and!; [by rewrite Hok, read_rules_eq|done|by eapply C58_idempotent, Hok; exact fresh_ex| |vm_compute; reflexivity..].
  destruct (Hex (B "dom") (Some [rule_q; rule_ab])) as (v' & Hv' & _ & l & l' & [= <-] & -> & HF); [apply lookup_singleton|].
  rewrite read_rules_eq, lookup_singleton in Hv'. injection Hv' as <-. inversion HF as [|? ? ? ? [H1 H2] _]; subst. by eapply C58_names_distinct.
Qed.
Lemma match_q : rule_matches U0 read_q (B "Get") (B "/path/hello") (B "fixed=v&key=a%20b").
Proof.
  split; [vm_compute; reflexivity|]. split.
  - assert (split "/"%char (B "/path/hello") = [[]; B "path"; B "hello"]) as -> by (vm_compute; reflexivity). cbn [r_split read_q].
    constructor; [by right|]. constructor; [by right|]. constructor; [by left|constructor].
  - exists {[ B "key" := [B "a b"]; B "fixed" := [B "v"] ]}. split.
    { refine (bool_decide_unpack _ _). vm_compute. exact I. }
    cbn [r_query read_q]. split.
    + intros k. rewrite !lookup_insert_is_Some, <- !insert_empty, !lookup_insert_is_Some, !lookup_empty. rewrite !is_Some_alt. tauto.
    + intros k vs p H1 H2. apply lookup_insert_Some in H1 as [[<- <-]|[Hk H1]].
      * rewrite lookup_insert in H2. injection H2 as <-. exists (B "a b"). split; [done|by left].
      * rewrite lookup_insert_ne in H2 by done. apply lookup_singleton_Some in H1 as [<- <-]. rewrite lookup_singleton in H2. injection H2 as <-.
        exists (B "v"). split; [done|by right].
Qed.
Lemma distinct_q : distinct_names read_q.
Proof. apply C58_nonvacuous. Qed.
Example C56_nonvacuous :
  (exists σ names, (forall n v, σ !! n = Some v <-> binds read_q (B "/path/hello") (B "fixed=v&key=a%20b") n v) /\ NoDup names /\ (forall n, n ∈ names <-> is_Some (σ !! n)) /\
    translate U0 (Some read_rules) first_a (B "dom") (B "Get") (B "/path/hello") (B "fixed=v&key=a%20b") =
      Ok (B "act", replace_placeholders σ names (B "res.{p}.{k}.{other}"))) /\
  translate U0 (Some read_rules) first_a (B "dom") (B "Get") (B "/path/hello") (B "fixed=v&key=a%20b") = Ok (B "act", B "res.hello.a b.{other}") /\
  translate U0 (Some read_rules) first_a (B "dom") (B "post") (B "/path/hello") (B "fixed=v&key=a%20b") = Ok (B "post", B "/path/hello") /\
  translate U0 (Some read_rules) first_a (B "other") (B "Get") (B "/path/hello") (B "") = Ok (B "Get", B "/path/hello") /\
  translate U0 (Some read_rules) first_a (B "dom") (B "Get") (B "/path/hello") (B "a;b") = Err (ErrMsg "invalid query").
Proof.
  split_and!; [|vm_compute; reflexivity..].
  apply (C56_first_match U0 read_rules first_a (B "dom") [read_q; read_ab] [] read_q [read_ab]); [|done|constructor|exact match_q|exact distinct_q].
  rewrite read_rules_eq. apply lookup_singleton.
Qed.

Lemma binds_q n v : binds read_q (B "/path/hello") (B "fixed=v&key=a%20b") n v -> n = B "{p}" /\ v = B "hello" \/ n = B "{k}" /\ v = B "a b".
Proof.
  intros [(i & Hv & Hp)|(k & m & Hm & Hv & Hp)].
  - left. assert (split "/"%char (B "/path/hello") = [[]; B "path"; B "hello"]) as Hs by (vm_compute; reflexivity). rewrite Hs in Hv. cbn [r_split read_q] in Hp.
    destruct i as [|[|[|i]]]; cbn in Hv, Hp; try done. injection Hv as <-. injection Hp as <-. done.
  - right. assert (parse_query (B "fixed=v&key=a%20b") = Some {[ B "key" := [B "a b"]; B "fixed" := [B "v"] ]}) as Hq.
    { refine (bool_decide_unpack _ _). vm_compute. exact I. }
    rewrite Hq in Hm. injection Hm as <-. cbn [r_query read_q] in Hp. apply lookup_insert_Some in Hp as [[<- [= <-]]|[_ [_ [=]]%lookup_singleton_Some]].
    rewrite lookup_insert in Hv. injection Hv as <-. done.
Qed.
Example C57_nonvacuous o : exists f, (forall n v, f n = Some v <-> binds read_q (B "/path/hello") (B "fixed=v&key=a%20b") n v) /\
  translate U0 (Some read_rules) o (B "dom") (B "Get") (B "/path/hello") (B "fixed=v&key=a%20b") =
    Ok (B "act", render (map (fill f) [Lit (B "res."); Hole (B "p"); Lit (B "."); Hole (B "k"); Lit (B "."); Hole (B "other")])).
Proof.
  assert (read_rules !! B "dom" = Some (Some [read_q; read_ab])) as Hm by (rewrite read_rules_eq; apply lookup_singleton).
  destruct (C56_first_match U0 read_rules o (B "dom") [read_q; read_ab] [] read_q [read_ab] _ _ _ Hm eq_refl ltac:(constructor) match_q distinct_q) as (σ & _ & Hσ & _).
  exists (fun n => σ !! n). split; [exact Hσ|].
  eapply (C57_deterministic_partial U0 read_rules o (B "dom") [read_q; read_ab] [] read_q [read_ab]); [exact Hm|done|constructor|exact match_q|exact distinct_q|vm_compute; reflexivity|..].
  - repeat constructor; rewrite ?elem_of_list_In; vm_compute; intuition discriminate.
  - intros n v H. destruct (binds_q _ _ H) as [[-> ->]|[-> ->]]; (split; [|rewrite elem_of_list_In; vm_compute; intuition discriminate]).
    + exists (B "p"). split; [done|]. rewrite !elem_of_list_In. split; vm_compute; intuition discriminate.
    + exists (B "k"). split; [done|]. rewrite !elem_of_list_In. split; vm_compute; intuition discriminate.
  - exact Hσ.
Qed.

Print Assumptions C56_first_match.
Print Assumptions C56_no_match_unchanged.
Print Assumptions C56_unknown_domain_unchanged.
Print Assumptions C56_malformed_query_rejected.
Print Assumptions C56_nonvacuous.
Print Assumptions C57_deterministic_partial.
Print Assumptions C57_deterministic_refuted.
Print Assumptions C57_nonvacuous.
Print Assumptions C58_accepts_exactly.
Print Assumptions C58_nil_rejected.
Print Assumptions C58_idempotent.
Print Assumptions C58_names_distinct.
Print Assumptions C58_nonvacuous.
