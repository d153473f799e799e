(** * Properties C31, C32: access token keys *)
From Verif Require Import Jwk.

Section facts.
  Context {J : Type} (cf : jconf).
  Notation jst := (@jst J). Notation jlabel := (@jlabel J).

  (** [set] is what the last successful download from [u] returned. *)
  Definition last_download (ls : list jlabel) (u : str) (set : jwk_set J) : Prop :=
    exists ls1 i ls2, ls = ls1 ++ JFetch i u (Some set) :: ls2 /\ forall i' set', JFetch i' u (Some set') ∉ ls2.
  Definition never_downloaded (ls : list jlabel) (u : str) : Prop := forall i set, JFetch i u (Some set) ∉ ls.

  Definition state_of (ls : list jlabel) (s : jst) : Prop :=
    (forall u, match j_keys s !! u with Some set => last_download ls u set | None => never_downloaded ls u end) /\
    (forall i todo failed, j_tasks s !! i = Some (JRun todo failed) -> exists before, targets cf = before ++ todo).

  Lemma jrun_snoc ls l (s : jst) : jrun cf (ls ++ [l]) s = match jrun cf ls s with Some s' => jstep cf l s' | None => None end.
  Proof.
    revert s. induction ls as [|x ls IH]; intros s; cbn [jrun app].
    - by destruct (jstep cf l s).
    - by destruct (jstep cf x s).
  Qed.
  Lemma jrun_app ls1 ls2 (s : jst) : jrun cf (ls1 ++ ls2) s = match jrun cf ls1 s with Some s' => jrun cf ls2 s' | None => None end.
  Proof. revert s. induction ls1 as [|x ls IH]; intros s; cbn [jrun app]; [done|]. by destruct (jstep cf x s). Qed.

  Lemma last_download_other ls l u set : (forall i set', l <> JFetch i u (Some set')) ->
    last_download ls u set -> last_download (ls ++ [l]) u set.
  Proof.
    intros Hl (ls1 & i & ls2 & -> & Hn). exists ls1, i, (ls2 ++ [l]). split; [by rewrite <- app_assoc|].
    intros i' set' Hin. apply elem_of_app in Hin as [Hin|Hin]; [by eapply Hn|]. apply elem_of_list_singleton in Hin. by eapply Hl.
  Qed.
  Lemma never_other ls l u : (forall i set', l <> JFetch i u (Some set')) -> never_downloaded ls u -> never_downloaded (ls ++ [l]) u.
  Proof.
    intros Hl Hn i' set' Hin. apply elem_of_app in Hin as [Hin|Hin]; [by eapply Hn|]. apply elem_of_list_singleton in Hin. by eapply Hl.
  Qed.
  Lemma state_keep ls l (s s' : jst) : (forall i u set, l <> JFetch i u (Some set)) -> j_keys s' = j_keys s ->
    (forall u, match j_keys s !! u with Some set => last_download ls u set | None => never_downloaded ls u end) ->
    forall u, match j_keys s' !! u with Some set => last_download (ls ++ [l]) u set | None => never_downloaded (ls ++ [l]) u end.
  Proof.
    intros Hl -> H u. specialize (H u). destruct (j_keys s !! u); [by apply last_download_other|by apply never_other].
  Qed.

  Lemma state_inv ls n (s : jst) : jrun cf ls (jinit n) = Some s -> state_of ls s.
  Proof.
    revert s. induction ls as [|l ls IH] using rev_ind; intros s H.
    - injection H as <-. split.
      + intros u. cbn [jinit j_keys]. rewrite lookup_empty. intros i set Hin. by apply elem_of_nil in Hin.
      + intros i todo failed Hi. cbn [jinit j_tasks] in Hi. by apply lookup_replicate_1 in Hi as [? _].
    - rewrite jrun_snoc in H. destruct (jrun cf ls (jinit n)) as [s1|]; [|done]. destruct (IH _ eq_refl) as [H1 H2]. clear IH.
      destruct l as [i|i u r|i]; cbn [jstep] in H; destruct (j_tasks s1 !! i) as [t|] eqn:Et; try done.
      + destruct t; try done. injection H as <-. split; [by apply (state_keep _ _ s1)|].
        intros j todo failed Hj. cbn [j_tasks] in Hj. apply list_lookup_insert_Some in Hj as [(_ & Heq & _)|[_ Hj]]; [|by eapply H2].
        injection Heq as <- <-. by exists [].
      + destruct t as [|[|t todo] failed|]; try done. destruct (bool_decide_reflect (t = u)) as [->|]; [|done].
        destruct (H2 _ _ _ Et) as [before Hb].
        destruct r as [set|]; injection H as <-.
        * split.
          -- intros u'. cbn [j_keys]. destruct (decide (u = u')) as [<-|Hne].
             ++ rewrite lookup_insert. exists ls, i, []. split; [done|]. intros ? ? Hin. by apply elem_of_nil in Hin.
             ++ rewrite lookup_insert_ne by done. specialize (H1 u'). destruct (j_keys s1 !! u').
                ** apply last_download_other; [|done]. by intros i' set' [= _ ? _].
                ** apply never_other; [|done]. by intros i' set' [= _ ? _].
          -- intros j todo' failed' Hj. cbn [j_tasks] in Hj. apply list_lookup_insert_Some in Hj as [(_ & Heq & _)|[_ Hj]]; [|by eapply H2].
             injection Heq as <- <-. exists (before ++ [u]). by rewrite <- app_assoc.
        * split; [by apply (state_keep _ _ s1)|].
          intros j todo' failed' Hj. cbn [j_tasks] in Hj. apply list_lookup_insert_Some in Hj as [(_ & Heq & _)|[_ Hj]]; [|by eapply H2].
          injection Heq as <- <-. exists (before ++ [u]). by rewrite <- app_assoc.
      + destruct t as [|[|t todo] failed|]; try done. injection H as <-. split; [by apply (state_keep _ _ s1)|].
        intros j todo' failed' Hj. cbn [j_tasks] in Hj. by apply list_lookup_insert_Some in Hj as [(_ & Heq & _)|[_ Hj]]; [|by eapply H2].
  Qed.

  (** Downloads only ever concern the configured URLs. *)
  Lemma fetch_configured ls n (s : jst) i u r : jrun cf ls (jinit n) = Some s -> JFetch i u r ∈ ls -> u ∈ targets cf.
  Proof.
    intros H Hin. apply elem_of_list_split in Hin as (ls1 & ls2 & ->).
    replace (ls1 ++ JFetch i u r :: ls2) with ((ls1 ++ [JFetch i u r]) ++ ls2) in H by (by rewrite <- app_assoc).
    rewrite jrun_app in H. destruct (jrun cf (ls1 ++ [JFetch i u r]) (jinit n)) as [s2|] eqn:E; [|done]. clear H.
    rewrite jrun_snoc in E. destruct (jrun cf ls1 (jinit n)) as [s1|] eqn:E1; [|done].
    apply state_inv in E1 as [_ H2]. cbn [jstep] in E. destruct (j_tasks s1 !! i) as [[|[|t todo] failed|]|] eqn:Et; try done.
    destruct (bool_decide_reflect (t = u)) as [->|]; [|done]. destruct (H2 _ _ _ Et) as [before ->].
    apply elem_of_app. right. left.
  Qed.
End facts.

(** [raw] is the usable key of the first entry with that id. *)
Definition first_entry {J} (set : jwk_set J) (kid : str) (raw : J) : Prop :=
  exists l1 l2, set = l1 ++ (kid, Some raw) :: l2 /\ forall x, (kid, x) ∉ l1.
Lemma lookup_kid_spec {J} (set : jwk_set J) kid raw : lookup_kid set kid = Some raw <-> first_entry set kid raw.
Proof.
  induction set as [|[k r] set IH]; cbn [lookup_kid].
  - split; [done|]. intros ([|] & l2 & H & _); done.
  - destruct (bool_decide_reflect (k = kid)) as [->|Hne].
    + split.
      * intros ->. exists [], set. split; [done|]. intros x Hx. by apply elem_of_nil in Hx.
      * intros (l1 & l2 & H & Hn). destruct l1 as [|y l1]; cbn in H; [by injection H as -> ->|]. injection H as <- _.
        exfalso. apply (Hn r). left.
    + rewrite IH. split.
      * intros (l1 & l2 & -> & Hn). exists ((k, r) :: l1), l2. split; [done|]. intros x Hx.
        apply elem_of_cons in Hx as [[= ? ?]|Hx]; [done|by eapply Hn].
      * intros (l1 & l2 & H & Hn). destruct l1 as [|y l1]; cbn in H; injection H as ? ?; [by subst|]. subst.
        exists l1, l2. split; [done|]. intros x Hx. apply (Hn x). by right.
Qed.

(** The URL a token's [jku] stands for. *)
Definition effective_url (cf : jconf) (jku : str) : str := match jku with [] => j_athenz cf | _ => jku end.

(** ** C31 *)
Theorem C31_key_iff {J} cf ls n (s : @jst J) kid jku raw : jrun cf ls (jinit n) = Some s ->
  (get_key cf s kid jku = Some raw <->
   kid <> [] /\ exists set, last_download ls (effective_url cf jku) set /\ first_entry set kid raw).
Proof.
  intros H. apply state_inv in H as [H _]. unfold get_key. fold (effective_url cf jku).
  specialize (H (effective_url cf jku)). destruct kid as [|c kid]; [split; [done|by intros [? _]]|].
  destruct (j_keys s !! effective_url cf jku) as [set|].
  - rewrite lookup_kid_spec. split.
    + intros Hf. split; [done|]. eauto.
    + intros (_ & set' & Hl & Hf). assert (set' = set) as ->; [|done].
      destruct H as (ls1 & i & ls2 & -> & Hn). destruct Hl as (ls1' & i' & ls2' & Heq & Hn'). clear Hf.
      revert ls1' Heq. induction ls1 as [|x ls1 IH]; intros ls1' Heq; destruct ls1' as [|y ls1']; cbn in Heq.
      * by injection Heq.
      * injection Heq as Hy Hl. exfalso. apply (Hn i' set'). rewrite Hl. apply elem_of_app. right. left.
      * injection Heq as Hy Hl. exfalso. apply (Hn' i set). rewrite <- Hl. apply elem_of_app. right. left.
      * injection Heq as Hy Heq. by eapply IH.
  - split; [done|]. intros (_ & set & (ls1 & i & ls2 & -> & _) & _). exfalso. apply (H i set). apply elem_of_app. right. left.
Qed.
(** Nothing but a configured URL (or the Athenz URL) ever yields a key. *)
Theorem C31_only_configured_urls {J} cf ls n (s : @jst J) kid jku raw : jrun cf ls (jinit n) = Some s ->
  get_key cf s kid jku = Some raw ->
  effective_url cf jku = j_athenz cf \/ effective_url cf jku ∈ j_urls cf.
Proof.
  intros H Hg. pose proof (proj1 (C31_key_iff _ _ _ _ _ _ _ H) Hg) as (_ & set & (ls1 & i & ls2 & Heq & _) & _).
  assert (effective_url cf jku ∈ targets cf) as Hin.
  { eapply (fetch_configured _ _ _ _ i); [exact H|]. rewrite Heq. apply elem_of_app. right. left. }
  unfold targets in Hin. destruct (is_contain _ _); [by right|]. apply elem_of_cons in Hin as [?|?]; [by left|by right].
Qed.
Theorem C31_unknown_jku_no_key {J} cf ls n (s : @jst J) kid jku : jrun cf ls (jinit n) = Some s ->
  jku <> [] -> jku <> j_athenz cf -> jku ∉ j_urls cf -> get_key cf s kid jku = None.
Proof.
  intros H Hne Ha Hu. destruct (get_key cf s kid jku) as [raw|] eqn:E; [|done].
  apply (C31_only_configured_urls _ _ _ _ _ _ _ H) in E. by destruct jku, E.
Qed.
Theorem C31_empty_kid_no_key {J} cf (s : @jst J) jku : get_key cf s [] jku = None.
Proof. done. Qed.

Definition cfj : jconf := JConf (B "https://a") [B "https://b"; B "https://c"].
Definition hj : list (@jlabel Z) :=
  [JBegin 0; JFetch 0 (B "https://a") (Some [(B "x", Some 1); (B "y", None); (B "x", Some 2)]);
   JBegin 1; JFetch 1 (B "https://a") None; JFetch 0 (B "https://b") (Some [(B "x", Some 3)]);
   JFetch 1 (B "https://b") (Some [(B "z", Some 4)]); JFetch 0 (B "https://c") None; JEnd 0;
   JFetch 1 (B "https://c") None; JEnd 1].
Example C31_nonvacuous :
  option_map (fun s => (get_key cfj s (B "x") [], get_key cfj s (B "y") [], get_key cfj s (B "x") (B "https://b"),
                        get_key cfj s (B "z") (B "https://b"), get_key cfj s (B "x") (B "https://evil"), get_key cfj s [] []))
    (jrun cfj hj (jinit 2)) = Some (Some 1, None, None, Some 4, None, None).
Proof. vm_compute. done. Qed.

(** ** C32 *)
(** The URLs visited: the configured ones in order, preceded by the Athenz URL unless it
    is among them. *)
Theorem C32_targets_cover cf : j_athenz cf ∈ targets cf /\ (forall u, u ∈ j_urls cf -> u ∈ targets cf) /\
  (forall u, u ∈ targets cf -> u = j_athenz cf \/ u ∈ j_urls cf).
Proof.
  assert (forall l k, is_contain l k = true <-> k ∈ l) as Hc.
  { intros l k. induction l as [|x l IH]; cbn [is_contain]; [split; [done|]; intros Hx; by apply elem_of_nil in Hx|].
    destruct (bool_decide_reflect (x = k)) as [->|Hne]; [split; [left|done]|]. rewrite IH, elem_of_cons. split; [by right|].
    intros [->|?]; done. }
  unfold targets. destruct (is_contain _ _) eqn:E.
  - apply Hc in E. split_and!; [done|done|by right].
  - split_and!; [left|by right|]. intros u Hu. apply elem_of_cons in Hu as [?|?]; auto.
Qed.

(** The fetches of call [i] in a history, and those that failed. *)
Definition fetches {J} (i : nat) (ls : list (@jlabel J)) : list (str * option (jwk_set J)) :=
  flat_map (fun l => match l with JFetch k u r => if (k =? i)%nat then [(u, r)] else [] | _ => [] end) ls.
Definition failures {J} (fs : list (str * option (jwk_set J))) : list str :=
  flat_map (fun '(u, r) => match r with None => [u] | Some _ => [] end) fs.
Lemma call_inv {J} cf ls n (s : @jst J) i t : jrun cf ls (jinit n) = Some s -> j_tasks s !! i = Some t ->
  match t with
  | JIdle => fetches i ls = []
  | JRun todo failed => targets cf = map fst (fetches i ls) ++ todo /\ failed = failures (fetches i ls)
  | JRet failed => targets cf = map fst (fetches i ls) /\ failed = failures (fetches i ls)
  end.
Proof.
  assert (forall l : @jlabel J, (forall u r, l <> JFetch i u r) -> fetches i [l] = []) as Hnil.
  { intros [|k u r|] Hl; try done. unfold fetches. cbn. destruct (Nat.eqb_spec k i) as [->|]; [|done]. by destruct (Hl u r). }
  revert s t. induction ls as [|l ls IH] using rev_ind; intros s t H Ht.
  - injection H as <-. cbn [jinit j_tasks] in Ht. by apply lookup_replicate_1 in Ht as [-> _].
  - rewrite jrun_snoc in H. destruct (jrun cf ls (jinit n)) as [s1|] eqn:E; [|done].
    assert (fetches i (ls ++ [l]) = fetches i ls ++ fetches i [l]) as Hf by apply flat_map_app. rewrite Hf. clear Hf.
    destruct l as [k|k u r|k]; cbn [jstep] in H; destruct (j_tasks s1 !! k) as [tk|] eqn:Ek; try done.
    + destruct tk; try done. injection H as <-. rewrite Hnil, app_nil_r by done. cbn [j_tasks] in Ht.
      apply list_lookup_insert_Some in Ht as [(-> & <- & _)|[_ Ht]]; [|by eapply IH].
      specialize (IH _ _ eq_refl Ek). cbn in IH. by rewrite IH.
    + destruct tk as [|[|u' todo] failed|]; try done. destruct (bool_decide_reflect (u' = u)) as [->|]; [|done].
      destruct (decide (k = i)) as [->|Hne].
      * specialize (IH _ _ eq_refl Ek). cbn beta iota in IH. destruct IH as [IH1 IH2].
        assert (fetches i [JFetch i u r] = [(u, r)]) as -> by (unfold fetches; cbn; by rewrite Nat.eqb_refl).
        assert (failures (fetches i ls ++ [(u, r)]) = failures (fetches i ls) ++ failures [(u, r)]) as Hfl by apply flat_map_app.
        rewrite map_app, Hfl, <- IH2.
        destruct r as [set|]; injection H as <-; cbn [j_tasks] in Ht;
          (rewrite list_lookup_insert in Ht by (by apply lookup_lt_Some in Ek)); injection Ht as <-; rewrite <- app_assoc; cbn; [by rewrite app_nil_r|done].
      * rewrite Hnil, app_nil_r by (by intros u' r' [= ? _ _]).
        destruct r as [set|]; injection H as <-; cbn [j_tasks] in Ht; rewrite list_lookup_insert_ne in Ht by done; by eapply IH.
    + destruct tk as [|[|u' todo] failed|]; try done. injection H as <-. rewrite Hnil, app_nil_r by done. cbn [j_tasks] in Ht.
      apply list_lookup_insert_Some in Ht as [(-> & <- & _)|[_ Ht]]; [|by eapply IH].
      specialize (IH _ _ eq_refl Ek). cbn beta iota in IH. by rewrite app_nil_r in IH.
Qed.
(** A finished Update attempted every target, in order, once per occurrence; it returned
    nil iff every download succeeded. *)
Theorem C32_every_target_attempted {J} cf ls n (s : @jst J) i t res : jrun cf ls (jinit n) = Some s ->
  j_tasks s !! i = Some t -> jresult t = Some res ->
  map fst (fetches i ls) = targets cf /\ (res = Ok tt <-> forall u, (u, None) ∉ fetches i ls).
Proof.
  intros H Ht Hr. pose proof (call_inv _ _ _ _ _ _ H Ht) as Hc. destruct t as [| |failed]; try done.
  destruct Hc as [Htg ->]. split; [done|]. clear -Hr. revert Hr. generalize (fetches i ls) as fs. intros fs Hr.
  assert (failures fs = [] <-> forall u, (u, None) ∉ fs) as <-.
  { clear Hr. unfold failures. induction fs as [|[u [set|]] fs IH]; cbn [flat_map app].
    - split; [|done]. intros _ u Hu. by apply elem_of_nil in Hu.
    - rewrite IH. split.
      + intros Hn u' Hu. apply elem_of_cons in Hu as [Hu|Hu]; [done|by eapply Hn].
      + intros Hn u' Hu. apply (Hn u'). by right.
    - split; [done|]. intros Hn. exfalso. apply (Hn u). left. }
  cbn [jresult] in Hr. destruct (failures fs); injection Hr as <-; done.
Qed.
(** A step changes the set of a URL only by a successful download from that URL, to
    exactly what was downloaded; every other set stays. *)
Theorem C32_only_downloads_change_keys {J} cf l (s s' : @jst J) u : jstep cf l s = Some s' ->
  (exists i set, l = JFetch i u (Some set) /\ j_keys s' !! u = Some set) \/
  ((forall i set, l <> JFetch i u (Some set)) /\ j_keys s' !! u = j_keys s !! u).
Proof.
  intros H. destruct l as [i|i v r|i]; cbn [jstep] in H; destruct (j_tasks s !! i) as [t|]; try done.
  - destruct t; try done. injection H as <-. right. done.
  - destruct t as [|[|t todo] failed|]; try done. destruct (bool_decide_reflect (t = v)) as [->|]; [|done].
    destruct r as [set|]; injection H as <-; [|by right].
    destruct (decide (v = u)) as [->|Hne]; [left; exists i, set; split; [done|]; apply lookup_insert|right].
    split; [by intros i' set' [= _ ? _]|]. by apply lookup_insert_ne.
  - destruct t as [|[|t todo] failed|]; try done. injection H as <-. by right.
Qed.
(** No call ever gets stuck or stops early: a running call can always fetch its next
    target, whatever happened to the previous ones. *)
Theorem C32_keeps_going {J} cf (s : @jst J) i u todo failed r : j_tasks s !! i = Some (JRun (u :: todo) failed) ->
  exists s' failed', jstep cf (JFetch i u r) s = Some s' /\ j_tasks s' !! i = Some (JRun todo failed').
Proof.
  intros H. cbn [jstep]. rewrite H, bool_decide_eq_true_2 by done.
  destruct r as [set|]; eexists _, _; (split; [done|]); cbn [j_tasks]; apply list_lookup_insert; by apply lookup_lt_Some in H.
Qed.
Example C32_nonvacuous :
  targets cfj = [B "https://a"; B "https://b"; B "https://c"] /\
  targets (JConf (B "https://b") [B "https://b"; B "https://c"]) = [B "https://b"; B "https://c"] /\
  option_map (fun s => map jresult (j_tasks s)) (jrun cfj hj (jinit 2)) =
    Some [Some (Err (ErrMsg "Failed to fetch the JWK Set from these URLs")); Some (Err (ErrMsg "Failed to fetch the JWK Set from these URLs"))] /\
  failures (fetches 1 hj) = [B "https://a"; B "https://c"].
Proof. vm_compute. done. Qed.

Print Assumptions C31_key_iff.
Print Assumptions C31_only_configured_urls.
Print Assumptions C31_unknown_jku_no_key.
Print Assumptions C31_empty_kid_no_key.
Print Assumptions C32_targets_cover.
Print Assumptions C32_every_target_attempted.
Print Assumptions C32_only_downloads_change_keys.
Print Assumptions C32_keeps_going.
