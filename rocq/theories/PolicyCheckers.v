(** * Boolean checkers used only to discharge hypotheses of the examples *)
From Verif Require Export PolicyUpdateFacts.

Definition memb (c : ascii) (s : str) : bool := existsb (fun x => if ascii_dec x c then true else false) s.
Lemma memb_spec c s : memb c s = false -> c ∉ s.
Proof.
  unfold memb. intros H Hin. assert (existsb (fun x => if ascii_dec x c then true else false) s = true) as H'; [|congruence].
  apply existsb_exists. exists c. split; [by apply elem_of_list_In|]. by destruct (ascii_dec c c).
Qed.
Definition eqb_str (a b : str) : bool := if decide (a = b) then true else false.
Lemma eqb_str_true a b : eqb_str a b = true <-> a = b.
Proof. unfold eqb_str. by destruct (decide (a = b)). Qed.

Definition no_commasb (doc : document) : bool :=
  forallb (fun pol => forallb (fun r => negb (memb "," (r_role r)) && negb (memb "," (r_action r))) pol) doc.
Lemma no_commasb_spec doc : no_commasb doc = true -> no_commas doc.
Proof.
  unfold no_commasb, no_commas. rewrite forallb_forall. intros H pol r Hp%elem_of_list_In Hr%elem_of_list_In.
  specialize (H _ Hp). rewrite forallb_forall in H. specialize (H _ Hr).
  apply andb_true_iff in H as [H1%negb_true_iff H2%negb_true_iff]. split; by apply memb_spec.
Qed.

Definition sameb (r r' : raw) : bool :=
  eqb_str (r_role r) (r_role r') && eqb_str (r_action r) (r_action r') && eqb_str (r_resource r) (r_resource r').
Definition no_conflictb (U : unicode) (doc : document) : bool :=
  forallb (fun i => forallb (fun j => (i =? j)%nat ||
    forallb (fun r => forallb (fun r' => negb (sameb r r') || negb (raw_denyb U r) || raw_denyb U r')
      (nth j doc [])) (nth i doc [])) (seq 0 (length doc))) (seq 0 (length doc)).
Lemma no_conflictb_spec U doc : no_conflictb U doc = true -> no_cross_conflict U doc.
Proof.
  unfold no_conflictb. rewrite forallb_forall. intros H i j pi pj r r' Hne Hi Hj Hr Hr' (E1 & E2 & E3) Hd.
  pose proof (H i ltac:(apply in_seq; apply lookup_lt_Some in Hi; lia)) as Hx. rewrite forallb_forall in Hx.
  specialize (Hx j ltac:(apply in_seq; apply lookup_lt_Some in Hj; lia)).
  apply orb_true_iff in Hx as [Hx%Nat.eqb_eq|Hx]; [done|].
  assert (nth i doc [] = pi) as Hni by (rewrite nth_lookup, Hi; done).
  assert (nth j doc [] = pj) as Hnj by (rewrite nth_lookup, Hj; done).
  rewrite Hni, Hnj, forallb_forall in Hx. specialize (Hx r ltac:(by apply elem_of_list_In)).
  rewrite forallb_forall in Hx. specialize (Hx r' ltac:(by apply elem_of_list_In)).
  apply orb_true_iff in Hx as [Hx|Hx]; [|done]. apply orb_true_iff in Hx as [Hx|Hx]; apply negb_true_iff in Hx.
  - unfold sameb in Hx. rewrite E1, E2, E3 in Hx. 
    assert (forall s, eqb_str s s = true) as Hrefl by (intros; by apply eqb_str_true). by rewrite !Hrefl in Hx.
  - unfold raw_deny in Hd. unfold raw_denyb in Hx. congruence.
Qed.

(** Values of a map as a list, up to order. *)
Definition same_elements (l : list raw) (m : gmap str raw) : bool :=
  (length l =? size m)%nat && forallb (fun r => match m !! km r with
    | Some r' => sameb r r' && eqb_str (r_effect r) (r_effect r')
    | None => false end) l && (if NoDup_dec (map km l) then true else false).
Lemma same_elements_perm l m : same_elements l m = true -> l ≡ₚ (map_to_list m).*2.
Proof.
  unfold same_elements. rewrite !andb_true_iff, Nat.eqb_eq, forallb_forall.
  intros [[Hlen Hall] Hnd]. destruct (NoDup_dec (map km l)) as [Hnd'|]; [clear Hnd|done].
  assert (Forall (fun r => m !! km r = Some r) l) as Hin.
  { apply Forall_forall. intros r Hr. apply elem_of_list_In, Hall in Hr.
    destruct (m !! km r) as [r'|]; [|done]. unfold sameb in Hr. rewrite !andb_true_iff, !eqb_str_true in Hr.
    destruct Hr as (((?&?)&?)&?). f_equal. destruct r, r'; cbn in *. by subst. }
  assert ((fun r => (km r, r)) <$> l ≡ₚ map_to_list m) as Hp.
  { apply submseteq_Permutation_length_eq.
    - unfold size, map_size in Hlen. rewrite fmap_length. lia.
    - apply NoDup_submseteq.
      + apply (NoDup_fmap_1 fst). rewrite <- list_fmap_compose. exact Hnd'.
      + intros [k r] Hk. apply elem_of_list_fmap in Hk as (r' & [= -> ->] & Hk).
        apply elem_of_map_to_list. rewrite Forall_forall in Hin. by apply Hin. }
  rewrite <- Hp, <- list_fmap_compose. cbn. by rewrite list_fmap_id.
Qed.

Definition is_done (w : sw) : bool := match w with SDone None => true | _ => false end.
(** The schedule completes phase 1 and the values are [script]. *)
Definition scriptb (U : unicode) (doc : document) (ls : list slabel) (script : list raw) : bool :=
  match srun U ls (sinit doc false) with
  | Some s => forallb is_done (ss_work s) && same_elements script (ss_map s)
  | None => false
  end.
Lemma scriptb_spec U doc ls script : scriptb U doc ls script = true ->
  exists s, srun U ls (sinit doc false) = Some s /\ simplified s /\ script ≡ₚ (map_to_list (ss_map s)).*2.
Proof.
  unfold scriptb. destruct (srun U ls (sinit doc false)) as [s|]; [|done].
  rewrite andb_true_iff, forallb_forall. intros [Hd Hs]. exists s. split; [done|]. split.
  - apply Forall_forall. intros w Hw%elem_of_list_In. specialize (Hd w Hw). by destruct w as [| |[]].
  - by apply same_elements_perm.
Qed.
Lemma scriptb_script_of U doc ls script : scriptb U doc ls script = true -> script_of U doc script.
Proof. intros (s & ? & ? & ?)%scriptb_spec. by exists ls, s. Qed.
Lemma scriptb_faithful U doc ls script : scriptb U doc ls script = true -> no_conflictb U doc = true ->
  faithful_script U doc script.
Proof. intros (s & ? & ? & ?)%scriptb_spec ?%no_conflictb_spec. exists ls, s. split_and!; [done..|by left]. Qed.

(** No two goroutines inside the same Load/Store pair along the run. *)
Definition pending (w : sw) : option str := match w with SStore a _ _ => Some (km a) | _ => None end.
Definition no_overlapb (s : sst) : bool :=
  if NoDup_dec (omap pending (ss_work s)) then true else false.
Fixpoint race_freeb (U : unicode) (ls : list slabel) (s : sst) : bool :=
  no_overlapb s && match ls with
    | [] => true
    | l :: ls => match sstep U l s with Some s' => race_freeb U ls s' | None => true end
    end.
Lemma omap_dup {A C} (f : A -> option C) (l : list A) i j x y k :
  NoDup (omap f l) -> l !! i = Some x -> l !! j = Some y -> f x = Some k -> f y = Some k -> i = j.
Proof.
  revert i j. induction l as [|z l IH]; intros i j Hn Hi Hj Hx Hy; [done|]. cbn [omap list_omap] in Hn.
  destruct i as [|i], j as [|j]; cbn in Hi, Hj.
  - done.
  - injection Hi as ->. rewrite Hx in Hn. apply NoDup_cons in Hn as [Hn _]. destruct Hn.
    apply elem_of_list_omap. exists y. split; [by eapply elem_of_list_lookup_2|done].
  - injection Hj as ->. rewrite Hy in Hn. apply NoDup_cons in Hn as [Hn _]. destruct Hn.
    apply elem_of_list_omap. exists x. split; [by eapply elem_of_list_lookup_2|done].
  - f_equal. apply IH; try done. destruct (f z); [by apply NoDup_cons in Hn as [_ Hn]|done].
Qed.
Lemma race_freeb_spec U ls s : race_freeb U ls s = true -> race_free U ls s.
Proof.
  revert s. induction ls as [|l ls IH]; intros s H ls1 ls2 s1 i j a f rest b f' rest' Hl Hr Hi Hj Hk.
  - destruct ls1; [|done]. injection Hr as <-. cbn in H. rewrite andb_true_r in H. unfold no_overlapb in H.
    destruct (NoDup_dec _) as [Hn|]; [|done]. eapply (omap_dup pending); [exact Hn|exact Hi|exact Hj|done|]. cbn. by rewrite Hk.
  - cbn [race_freeb] in H. apply andb_true_iff in H as [H1 H2]. destruct ls1 as [|l1 ls1].
    + injection Hr as <-. unfold no_overlapb in H1. destruct (NoDup_dec _) as [Hn|]; [|done].
      eapply (omap_dup pending); [exact Hn|exact Hi|exact Hj|done|]. cbn. by rewrite Hk.
    + injection Hl as -> Hl. cbn [srun] in Hr. destruct (sstep U l1 s) as [s2|]; [|done]. by eapply (IH s2).
Qed.

(** Documents with disjoint roles. *)
Definition roles_of (doc : document) : list str := map r_role (concat doc).
Lemma elem_of_roles doc pol r : pol ∈ doc -> r ∈ pol -> r_role r ∈ roles_of doc.
Proof.
  intros Hp Hr. unfold roles_of. apply elem_of_list_In. apply in_map. apply in_concat.
  exists pol. split; by apply elem_of_list_In.
Qed.

(** Does an assertion apply to a request? *)
Definition appliesb (U : unicode) (act res domain action resource : str) : bool :=
  match new_assertion U act res [] with Ok a => a_matches U a domain action resource | _ => false end.
Lemma appliesb_spec U act res domain action resource :
  appliesb U act res domain action resource = true <-> applies U act res domain action resource.
Proof.
  unfold appliesb. destruct (new_assertion U act res []) as [a|e|] eqn:E.
  - by apply a_matches_iff with (effect := []).
  - split; [done|]. intros (d & r & -> & Hd & _).
    destruct (proj2 (new_assertion_ok U act (d ++ B ":" ++ r) [])) as [a Ha]; [|congruence].
    apply elem_of_app. right. left.
  - split; [done|]. intros (d & r & -> & Hd & _).
    destruct (proj2 (new_assertion_ok U act (d ++ B ":" ++ r) [])) as [a Ha]; [|congruence].
    apply elem_of_app. right. left.
Qed.

Definition raw_appliesb (U : unicode) (domain action resource role : str) (r : raw) : bool :=
  eqb_str (r_role r) (domain ++ B ":role." ++ role) &&
  appliesb U (r_action r) (r_resource r) domain action resource.
Definition doc_deniesb (U : unicode) (domain action resource : str) (doc : document) (role : str) : bool :=
  existsb (fun r => raw_appliesb U domain action resource role r && raw_denyb U r) (concat doc).
Definition doc_allowsb (U : unicode) (domain action resource : str) (doc : document) (role : str) : bool :=
  existsb (fun r => raw_appliesb U domain action resource role r && negb (raw_denyb U r)) (concat doc).
Lemma raw_appliesb_spec U domain action resource role r :
  raw_appliesb U domain action resource role r = true <-> raw_applies U domain action resource role r.
Proof. unfold raw_appliesb, raw_applies. by rewrite andb_true_iff, eqb_str_true, appliesb_spec. Qed.
Lemma doc_deniesb_spec U domain action resource doc role :
  doc_deniesb U domain action resource doc role = true <-> doc_denies U domain action resource doc role.
Proof.
  unfold doc_deniesb, doc_denies. rewrite existsb_exists. split.
  - intros (r & (pol & Hp & Hr)%in_concat & [Ha Hd]%andb_true_iff). exists pol, r.
    rewrite !elem_of_list_In. split_and!; [done..|by apply raw_appliesb_spec|done].
  - intros (pol & r & Hp & Hr & Ha & Hd). exists r. split.
    + apply in_concat. exists pol. by rewrite <- !elem_of_list_In.
    + apply andb_true_iff. split; [by apply raw_appliesb_spec|done].
Qed.
Lemma doc_allowsb_spec U domain action resource doc role :
  doc_allowsb U domain action resource doc role = true <-> doc_allows U domain action resource doc role.
Proof.
  unfold doc_allowsb, doc_allows. rewrite existsb_exists. split.
  - intros (r & (pol & Hp & Hr)%in_concat & [Ha Hd]%andb_true_iff). exists pol, r.
    rewrite !elem_of_list_In. split_and!; [done..|by apply raw_appliesb_spec|].
    apply negb_true_iff in Hd. unfold raw_deny. unfold raw_denyb in Hd. congruence.
  - intros (pol & r & Hp & Hr & Ha & Hd). exists r. split.
    + apply in_concat. exists pol. by rewrite <- !elem_of_list_In.
    + apply andb_true_iff. split; [by apply raw_appliesb_spec|]. apply negb_true_iff.
      unfold raw_denyb, raw_deny in *. by apply not_true_is_false.
Qed.
