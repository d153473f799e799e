(** * Property C64: Init *)
From Verif Require Import Daemon.
From Verif Require Export GoStrings.

Definition ireaches (cf : iconf) (parent : option str) (ls : list ilabel) (s : ist) : Prop := irun cf ls (iinit cf parent) = Some s.
Lemma irun_app cf ls1 ls2 s : irun cf (ls1 ++ ls2) s = match irun cf ls1 s with Some s' => irun cf ls2 s' | None => None end.
Proof. revert s. induction ls1 as [|l ls1 IH]; intros s; [done|]. cbn [app irun]. destruct (istep cf l s); [apply IH|done]. Qed.
Lemma ireaches_ind cf parent (P : list ilabel -> ist -> Prop) : P [] (iinit cf parent) ->
  (forall ls s l s', ireaches cf parent ls s -> P ls s -> istep cf l s = Some s' -> P (ls ++ [l]) s') ->
  forall ls s, ireaches cf parent ls s -> P ls s.
Proof.
  intros H0 HS ls. induction ls as [|l ls IH] using rev_ind; intros s H.
  - unfold ireaches in H. cbn in H. by injection H as <-.
  - unfold ireaches in H. rewrite irun_app in H. destruct (irun cf ls (iinit cf parent)) as [s1|] eqn:E; [|done]. cbn [irun] in H.
    destruct (istep cf l s1) as [s2|] eqn:E2; [|done]. injection H as <-. apply (HS _ s1); auto.
Qed.
(** The errors so far of the children's updates. *)
Definition child_error (l : ilabel) : list str := match l with IPub (Some e) | IPol (Some e) | IJwk (Some e) => [e] | _ => [] end.
Definition child_errors (ls : list ilabel) : list str := ls ≫= child_error.
Definition parent_ended (parent : option str) (ls : list ilabel) (e : str) : Prop := parent = Some e \/ ICancel e ∈ ls.

Section inv.
  Context (cf : iconf) (parent : option str).
  Definition one_ok (ls : list ilabel) (g : gloc) : Prop :=
    match g with
    | GStart => True
    | GPub => ic_pub cf = true
    | GPol => ic_pol cf = true /\ (ic_pub cf = true -> IPub None ∈ ls)
    | GJwk => False
    | GEnd => (ic_pub cf = true -> IPub None ∈ ls) /\ (ic_pol cf = true -> IPol None ∈ ls)
    end.
  Definition two_ok (ls : list ilabel) (g : gloc) : Prop :=
    match g with GStart | GJwk => ic_jwk cf = true | GEnd => ic_jwk cf = true -> IJwk None ∈ ls | _ => False end.
  Lemma one_mono ls l g : one_ok ls g -> one_ok (ls ++ [l]) g.
  Proof. destruct g; cbn; rewrite ?elem_of_app; naive_solver. Qed.
  Lemma two_mono ls l g : two_ok ls g -> two_ok (ls ++ [l]) g.
  Proof. destruct g; cbn; rewrite ?elem_of_app; naive_solver. Qed.
  Lemma errors_snoc ls l : child_errors (ls ++ [l]) = child_errors ls ++ child_error l.
  Proof. unfold child_errors. rewrite bind_app. cbn. by rewrite app_nil_r. Qed.
  Definition err_ok (ls : list ilabel) (s : ist) : Prop :=
    match i_err s with
    | None => child_errors ls = [] /\ one_ok ls (i_one s) /\ two_ok ls (i_two s)
    | Some e => head (child_errors ls) = Some e \/ parent_ended parent ls e
    end.
  Definition init_ok (ls : list ilabel) (s : ist) : Prop :=
    err_ok ls s /\ (i_one s = GPol -> one_ok ls GPol) /\ (forall e, i_parent s = Some e -> parent_ended parent ls e) /\
    (forall r, i_done s = Some r -> r = i_err s /\ i_one s = GEnd /\ i_two s = GEnd).
  Lemma err_mono ls l s s' : child_error l = [] -> i_err s' = i_err s -> i_one s' = i_one s -> i_two s' = i_two s -> err_ok ls s -> err_ok (ls ++ [l]) s'.
  Proof.
    unfold err_ok. intros Hc -> -> -> H. destruct (i_err s).
    - rewrite errors_snoc, Hc, app_nil_r. unfold parent_ended in *. rewrite elem_of_app. naive_solver.
    - rewrite errors_snoc, Hc, app_nil_r. destruct H as (? & ? & ?). split_and!; [done|by apply one_mono|by apply two_mono].
  Qed.
  Lemma some_mono ls l e : head (child_errors ls) = Some e \/ parent_ended parent ls e -> head (child_errors (ls ++ [l])) = Some e \/ parent_ended parent (ls ++ [l]) e.
  Proof.
    intros [H|[H|H]]; [left|right; by left|right; right; apply elem_of_app; by left]. rewrite errors_snoc. by destruct (child_errors ls).
  Qed.
  (** Recording what a function returned *)
  Lemma end1_ok ls l s r : err_ok ls s ->
    (forall e, r = Some e -> child_error l = [e] \/ child_error l = [] /\ (i_err s = None -> parent_ended parent ls e)) ->
    (r = None -> child_error l = [] /\ (i_err s = None -> one_ok (ls ++ [l]) GEnd)) ->
    err_ok (ls ++ [l]) (ISt GEnd (i_two s) (record r s) (i_parent s) (i_done s)).
  Proof.
    unfold err_ok, record. intros H H1 H2. cbn [i_err i_one i_two]. destruct (i_err s) as [x|]; [by apply some_mono|]. destruct H as (Hc & Ho & Ht). destruct r as [e|].
    - destruct (H1 e eq_refl) as [Hx|[Hx Hy]].
      + left. by rewrite errors_snoc, Hc, Hx.
      + right. destruct (Hy eq_refl); [by left|right; apply elem_of_app; by left].
    - destruct (H2 eq_refl) as [Hx Hy]. rewrite errors_snoc, Hc, Hx. split_and!; [done|by apply Hy|by apply two_mono].
  Qed.
  Lemma end2_ok ls l s r : err_ok ls s ->
    (forall e, r = Some e -> child_error l = [e] \/ child_error l = [] /\ (i_err s = None -> parent_ended parent ls e)) ->
    (r = None -> child_error l = [] /\ (i_err s = None -> two_ok (ls ++ [l]) GEnd)) ->
    err_ok (ls ++ [l]) (ISt (i_one s) GEnd (record r s) (i_parent s) (i_done s)).
  Proof.
    unfold err_ok, record. intros H H1 H2. cbn [i_err i_one i_two]. destruct (i_err s) as [x|]; [by apply some_mono|]. destruct H as (Hc & Ho & Ht). destruct r as [e|].
    - destruct (H1 e eq_refl) as [Hx|[Hx Hy]].
      + left. by rewrite errors_snoc, Hc, Hx.
      + right. destruct (Hy eq_refl); [by left|right; apply elem_of_app; by left].
    - destruct (H2 eq_refl) as [Hx Hy]. rewrite errors_snoc, Hc, Hx. split_and!; [done|by apply one_mono|by apply Hy].
  Qed.
  Lemma go_ok ls l s g g' : err_ok ls s -> child_error l = [] -> (i_err s = None -> one_ok (ls ++ [l]) g) -> (i_err s = None -> two_ok (ls ++ [l]) g') ->
    err_ok (ls ++ [l]) (ISt g g' (i_err s) (i_parent s) (i_done s)).
  Proof.
    unfold err_ok. intros H Hl H1 H2. cbn [i_err i_one i_two]. destruct (i_err s); [by apply some_mono|]. destruct H as (Hc & _ & _). rewrite errors_snoc, Hc, Hl. auto.
  Qed.
  Lemma last_in (ls : list ilabel) l : l ∈ ls ++ [l].
  Proof. apply elem_of_app. right. by apply elem_of_list_singleton. Qed.
  Lemma eg_ok ls s e : (forall e, i_parent s = Some e -> parent_ended parent ls e) -> eg_err s = Some e -> i_err s = None -> parent_ended parent ls e.
  Proof. unfold eg_err. intros H He Hn. rewrite Hn in He. destruct (i_parent s); [injection He as <-; auto|done]. Qed.
  Lemma eg_none s : eg_err s = None -> i_err s = None.
  Proof. unfold eg_err. by destruct (i_parent s), (i_err s). Qed.
  Lemma rest_ok ls l s g g' x :
    (i_one s = GPol -> one_ok ls GPol) -> (forall e, i_parent s = Some e -> parent_ended parent ls e) ->
    (forall r, i_done s = Some r -> r = i_err s /\ i_one s = GEnd /\ i_two s = GEnd) -> (i_one s <> GEnd \/ i_two s <> GEnd) ->
    (g = GPol -> i_one s = GPol \/ one_ok (ls ++ [l]) GPol) ->
    let s' := ISt g g' x (i_parent s) (i_done s) in
    (i_one s' = GPol -> one_ok (ls ++ [l]) GPol) /\ (forall e, i_parent s' = Some e -> parent_ended parent (ls ++ [l]) e) /\
    (forall r, i_done s' = Some r -> r = i_err s' /\ i_one s' = GEnd /\ i_two s' = GEnd).
  Proof.
    intros H1 H2 H3 Hn H4. cbn [i_one i_parent i_done i_err i_two]. split_and!.
    - intros ->. destruct H4 as [H|H]; [done|apply one_mono; auto|done].
    - intros e He. destruct (H2 e He); [by left|right; apply elem_of_app; by left].
    - intros r Hr. apply H3 in Hr. naive_solver.
  Qed.
  Lemma init_inv ls s : ireaches cf parent ls s -> init_ok ls s.
  Proof.
    apply (ireaches_ind cf parent init_ok).
    { unfold init_ok, err_ok, iinit. cbn. split_and!; try done; [destruct (ic_jwk cf) eqn:Ej; cbn; by rewrite Ej|by intros e ->; left]. }
    clear. intros ls s l s' _ (I1 & I2 & I3 & I4) H. unfold init_ok. destruct l; unfold istep in H.
    - (* ICancel *) destruct (i_parent s) eqn:Ep; [done|]. injection H as <-. split; [by apply (err_mono ls _ s)|]. cbn [i_one i_parent i_done i_err i_two]. split_and!.
      + intros Ho. apply one_mono. auto.
      + intros x [= ->]. right. apply last_in.
      + apply I4.
    - destruct (i_one s) eqn:Eo; try done. destruct (eg_err s) as [e|] eqn:Eg.
      + injection H as <-. split; [apply end1_ok|apply rest_ok]; rewrite ?Eo; try done; [|by left]. intros x [= <-]. right. split; [done|]. by apply eg_ok.
      + apply eg_none in Eg. destruct (ic_pub cf) eqn:Epub; [|destruct (ic_pol cf) eqn:Epol]; injection H as <-.
        * split; [apply go_ok|apply rest_ok]; rewrite ?Eo; try done; [|by left]. intros Hn. unfold err_ok in I1. rewrite Hn in I1. apply two_mono. naive_solver.
        * split; [apply go_ok|apply rest_ok]; rewrite ?Eo; try done; [by cbn; rewrite Epub| |by left|by right; cbn; rewrite Epub]. intros Hn. unfold err_ok in I1. rewrite Hn in I1. apply two_mono. naive_solver.
        * split; [apply end1_ok|apply rest_ok]; rewrite ?Eo; try done; [|by left]. intros _. cbn. by rewrite Epub, Epol.
    - destruct (i_two s) eqn:Eo; try done. destruct (eg_err s) as [e|] eqn:Eg.
      + injection H as <-. split; [apply end2_ok|apply rest_ok]; rewrite ?Eo; try done; [|by right|by left]. intros x [= <-]. right. split; [done|]. by apply eg_ok.
      + apply eg_none in Eg. injection H as <-. pose proof I1 as I5. unfold err_ok in I5. rewrite Eg, Eo in I5. split; [apply go_ok|apply rest_ok]; rewrite ?Eo; try done; [..|by right|by left].
        * intros _. apply one_mono. naive_solver.
        * intros _. cbn in I5 |- *. naive_solver.
    - destruct (i_one s) eqn:Eo; try done. destruct r as [e|]; [|destruct (ic_pol cf) eqn:Epol]; injection H as <-.
      + split; [apply end1_ok|apply rest_ok]; rewrite ?Eo; try done; [|by left]. intros x [= ->]. by left.
      + split; [apply go_ok|apply rest_ok]; rewrite ?Eo; try done; [..|by left|].
        * intros _. split; [done|intros _; apply last_in].
        * intros Hn. unfold err_ok in I1. rewrite Hn in I1. apply two_mono. naive_solver.
        * intros _. right. split; [done|intros _; apply last_in].
      + split; [apply end1_ok|apply rest_ok]; rewrite ?Eo; try done; [|by left]. intros _. split; [done|]. intros _. split; [intros _; apply last_in|by rewrite Epol].
    - destruct (i_one s) eqn:Eo; try done. injection H as <-. split; [apply end1_ok|apply rest_ok]; rewrite ?Eo; try done; [..|by left].
      + intros x ->. by left.
      + intros ->. split; [done|]. intros _. split; [|intros _; apply last_in]. intros Hp. apply elem_of_app. left. by apply I2.
    - destruct (i_two s) eqn:Eo; try done. injection H as <-. split; [apply end2_ok|apply rest_ok]; rewrite ?Eo; try done; [..|by right|by left].
      + intros x ->. by left.
      + intros ->. split; [done|]. intros _ _. apply last_in.
    - destruct (i_one s) eqn:Eo; try done. destruct (i_two s) eqn:Et; try done. destruct (i_done s) eqn:Ed; [done|]. injection H as <-.
      split; [apply (err_mono ls _ s); done|]. cbn [i_one i_parent i_done i_err i_two]. split_and!; [done| |by intros r [= <-]].
      intros e He. destruct (I3 e He); [by left|right; apply elem_of_app; by left].
  Qed.
End inv.

(** Policies are fetched only after the public keys were updated successfully. *)
Theorem C64_keys_before_policies cf parent ls s : ireaches cf parent ls s -> i_one s = GPol -> ic_pub cf = true -> IPub None ∈ ls.
Proof. intros H Ho. apply init_inv in H as (_ & H & _). apply H in Ho as [_ Ho]. done. Qed.
Theorem C64_policy_result_after_keys cf parent ls1 r ls2 s : ireaches cf parent (ls1 ++ IPol r :: ls2) s -> ic_pub cf = true -> IPub None ∈ ls1.
Proof.
  unfold ireaches. rewrite irun_app. destruct (irun cf ls1 (iinit cf parent)) as [s1|] eqn:E; [|done]. cbn [irun]. intros H Hp. destruct (istep cf (IPol r) s1) eqn:E1; [|done].
  apply (C64_keys_before_policies cf parent ls1 s1); [done| |done]. unfold istep in E1. by destruct (i_one s1).
Qed.
(** nil means that every enabled daemon updated successfully. *)
Theorem C64_nil_means_all_updated cf parent ls s : ireaches cf parent ls s -> i_done s = Some None ->
  (ic_pub cf = true -> IPub None ∈ ls) /\ (ic_pol cf = true -> IPol None ∈ ls) /\ (ic_jwk cf = true -> IJwk None ∈ ls) /\ child_errors ls = [].
Proof.
  intros H Hd. apply init_inv in H as (H1 & _ & _ & H2). apply H2 in Hd as (He & Ho & Ht). unfold err_ok in H1. rewrite <- He, Ho, Ht in H1. cbn in H1. naive_solver.
Qed.
(** An error is the first of the children's errors, or the error of a context that ended. *)
Theorem C64_error_is_genuine cf parent ls s e : ireaches cf parent ls s -> i_done s = Some (Some e) ->
  head (child_errors ls) = Some e \/ parent_ended parent ls e.
Proof. intros H Hd. apply init_inv in H as (H1 & _ & _ & H2). apply H2 in Hd as (He & _). unfold err_ok in H1. by rewrite <- He in H1. Qed.
(** Without cancellation: an error exactly if a child failed. *)
Theorem C64_error_iff cf ls s r : ireaches cf None ls s -> (forall e, ICancel e ∉ ls) -> i_done s = Some r -> r = head (child_errors ls).
Proof.
  intros H Hn Hd. destruct r as [e|].
  - apply (C64_error_is_genuine cf None ls s e) in H; [|done]. destruct H as [H|[H|H]]; [done..|by apply Hn in H].
  - apply (C64_nil_means_all_updated cf None ls s) in H; [|done]. by destruct H as (_ & _ & _ & ->).
Qed.
(** Init always comes to an end once the updates it runs return. *)
Theorem C64_terminates cf parent ls s : ireaches cf parent ls s -> i_done s = None -> exists l s', istep cf l s = Some s' /\ (forall e, l <> ICancel e).
Proof.
  intros H Hd. assert (i_one s <> GJwk /\ i_two s <> GPub /\ i_two s <> GPol) as (H1 & H2 & H3).
  { apply (ireaches_ind cf parent (fun _ s => i_one s <> GJwk /\ i_two s <> GPub /\ i_two s <> GPol)) in H; [done|cbn; by destruct (ic_jwk cf)|].
    clear. intros ls s l s' _ (H1 & H2 & H3) H. destruct s as [o t er pa dn]. cbn [i_one i_two] in *. destruct l; unfold istep in H; cbn [i_one i_two i_err i_parent i_done] in H;
      repeat match type of H with match ?x with _ => _ end = Some _ => destruct x end; try done; injection H as <-; repeat case_match; cbn [i_one i_two]; done. }
  destruct (i_one s) eqn:Eo; try done.
  - exists IStart1. eexists. unfold istep. by rewrite Eo.
  - exists (IPub (Some [])). eexists. unfold istep. by rewrite Eo.
  - exists (IPol None). eexists. unfold istep. by rewrite Eo.
  - destruct (i_two s) eqn:Et; try done.
    + exists IStart2. eexists. unfold istep. by rewrite Et.
    + exists (IJwk None). eexists. unfold istep. by rewrite Et.
    + exists IWait. eexists. unfold istep. by rewrite Eo, Et, Hd.
Qed.
Definition answer (cf : iconf) (ls : list ilabel) : option (option (option str)) := option_map i_done (irun cf ls (iinit cf None)).
Definition all_on : iconf := IConf true true true.
Example C64_nonvacuous :
  answer all_on [IStart1; IStart2; IPub None; IJwk None; IPol None; IWait] = Some (Some None) /\
  answer all_on [IStart1; IPub (Some (B "p")); IStart2; IWait] = Some (Some (Some (B "p"))) /\
  answer all_on [IStart1; IStart2; IPub None; IJwk (Some (B "j")); IPol (Some (B "q")); IWait] = Some (Some (Some (B "j"))) /\
  answer all_on [IStart1; IStart2; IPol None] = None /\
  answer (IConf false true false) [IStart1; IPol None; IWait] = Some (Some None) /\
  answer all_on [ICancel (B "c"); IStart2; IStart1; IWait] = Some (Some (Some (B "c"))).
Proof. split_and!; vm_compute; reflexivity. Qed.

Print Assumptions C64_keys_before_policies.
Print Assumptions C64_policy_result_after_keys.
Print Assumptions C64_nil_means_all_updated.
Print Assumptions C64_error_is_genuine.
Print Assumptions C64_error_iff.
Print Assumptions C64_terminates.
Print Assumptions C64_nonvacuous.
