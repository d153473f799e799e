(** * Properties C08 - C11: meaning of one assertion (policy/assertion.go) *)
From Verif Require Import AssertionProofs.

(** C08.  A cached assertion applies to a request exactly when the domains fold to
    the same text and the lower-cased globs match the lower-cased request. *)
Theorem C08_assertion_is_glob : forall U action resource effect a domain act res,
  new_assertion U action resource effect = Ok a ->
  (a_matches U a domain act res = true <-> applies U action resource domain act res).
Proof. exact a_matches_iff. Qed.

(** The effect is a denial exactly when the effect text folds to "deny"; every
    other effect text is an allow. *)
Theorem C08_assertion_effect : forall U action resource effect a,
  new_assertion U action resource effect = Ok a ->
  a_effect a = if equal_fold U (B "deny") effect then Some ErrDenyByPolicy else None.
Proof.
  intros U action resource effect a H.
  by apply new_assertion_inv in H as (d & r & _ & _ & _ & _ & _ & _ & _ & ?).
Qed.

(** On ASCII effects: exactly the case variants of deny. *)
Theorem C08_ascii_effect : forall U action resource effect a,
  is_ascii effect = true ->
  new_assertion U action resource effect = Ok a ->
  (a_effect a = Some ErrDenyByPolicy <-> case_variant (B "deny") effect).
Proof.
  intros U action resource effect a He H. rewrite (C08_assertion_effect _ _ _ _ _ H).
  rewrite <- (equal_fold_ascii U) by done. by destruct (equal_fold U (B "deny") effect).
Qed.

Definition C08_ex := new_assertion U0 (B "re?d*") (B "Dom.A:doc/*.v(1)") (B "DeNy").
Example C08_nonvacuous : exists a, C08_ex = Ok a /\ a_effect a = Some ErrDenyByPolicy /\
  a_matches U0 a (B "dom.a") (B "READ-all") (B "Doc/x/y.V(1)") = true /\
  a_matches U0 a (B "dom.a") (B "READ-all") (B "Doc/x/yzv(1)") = false /\
  a_matches U0 a (B "dom.b") (B "READ-all") (B "Doc/x/y.V(1)") = false /\
  a_matches U0 a (B "dom.a") (B "red") (B "Doc/x/y.V(1)") = false.
Proof. eexists. split; [reflexivity|]. vm_compute. done. Qed.

(** C09.  Total characterisation of failure: only a resource without ':' fails,
    always with ErrInvalidPolicyResource; the regexp compiler never rejects. *)
Theorem C09_new_assertion_fails_iff : forall U action resource effect,
  (":"%char ∈ resource -> exists a, new_assertion U action resource effect = Ok a) /\
  (":"%char ∉ resource -> new_assertion U action resource effect = Err ErrInvalidPolicyResource).
Proof.
  intros U action resource effect. split; intros H.
  - by apply new_assertion_ok.
  - unfold new_assertion, split_n2. change (B ":") with [":"%char].
    by rewrite (proj2 (cut_char_none ":"%char resource)).
Qed.

Theorem C09_pattern_compiles : forall g, exists r, compile (pattern_from_glob g) = Some r.
Proof. intros g. eexists. apply compile_glob. Qed.

(** Without wildcards an assertion covers one action (resource) text only, up to case. *)
Theorem C09_literal_matches_itself_only : forall U action resource effect a domain act res,
  new_assertion U action resource effect = Ok a ->
  Forall (fun c => c <> 42 /\ c <> 63) (lower_runes U action) ->
  a_matches U a domain act res = true -> lower_runes U act = lower_runes U action.
Proof.
  intros U action resource effect a domain act res Ha Hl Hm.
  apply (a_matches_iff _ _ _ _ _ _ _ _ Ha) in Hm as (d & r & _ & _ & _ & Hg & _).
  by apply glob_literal in Hg.
Qed.
Theorem C09_literal_resource_matches_itself_only : forall U action d r effect a domain act res,
  ":"%char ∉ d ->
  new_assertion U action (d ++ B ":" ++ r) effect = Ok a ->
  Forall (fun c => c <> 42 /\ c <> 63) (lower_runes U r) ->
  a_matches U a domain act res = true -> lower_runes U res = lower_runes U r.
Proof.
  intros U action d r effect a domain act res Hni Ha Hl Hm.
  apply (a_matches_iff _ _ _ _ _ _ _ _ Ha) in Hm as (d' & r' & He & Hni' & _ & _ & Hg).
  assert (cut [":"%char] (d ++ B ":" ++ r) = Some (d, r)) as E1 by (by apply cut_char_some).
  assert (cut [":"%char] (d ++ B ":" ++ r) = Some (d', r')) as E2 by (by apply cut_char_some).
  rewrite E1 in E2. injection E2 as <- <-. by apply glob_literal in Hg.
Qed.

Example C09_nonvacuous :
  (exists a, new_assertion U0 (B "a.b+[c]{2}|(x)^$\") (B "d:r") (B "allow") = Ok a /\
     a_matches U0 a (B "d") (B "A.B+[C]{2}|(X)^$\") (B "R") = true /\
     a_matches U0 a (B "d") (B "axb+[c]{2}|(x)^$\") (B "r") = false) /\
  new_assertion U0 (B "read") (B "no-colon") (B "deny") = Err ErrInvalidPolicyResource.
Proof. split; [eexists; split; [reflexivity|]|]; vm_compute; done. Qed.

(** C10.  ASCII letter case of the request action and resource is irrelevant. *)
Theorem C10_request_case : forall U a domain act act' res res',
  case_variant act act' -> case_variant res res' ->
  a_matches U a domain act res = a_matches U a domain act' res'.
Proof. exact a_matches_case_req. Qed.

(** ASCII letter case of the assertion text (action, resource including its
    domain, effect) and of the request domain is irrelevant.
    [fold_consistent] is the (true) fact about the Unicode tables that an upper
    and a lower case ASCII letter fold to the same non-ASCII characters. *)
Theorem C10_assertion_case :
  forall U action resource effect action' resource' effect' a domain domain' act res,
  fold_consistent U ->
  case_variant action action' -> case_variant resource resource' -> case_variant effect effect' ->
  case_variant domain domain' ->
  new_assertion U action resource effect = Ok a ->
  exists a', new_assertion U action' resource' effect' = Ok a' /\ a_effect a' = a_effect a /\
    a_matches U a' domain' act res = a_matches U a domain act res.
Proof.
  intros U action resource effect action' resource' effect' a domain domain' act res HU Ha Hr He Hd H.
  destruct (new_assertion_case _ _ _ _ _ _ _ _ Ha Hr He H) as (a' & Ha' & Hef & Hdd & H1 & H2).
  exists a'. split; [done|]. split; [done|]. unfold a_matches. rewrite H1, H2. f_equal. f_equal.
  rewrite <- (equal_fold_case U (a_dom a) (a_dom a') domain') by done.
  rewrite !(equal_fold_sym U (a_dom a)). symmetry. by apply equal_fold_case.
Qed.

Example C10_nonvacuous :
  fold_consistent U0 /\ case_variant (B "ReAd*") (B "rEaD*") /\
  exists a, new_assertion U0 (B "ReAd*") (B "D:X") (B "Deny") = Ok a /\
            a_matches U0 a (B "d") (B "readER") (B "x") = true.
Proof.
  split; [done|]. split; [vm_compute; reflexivity|].
  eexists; split; [reflexivity|vm_compute; reflexivity].
Qed.

(** C11.  '*' matches every newline-free text ... *)
Theorem C11_star_matches_partial : forall U d effect a domain act res,
  ":"%char ∉ d ->
  new_assertion U (B "*") (d ++ B ":" ++ B "*") effect = Ok a ->
  (a_matches U a domain act res = true <->
   equal_fold U d domain = true /\ 10 ∉ lower_runes U act /\ 10 ∉ lower_runes U res).
Proof.
  intros U d effect a domain act res Hni Ha. rewrite (a_matches_iff _ _ _ _ _ _ _ _ Ha).
  assert (lower_runes U (B "*") = [42]) as Hs by done.
  assert (forall w, glob_matches [42] w <-> 10 ∉ w) as Hg.
  { intros w. rewrite glob_star_all, Forall_forall. split.
    - intros H Hin. by apply (H 10).
    - intros H x Hx ->. done. }
  unfold applies. rewrite Hs. split.
  - intros (d' & r' & He & Hni' & Hf & H1 & H2).
    assert (cut [":"%char] (d ++ B ":" ++ B "*") = Some (d, B "*")) as E1 by (by apply cut_char_some).
    assert (cut [":"%char] (d ++ B ":" ++ B "*") = Some (d', r')) as E2 by (by apply cut_char_some).
    rewrite E1 in E2. injection E2 as <- <-. change (glob_matches [42] (lower_runes U res)) in H2.
    apply Hg in H1. apply Hg in H2. done.
  - intros (Hf & H1 & H2). apply Hg in H1. apply Hg in H2. exists d, (B "*"). by rewrite Hs.
Qed.

Definition nl : str := [ascii_of_N 10].
(** ... but not every text. *)
Theorem C11_star_matches_everything_refuted :
  ~ (forall U effect a act res, new_assertion U (B "*") (B "d:*") effect = Ok a ->
       a_matches U a (B "d") act res = true).
Proof.
  intros H. destruct (proj2 (new_assertion_ok U0 (B "*") (B "d:*") (B "deny"))) as [a Ha].
  { right. left. }
  specialize (H U0 _ a (B "read") (B "x" ++ nl ++ B "y") Ha).
  injection Ha as <-. vm_compute in H. done.
Qed.

(** Concretely: an assertion denying everything does not deny a resource with a newline. *)
Example C11_witness : exists a, new_assertion U0 (B "*") (B "d:*") (B "deny") = Ok a /\
  a_matches U0 a (B "d") (B "read") (B "x" ++ nl) = false /\
  a_matches U0 a (B "d") (B "read") (B "x/y") = true.
Proof. eexists. split; [reflexivity|]. vm_compute. done. Qed.

Print Assumptions C08_assertion_is_glob.
Print Assumptions C08_assertion_effect.
Print Assumptions C08_ascii_effect.
Print Assumptions C09_new_assertion_fails_iff.
Print Assumptions C09_pattern_compiles.
Print Assumptions C09_literal_matches_itself_only.
Print Assumptions C09_literal_resource_matches_itself_only.
Print Assumptions C10_request_case.
Print Assumptions C10_assertion_case.
Print Assumptions C11_star_matches_partial.
Print Assumptions C11_star_matches_everything_refuted.
