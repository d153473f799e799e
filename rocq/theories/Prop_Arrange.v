(** * Property C113: how a policy document is arranged does not matter *)
From Verif Require Import PolicyCheckers PolicyCheckFacts Prop_PolicyUpdate Prop_CheckPolicy Prop_Assertion AssertionProofs UnicodeFacts.
From Verif Require Import Prop_Monotone.
From Verif Require Import GoStrings.

(** ** Specification *)
(** The same assertion but for the case of its letters; the names of roles are compared exactly. *)
Definition same_words (r r' : raw) : Prop :=
  r_role r = r_role r' /\ case_variant (r_action r) (r_action r') /\ case_variant (r_resource r) (r_resource r') /\ case_variant (r_effect r) (r_effect r').
(** What the documents of [n] domains hold is held by those of [n'] domains: in any policy, of any domain, at any place. *)
Definition held (n : nat) (docs : nat -> document) (n' : nat) (docs' : nat -> document) : Prop :=
  forall i r, (i < n)%nat -> says_so (docs i) r -> exists i' r', (i' < n')%nat /\ says_so (docs' i') r' /\ same_words r r'.
Definition rearranged n docs n' docs' : Prop := held n docs n' docs' /\ held n' docs' n docs.
(** Two verdicts agree: both grants, for the same roles, or neither. *)
Definition agree (r r' : outcome (list str)) : Prop :=
  is_ok r = is_ok r' /\ forall acc acc', r = Ok acc -> r' = Ok acc' -> forall role, role ∈ acc <-> role ∈ acc'.

(** ** Facts *)
Section facts.
  Context (U : unicode) (domain action resource : str).
  Lemma same_words_deny r r' : same_words r r' -> raw_deny U r -> raw_deny U r'.
  Proof. intros (_ & _ & _ & H). unfold raw_deny. by rewrite (equal_fold_deny_case U _ _ H). Qed.
  Lemma same_words_sym r r' : same_words r r' -> same_words r' r.
  Proof. intros (? & ? & ? & ?). split_and!; done. Qed.
  Lemma same_words_applies role r r' : fold_consistent U -> same_words r r' ->
    raw_applies U domain action resource role r -> raw_applies U domain action resource role r'.
  Proof.
    intros HU (Hr & Ha & Hs & _) [H1 H2]. split; [by rewrite <- Hr|]. apply appliesb_spec in H2. apply appliesb_spec. unfold appliesb in *.
    destruct (new_assertion U (r_action r) (r_resource r) []) as [a| |] eqn:E; try done.
    destruct (C10_assertion_case U _ _ [] _ _ [] a domain domain action resource HU Ha Hs ltac:(done) ltac:(done) E) as (a' & -> & _ & ->). done.
  Qed.
  Lemma held_denies n docs n' docs' role : fold_consistent U -> held n docs n' docs' ->
    (exists i, (i < n)%nat /\ doc_denies U domain action resource (docs i) role) ->
    exists i, (i < n')%nat /\ doc_denies U domain action resource (docs' i) role.
  Proof.
    intros HU Hh (i & Hi & (r & Hr & Hap & Hd)%doc_denies_iff). destruct (Hh _ _ Hi Hr) as (i' & r' & Hi' & Hr' & Hs). exists i'. split; [done|].
    apply doc_denies_iff. exists r'. split; [done|]. split; [by eapply same_words_applies|by eapply same_words_deny].
  Qed.
  Lemma held_allows n docs n' docs' role : fold_consistent U -> held n docs n' docs' ->
    (exists i, (i < n)%nat /\ doc_allows U domain action resource (docs i) role) ->
    exists i, (i < n')%nat /\ doc_allows U domain action resource (docs' i) role.
  Proof.
    intros HU Hh (i & Hi & (r & Hr & Hap & Hd)%doc_allows_iff). destruct (Hh _ _ Hi Hr) as (i' & r' & Hi' & Hr' & Hs). exists i'. split; [done|].
    apply doc_allows_iff. exists r'. split; [done|]. split; [by eapply same_words_applies|]. intros Hd'. by eapply Hd, same_words_deny, Hd'; apply same_words_sym.
  Qed.
End facts.

(** ** Theorems *)
(** Order and repetition of assertions, their distribution over policies and domains, and the case of the letters of
    actions, resources and effects: none of it changes a verdict (under the conditions of C12 on the documents, for both). *)
Theorem C113_arrangement_partial U domain action resource n docs n' docs' t t' c c' roles r r' : fold_consistent U ->
  loaded U n docs t c -> loaded U n' docs' t' c' -> rearranged n docs n' docs' ->
  checked_by U domain roles action resource c r -> checked_by U domain roles action resource c' r' -> agree r r'.
Proof.
  intros HU H H' [Hh Hh'] Hc Hc'.
  assert (forall role, role_denies U domain action resource c role <-> role_denies U domain action resource c' role) as Hden.
  { intros role. rewrite (loaded_denies _ _ _ _ _ _ _ _ _ H), (loaded_denies _ _ _ _ _ _ _ _ _ H'). split; by apply held_denies. }
  assert (forall role, ~ role_denies U domain action resource c role -> role_allows U domain action resource c role <-> role_allows U domain action resource c' role) as Hal.
  { intros role Hn. assert (~ role_denies U domain action resource c' role) as Hn' by (by rewrite <- Hden).
    rewrite (loaded_allows _ _ _ _ _ _ _ _ _ H Hn), (loaded_allows _ _ _ _ _ _ _ _ _ H' Hn'). split; by apply held_allows. }
  assert (spec_allowed U domain action resource c roles <-> spec_allowed U domain action resource c' roles) as Hs.
  { unfold spec_allowed. split; intros [Hnd (x & Hx & Hxa)].
    - split; [intros role Hr; rewrite <- Hden; by apply Hnd|]. exists x. split; [done|]. apply Hal; [by apply Hnd|done].
    - split; [intros role Hr; rewrite Hden; by apply Hnd|]. exists x. split; [done|]. apply Hal; [rewrite Hden; by apply Hnd|done]. }
  destruct (checked_by_exact _ _ _ _ _ _ _ (loaded_df _ _ _ _ _ H) Hc) as [[H1 (acc & -> & Ha)]|[H1 [e ->]]];
    destruct (checked_by_exact _ _ _ _ _ _ _ (loaded_df _ _ _ _ _ H') Hc') as [[H1' (acc' & -> & Ha')]|[H1' [e' ->]]]; try (exfalso; tauto); (split; [done|]).
  - intros ? ? [= <-] [= <-] role. rewrite Ha, Ha'. destruct H1 as [Hnd _]. split; intros [Hr Hx]; (split; [done|]); by apply Hal; [apply Hnd|].
  - done.
Qed.

(** ** Without those conditions it does matter *)
(** Two opposite assertions of the same words, in one policy: denied; in two policies: their goroutines may meet so that
    the denial is overwritten (C13). *)
Definition a_x := rw "d:role.r" "read" "d:x" "allow".
Definition d_x := rw "d:role.r" "read" "d:x" "deny".
Theorem C113_policies_refuted : ~ forall U domain action resource n docs n' docs' t t' c c' roles r r', fold_consistent U ->
  (forall i, no_commas (docs i) /\ no_commas (docs' i)) ->
  taken U n docs t c -> taken U n' docs' t' c' -> rearranged n docs n' docs' ->
  checked_by U domain roles action resource c r -> checked_by U domain roles action resource c' r' -> agree r r'.
Proof.
  intros H.
  destruct (verdict1_checked [d_x] 6 2 (B "read") (B "x") (Err ErrDenyByPolicy)) as (c & Hc & Hr); [vm_compute; reflexivity|].
  destruct (verdict1_checked [a_x] 6 3 (B "read") (B "x") (Ok [B "r"])) as (c' & Hc' & Hr'); [vm_compute; reflexivity|].
  destruct (H U0 (B "d") (B "read") (B "x") 1%nat (Prop_Monotone.one [[a_x; d_x]]) 1%nat (Prop_Monotone.one [[a_x]; [d_x]]) (500 * second) (500 * second) c c' [B "r"] (Err ErrDenyByPolicy) (Ok [B "r"])) as [Ha _];
    [apply C10_nonvacuous| | | | |exact Hr|exact Hr'|discriminate Ha].
  - intros [|i]; cbn [Prop_Monotone.one]; split; apply no_commasb_spec; vm_compute; reflexivity.
  - apply (cache1_taken _ (replicate 5 (SWork 0)) [d_x]); [vm_compute; reflexivity|exact Hc].
  - apply (cache1_taken _ [SWork 0; SWork 1; SWork 1; SWork 0; SWork 0; SWork 1]%nat [a_x]); [vm_compute; reflexivity|exact Hc'].
  - assert (forall r, says_so [[a_x; d_x]] r <-> says_so [[a_x]; [d_x]] r) as Heq.
    { intros r. unfold says_so. setoid_rewrite elem_of_cons. setoid_rewrite elem_of_cons. split.
      - intros (pol & [-> | Hn] & Hp); [|by apply elem_of_nil in Hn]. apply elem_of_cons in Hp as [-> | [-> | Hn]%elem_of_cons]; [| |by apply elem_of_nil in Hn].
        + exists [a_x]. split; [by left|left].
        + exists [d_x]. split; [right; left; done|left].
      - intros (pol & [-> | [-> | Hn]] & Hp); [| |by apply elem_of_nil in Hn]; apply elem_of_list_singleton in Hp as ->; exists [a_x; d_x]; (split; [by left|]); [left|right; left]. }
    split; intros i r Hi Hs; assert (i = 0%nat) as -> by lia; cbn [Prop_Monotone.one] in Hs; exists 0%nat, r; (split; [lia|]); (split; [by apply Heq|by split_and!]).
Qed.
(** In one policy the order matters when a comma makes two assertions look the same (C14). *)
Theorem C113_order_refuted : ~ forall U domain action resource n docs n' docs' t t' c c' roles r r', fold_consistent U ->
  (forall i, no_cross_conflict U (docs i) /\ no_cross_conflict U (docs' i)) ->
  taken U n docs t c -> taken U n' docs' t' c' -> rearranged n docs n' docs' ->
  checked_by U domain roles action resource c r -> checked_by U domain roles action resource c' r' -> agree r r'.
Proof.
  intros H.
  destruct (verdict1_checked [a_all; d_xy] 6 2 (B "read") (B "x,d:y") (Err ErrDenyByPolicy)) as (c & Hc & Hr); [vm_compute; reflexivity|].
  destruct (verdict1_checked [a_all; d_yx] 8 3 (B "read") (B "x,d:y") (Ok [B "r"])) as (c' & Hc' & Hr'); [vm_compute; reflexivity|].
  destruct (H U0 (B "d") (B "read") (B "x,d:y") 1%nat (Prop_Monotone.one [[a_all; d_yx; d_xy]]) 1%nat (Prop_Monotone.one [[a_all; d_xy; d_yx]]) (500 * second) (500 * second) c c' [B "r"] (Err ErrDenyByPolicy) (Ok [B "r"])) as [Ha _];
    [apply C10_nonvacuous| | | | |exact Hr|exact Hr'|discriminate Ha].
  - intros [|i]; cbn [Prop_Monotone.one]; split; apply no_conflictb_spec; vm_compute; reflexivity.
  - apply (cache1_taken _ (replicate 7 (SWork 0)) [a_all; d_xy]); [vm_compute; reflexivity|exact Hc].
  - apply (cache1_taken _ (replicate 7 (SWork 0)) [a_all; d_yx]); [vm_compute; reflexivity|exact Hc'].
  - split; intros i r Hi Hs; assert (i = 0%nat) as -> by lia; cbn [Prop_Monotone.one] in Hs; exists 0%nat, r; (split; [lia|]); (split; [|by split_and!]); cbn [Prop_Monotone.one];
      apply says_one; apply says_one in Hs; revert Hs; rewrite !elem_of_cons; tauto.
Qed.

(** ** A concrete case *)
(** One policy; the same in two policies, turned round, twice, in other letters. *)
Definition d_sec2 := rw "d:role.r" "READ" "D:Secret" "DENY".
Example C113_nonvacuous : exists c c',
  loaded U0 1 (Prop_Monotone.one [[a_all; d_sec]]) (500 * second) c /\ loaded U0 1 (Prop_Monotone.one [[d_sec2; a_all]; [a_all]]) (500 * second) c' /\
  rearranged 1 (Prop_Monotone.one [[a_all; d_sec]]) 1 (Prop_Monotone.one [[d_sec2; a_all]; [a_all]]) /\
  checked_by U0 (B "d") [B "r"] (B "read") (B "doc") c (Ok [B "r"]) /\ checked_by U0 (B "d") [B "r"] (B "read") (B "doc") c' (Ok [B "r"]) /\
  checked_by U0 (B "d") [B "r"] (B "read") (B "secret") c (Err ErrDenyByPolicy) /\ checked_by U0 (B "d") [B "r"] (B "read") (B "secret") c' (Err ErrDenyByPolicy).
Proof.
  destruct (verdict1_checked [a_all; d_sec] 8 3 (B "read") (B "doc") (Ok [B "r"])) as (c & Hc & H1); [vm_compute; reflexivity|].
  destruct (verdict1_checked [a_all; d_sec] 6 2 (B "read") (B "secret") (Err ErrDenyByPolicy)) as (c1 & Hc1 & H2); [vm_compute; reflexivity|].
  destruct (verdict1_checked [a_all; d_sec2] 8 3 (B "read") (B "doc") (Ok [B "r"])) as (c' & Hc' & H1'); [vm_compute; reflexivity|].
  destruct (verdict1_checked [a_all; d_sec2] 6 2 (B "read") (B "secret") (Err ErrDenyByPolicy)) as (c1' & Hc1' & H2'); [vm_compute; reflexivity|].
  assert (c1 = c) as -> by congruence. assert (c1' = c') as -> by congruence. exists c, c'. split_and!; [| | |exact H1|exact H1'|exact H2|exact H2'].
  - apply (cache1_loaded _ (replicate 5 (SWork 0)) [a_all; d_sec]); [vm_compute; reflexivity..|exact Hc].
  - apply (cache1_loaded _ (replicate 5 (SWork 0) ++ replicate 3 (SWork 1))%nat [a_all; d_sec2]); [vm_compute; reflexivity..|exact Hc'].
  - split; intros i r Hi (pol & Hp & Hr); assert (i = 0%nat) as -> by lia; cbn [Prop_Monotone.one] in Hp.
    + apply elem_of_list_singleton in Hp as ->. apply elem_of_cons in Hr as [-> | ->%elem_of_list_singleton].
      * exists 0%nat, a_all. split; [lia|]. split; [exists [a_all]; split; [right; left|left]|by split_and!].
      * exists 0%nat, d_sec2. split; [lia|]. split; [exists [d_sec2; a_all]; split; [left|left]|by split_and!; vm_compute].
    + exists 0%nat. apply elem_of_cons in Hp as [-> | ->%elem_of_list_singleton].
      * apply elem_of_cons in Hr as [-> | ->%elem_of_list_singleton].
        -- exists d_sec. split; [lia|]. split; [apply says_one; right; left|by split_and!; vm_compute].
        -- exists a_all. split; [lia|]. split; [apply says_one; left|by split_and!].
      * apply elem_of_list_singleton in Hr as ->. exists a_all. split; [lia|]. split; [apply says_one; left|by split_and!].
Qed.

Print Assumptions C113_arrangement_partial.
Print Assumptions C113_policies_refuted.
Print Assumptions C113_order_refuted.
Print Assumptions C113_nonvacuous.
