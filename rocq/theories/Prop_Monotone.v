(** * Property C107: more denials, fewer grants *)
From Verif Require Import PolicyCheckers PolicyCheckFacts Prop_PolicyUpdate Prop_CheckPolicy.
From Verif Require Prop_PolicyCheck.
From Verif Require Import GoStrings.

(** ** Specification *)
(** The assertions of a document, in any of its policies. *)
Definition says_so (doc : document) (r : raw) : Prop := exists pol, pol ∈ doc /\ r ∈ pol.
(** [docs'] holds all that [docs] holds, and what it holds beyond that is denials (allows). *)
Definition adds_denials (U : unicode) (n : nat) (docs docs' : nat -> document) : Prop := forall i, (i < n)%nat ->
  (forall r, says_so (docs i) r -> says_so (docs' i) r) /\ (forall r, says_so (docs' i) r -> says_so (docs i) r \/ raw_deny U r).
Definition adds_allows (U : unicode) (n : nat) (docs docs' : nat -> document) : Prop := forall i, (i < n)%nat ->
  (forall r, says_so (docs i) r -> says_so (docs' i) r) /\ (forall r, says_so (docs' i) r -> says_so (docs i) r \/ ~ raw_deny U r).
(** [c] is what checks see at a time [t] after an Update that took the documents [docs] of [n] domains;
    the conditions on the documents are those of C12. *)
Definition loaded (U : unicode) (n : nat) (docs : nat -> document) (t : time) (c : cache) : Prop :=
  exists ls cur cc s, urun U ls (uinit cur n cc) = Some s /\ u_ret s = Some (Ok tt) /\ gache_deny_first cur /\
    (forall i j, ufetched ls i j -> no_commas (docs i) /\ faithful_script U (docs i) (j_script j)) /\
    (forall i i' pol pol' r r', pol ∈ docs i -> r ∈ pol -> pol' ∈ docs i' -> r' ∈ pol' -> r_role r = r_role r' -> i = i') /\
    timely (ufetched ls) (uticked ls) /\ (forall i j, ufetched ls i j -> alive j t) /\ c = g_view t (u_cur s).
(** A check that goes by [c] and is not cancelled returns [r]. *)
Definition checked_by (U : unicode) (domain : str) (roles : list str) (action resource : str) (c : cache) (r : outcome (list str)) : Prop :=
  exists ls s, run U domain roles action resource ls (start roles c false) = Some s /\ returned s r /\ never_cancelled ls /\ no_policy_change ls.

(** ** Facts *)
Section facts.
  Context (U : unicode) (domain action resource : str).
  Notation denies c := (role_denies U domain action resource c).
  Notation allows c := (role_allows U domain action resource c).
  Lemma loaded_df n docs t c : loaded U n docs t c -> deny_first_cache c.
  Proof. intros (ls & cur & cc & s & H1 & _ & H2 & _ & _ & _ & _ & ->). by eapply C15_deny_first_update. Qed.
  Lemma loaded_denies n docs t c role : loaded U n docs t c ->
    (denies c role <-> exists i, (i < n)%nat /\ doc_denies U domain action resource (docs i) role).
  Proof. intros (ls & cur & cc & s & H1 & H2 & _ & H3 & H4 & H5 & H6 & ->). by apply (C12_caching_preserves_meaning U ls cur n cc s t docs). Qed.
  Lemma loaded_allows n docs t c role : loaded U n docs t c -> ~ denies c role ->
    (allows c role <-> exists i, (i < n)%nat /\ doc_allows U domain action resource (docs i) role).
  Proof.
    intros H Hn. pose proof (loaded_denies n docs t c role H) as Hd. destruct H as (ls & cur & cc & s & H1 & H2 & _ & H3 & H4 & H5 & H6 & ->).
    apply (C12_caching_preserves_meaning U ls cur n cc s t docs); try done. intros i Hi Hx. apply Hn, Hd. by exists i.
  Qed.
  Lemma doc_denies_iff doc role : doc_denies U domain action resource doc role <->
    exists r, says_so doc r /\ raw_applies U domain action resource role r /\ raw_deny U r.
  Proof. split; [intros (pol & r & ? & ? & ? & ?); exists r; split_and!; try done; by exists pol|intros (r & (pol & ? & ?) & ? & ?); by exists pol, r]. Qed.
  Lemma doc_allows_iff doc role : doc_allows U domain action resource doc role <->
    exists r, says_so doc r /\ raw_applies U domain action resource role r /\ ~ raw_deny U r.
  Proof. split; [intros (pol & r & ? & ? & ? & ?); exists r; split_and!; try done; by exists pol|intros (r & (pol & ? & ?) & ? & ?); by exists pol, r]. Qed.

  (** A check by a deny-first cache grants exactly what the cache allows, to the roles that are allowed. *)
  Lemma checked_by_exact roles c r : deny_first_cache c -> checked_by U domain roles action resource c r ->
    (spec_allowed U domain action resource c roles /\ exists acc, r = Ok acc /\ forall role, role ∈ acc <-> role ∈ roles /\ allows c role) \/
    (~ spec_allowed U domain action resource c roles /\ exists e, r = Err e).
  Proof.
    intros Hdf (ls & s & Hrun & Hret & Hnc & Hnp).
    assert (no_mutation ls) as Hnm by (intros i c' Hin; by destruct (Hnp i c')).
    assert (forall c', version c ls c' -> deny_first_cache c') as Hv.
    { intros c' [->|[i Hin]]; [done|]. destruct (Hnp i c'). by destruct Hin. }
    destruct (C02_check_policy_accepts _ _ _ _ _ _ _ _ _ Hrun Hret Hnc Hnm Hv) as (c' & Hcur & Hiff & Hno).
    apply current_unchanged in Hcur; [|done]. subst c'.
    destruct r as [acc|e|]; cbn [check_policy_result] in Hiff, Hno.
    - left. assert (spec_allowed U domain action resource c roles) as Hs by (by apply Hiff). split; [done|]. exists acc. split; [done|].
      destruct (Prop_PolicyCheck.C02_success_only_with_allow _ _ _ _ _ _ _ _ _ _ Hrun Hret Hnm Hv) as (c' & Hcur & _ & Hp & Hal & _).
      apply current_unchanged in Hcur; [|done]. subst c'. intros role. split; [by apply Hal|]. intros [Hr (a & (l & Hl & Ha) & Hh & _)].
      rewrite Hp. apply elem_of_list_In, filter_In. split; [by apply elem_of_list_In|]. unfold role_hitb. change (domain ++ B ":role." ++ role) with (key_of domain role) in *.
      rewrite Hl. apply existsb_exists. exists a. split; [by apply elem_of_list_In|exact Hh].
    - right. split; [|by exists e]. intros Hs. apply Hiff in Hs. discriminate Hs.
    - right. assert (~ spec_allowed U domain action resource c roles) as Hns; [|destruct (Hno Hns) as [e He]; discriminate He].
      intros Hs. apply Hiff in Hs. discriminate Hs.
  Qed.
End facts.

(** ** Claims *)
Section claims.
  Context (U : unicode) (domain action resource : str) (n : nat).
  Notation checked c roles r := (checked_by U domain roles action resource c r).

  (** Adding denials never grants: what is granted with them is granted without them, to the same roles. *)
  Theorem C107_more_denials_fewer_grants_partial docs docs' t t' c c' roles acc' r :
    loaded U n docs t c -> loaded U n docs' t' c' -> adds_denials U n docs docs' ->
    checked c' roles (Ok acc') -> checked c roles r ->
    exists acc, r = Ok acc /\ forall role, role ∈ acc <-> role ∈ acc'.
  Proof.
    intros H H' Hadd Hg Hc.
    destruct (checked_by_exact _ _ _ _ _ _ _ (loaded_df _ _ _ _ _ H') Hg) as [[[Hnd' (x & Hx & Hxa)] (acc & [= <-] & Hacc')]|[_ [e He]]]; [|discriminate He].
    assert (forall role, role_denies U domain action resource c role -> role_denies U domain action resource c' role) as Hden.
    { intros role. rewrite (loaded_denies _ _ _ _ _ _ _ _ _ H), (loaded_denies _ _ _ _ _ _ _ _ _ H'). intros (i & Hi & Hd). exists i. split; [done|].
      apply doc_denies_iff in Hd as (r0 & Hr & ? & ?). apply doc_denies_iff. exists r0. split_and!; try done. by apply (Hadd i Hi). }
    assert (forall role, role ∈ roles -> (role_allows U domain action resource c role <-> role_allows U domain action resource c' role)) as Hal.
    { intros role Hrole. pose proof (Hnd' _ Hrole) as Hn'. assert (~ role_denies U domain action resource c role) as Hn by (by intros ?%Hden).
      rewrite (loaded_allows _ _ _ _ _ _ _ _ _ H Hn), (loaded_allows _ _ _ _ _ _ _ _ _ H' Hn').
      split; intros (i & Hi & Hd); exists i; (split; [done|]); apply doc_allows_iff in Hd as (r0 & Hr & ? & Hnd); apply doc_allows_iff; exists r0; split_and!; try done.
      - by apply (Hadd i Hi).
      - apply (Hadd i Hi) in Hr as [Hr|Hr]; done. }
    destruct (checked_by_exact _ _ _ _ _ _ _ (loaded_df _ _ _ _ _ H) Hc) as [[_ (acc & -> & Hacc)]|[Hno _]].
    - exists acc. split; [done|]. intros role. rewrite Hacc, Hacc'. split; intros [? ?]; (split; [done|]); by apply Hal.
    - destruct Hno. split; [|exists x; split; [done|by apply Hal]]. intros role Hr Hd. by apply (Hnd' _ Hr), Hden.
  Qed.
  (** Adding allows never takes away: what is granted without them is granted with them, at least to the same roles. *)
  Theorem C107_more_allows_more_grants_partial docs docs' t t' c c' roles acc r' :
    loaded U n docs t c -> loaded U n docs' t' c' -> adds_allows U n docs docs' ->
    checked c roles (Ok acc) -> checked c' roles r' ->
    exists acc', r' = Ok acc' /\ forall role, role ∈ acc -> role ∈ acc'.
  Proof.
    intros H H' Hadd Hg Hc.
    destruct (checked_by_exact _ _ _ _ _ _ _ (loaded_df _ _ _ _ _ H) Hg) as [[[Hnd (x & Hx & Hxa)] (acc0 & [= <-] & Hacc)]|[_ [e He]]]; [|discriminate He].
    assert (forall role, role_denies U domain action resource c' role -> role_denies U domain action resource c role) as Hden.
    { intros role. rewrite (loaded_denies _ _ _ _ _ _ _ _ _ H), (loaded_denies _ _ _ _ _ _ _ _ _ H'). intros (i & Hi & Hd). exists i. split; [done|].
      apply doc_denies_iff in Hd as (r0 & Hr & ? & ?). apply doc_denies_iff. exists r0. split_and!; try done. by apply (Hadd i Hi) in Hr as [?|?]. }
    assert (forall role, role ∈ roles -> role_allows U domain action resource c role -> role_allows U domain action resource c' role) as Hal.
    { intros role Hrole. pose proof (Hnd _ Hrole) as Hn. assert (~ role_denies U domain action resource c' role) as Hn' by (by intros ?%Hden).
      rewrite (loaded_allows _ _ _ _ _ _ _ _ _ H Hn), (loaded_allows _ _ _ _ _ _ _ _ _ H' Hn').
      intros (i & Hi & Hd); exists i; (split; [done|]); apply doc_allows_iff in Hd as (r0 & Hr & ? & ?); apply doc_allows_iff; exists r0; split_and!; try done.
      by apply (Hadd i Hi). }
    destruct (checked_by_exact _ _ _ _ _ _ _ (loaded_df _ _ _ _ _ H') Hc) as [[_ (acc' & -> & Hacc')]|[Hno _]].
    - exists acc'. split; [done|]. intros role. rewrite Hacc, Hacc'. intros [? ?]. split; [done|by apply Hal].
    - destruct Hno. split; [|exists x; split; [done|by apply Hal]]. intros role Hr Hd. by apply (Hnd _ Hr), Hden.
  Qed.

  (** Roles: order and repetition do not matter, a part of the roles that keeps an authorized one is granted
      too (to the authorized ones kept), and roles of which the policies say nothing change nothing. *)
  Theorem C107_fewer_roles docs t c roles roles' acc' r : loaded U n docs t c ->
    (forall role, role ∈ roles -> role ∈ roles') -> checked c roles' (Ok acc') -> (exists role, role ∈ acc' /\ role ∈ roles) ->
    checked c roles r -> exists acc, r = Ok acc /\ forall role, role ∈ acc <-> role ∈ acc' /\ role ∈ roles.
  Proof.
    intros H Hsub Hg (x & Hx & Hxr) Hc. pose proof (loaded_df _ _ _ _ _ H) as Hdf.
    destruct (checked_by_exact _ _ _ _ _ _ _ Hdf Hg) as [[[Hnd _] (acc0 & [= <-] & Hacc')]|[_ [e He]]]; [|discriminate He].
    destruct (checked_by_exact _ _ _ _ _ _ _ Hdf Hc) as [[_ (acc & -> & Hacc)]|[Hno _]].
    - exists acc. split; [done|]. intros role. rewrite Hacc, Hacc'. split; [intros [? ?]; split_and!; auto|intros [[? ?] ?]; by split].
    - destruct Hno. split; [intros role Hr; by apply Hnd, Hsub|]. exists x. split; [done|]. by apply Hacc'.
  Qed.
  Theorem C107_order_of_roles docs t c roles roles' r r' : loaded U n docs t c -> (forall role, role ∈ roles <-> role ∈ roles') ->
    checked c roles r -> checked c roles' r' -> is_ok r = is_ok r' /\ forall acc acc', r = Ok acc -> r' = Ok acc' -> forall role, role ∈ acc <-> role ∈ acc'.
  Proof.
    intros H Heq Hc Hc'. pose proof (loaded_df _ _ _ _ _ H) as Hdf.
    assert (spec_allowed U domain action resource c roles <-> spec_allowed U domain action resource c roles') as Hs.
    { unfold spec_allowed. setoid_rewrite Heq. done. }
    destruct (checked_by_exact _ _ _ _ _ _ _ Hdf Hc) as [[H1 (acc & -> & Ha)]|[H1 [e ->]]];
      destruct (checked_by_exact _ _ _ _ _ _ _ Hdf Hc') as [[H1' (acc' & -> & Ha')]|[H1' [e' ->]]]; try (exfalso; tauto); (split; [done|]).
    - intros ? ? [= <-] [= <-] role. rewrite Ha, Ha', Heq. done.
    - done.
  Qed.
  Theorem C107_unknown_roles docs t c roles extra r r' : loaded U n docs t c ->
    (forall role i r0, role ∈ extra -> (i < n)%nat -> says_so (docs i) r0 -> r_role r0 <> domain ++ B ":role." ++ role) ->
    checked c roles r -> checked c (roles ++ extra) r' ->
    is_ok r = is_ok r' /\ forall acc acc', r = Ok acc -> r' = Ok acc' -> forall role, role ∈ acc' <-> role ∈ acc.
  Proof.
    intros H Hno Hc Hc'. pose proof (loaded_df _ _ _ _ _ H) as Hdf.
    assert (forall role, role ∈ extra -> ~ role_denies U domain action resource c role /\ ~ role_allows U domain action resource c role) as Hex.
    { intros role Hr. assert (~ role_denies U domain action resource c role) as Hn.
      - rewrite (loaded_denies _ _ _ _ _ _ _ _ _ H). intros (i & Hi & (r0 & Hr0 & [Hro _] & _)%doc_denies_iff). by apply (Hno role i r0).
      - split; [done|]. rewrite (loaded_allows _ _ _ _ _ _ _ _ _ H Hn). intros (i & Hi & (r0 & Hr0 & [Hro _] & _)%doc_allows_iff). by apply (Hno role i r0). }
    assert (spec_allowed U domain action resource c roles <-> spec_allowed U domain action resource c (roles ++ extra)) as Hs.
    { unfold spec_allowed. setoid_rewrite elem_of_app. split.
      - intros [H1 (x & ? & ?)]. split; [intros y [?|?]; [by apply H1|by apply Hex]|exists x; auto].
      - intros [H1 (x & [?|?] & ?)]; [|exfalso; by eapply Hex]. split; [auto|by exists x]. }
    destruct (checked_by_exact _ _ _ _ _ _ _ Hdf Hc) as [[H1 (acc & -> & Ha)]|[H1 [e ->]]];
      destruct (checked_by_exact _ _ _ _ _ _ _ Hdf Hc') as [[H1' (acc' & -> & Ha')]|[H1' [e' ->]]]; try (exfalso; tauto); (split; [done|]).
    - intros ? ? [= <-] [= <-] role. rewrite Ha, Ha', elem_of_app. split; [intros [[?|?] ?]; [done|exfalso; by eapply Hex]|intros [? ?]; auto].
    - done.
  Qed.
End claims.

(** ** Without the condition on commas (C14) both are wrong *)
(** As [loaded], for any documents. *)
Definition taken (U : unicode) (n : nat) (docs : nat -> document) (t : time) (c : cache) : Prop :=
  exists ls s, urun U ls (uinit ∅ n false) = Some s /\ u_ret s = Some (Ok tt) /\
    (forall i j, ufetched ls i j -> script_of U (docs i) (j_script j)) /\ c = g_view t (u_cur s).

(** One domain; [k] assertions cached. *)
Definition one (doc : document) (i : nat) : document := match i with O => doc | _ => [] end.
Definition upd1 (sc : list raw) : list ulabel :=
  [USpawn; UWork 0%nat (IFetch (Ok (Job (1000 * second) (10 * second) sc)))] ++ replicate (S (2 * length sc)) (tick 0 12) ++ [UFinish].
Definition cache1 (sc : list raw) : option cache :=
  match urun U0 (upd1 sc) (uinit ∅ 1 false) with
  | Some s => match u_ret s with Some (Ok _) => Some (g_view (500 * second) (u_cur s)) | _ => None end
  | None => None
  end.
Definition chk1 (w m : nat) : list label := [LLoad; LSpawn; LSpawn] ++ replicate w (LWork 0) ++ LClose :: replicate m LMain.
Definition verdict1 (sc : list raw) (w m : nat) (act res : str) : option (outcome (list str)) :=
  match cache1 sc with
  | Some c => match run U0 (B "d") [B "r"] act res (chk1 w m) (start [B "r"] c false) with
              | Some s => match s_main s with MDone r => Some r | _ => None end | None => None end
  | None => None
  end.
Definition a_all := rw "d:role.r" "read" "d:*" "allow".
Definition d_sec := rw "d:role.r" "read" "d:secret" "deny".
Definition d_xy := rw "d:role.r" "read" "d:x,d:y" "deny".
Definition d_yx := rw "d:role.r" "read,d:x" "d:y" "deny".
Definition a_xy := rw "d:role.r" "read" "d:x,d:y" "allow".
Definition a_yx := rw "d:role.r" "read,d:x" "d:y" "allow".
Lemma verdict1_checked sc w m act res r : verdict1 sc w m act res = Some r ->
  exists c, cache1 sc = Some c /\ checked_by U0 (B "d") [B "r"] act res c r.
Proof.
  unfold verdict1. destruct (cache1 sc) as [c|]; [|discriminate]. intros H. exists c. split; [reflexivity|].
  destruct (run _ _ _ _ _ (chk1 w m) _) as [s|] eqn:E; [|discriminate]. destruct (s_main s) as [| |r'] eqn:Em; try discriminate. injection H as <-.
  assert (Forall (fun l => match l with EnvCancel | EnvSwap _ _ | EnvMutate _ _ => False | _ => True end) (chk1 w m)) as HF.
  { unfold chk1. repeat (apply Forall_app; split); repeat constructor; by apply Forall_replicate. }
  rewrite Forall_forall in HF. exists (chk1 w m), s. split_and!; [exact E|exact Em|by intros Hin%HF|].
  intros p c'. split; by intros Hin%HF.
Qed.
Lemma upd1_fetched sc i j : ufetched (upd1 sc) i j -> i = 0%nat /\ j = Job (1000 * second) (10 * second) sc.
Proof.
  unfold ufetched, upd1. rewrite !elem_of_app, !elem_of_cons, !elem_of_nil. intros [[H|[H|[]]]|[H|[H|[]]]]; try discriminate H.
  - injection H as -> ->. done.
  - apply elem_of_replicate in H as [H _]. discriminate H.
Qed.
Lemma upd1_ticked sc i t : uticked (upd1 sc) i t -> t = 12 * second.
Proof.
  unfold uticked, upd1. rewrite !elem_of_app, !elem_of_cons, !elem_of_nil. intros [[H|[H|[]]]|[H|[H|[]]]]; try discriminate H.
  apply elem_of_replicate in H as [H _]. unfold tick in H. by injection H.
Qed.
Lemma cache1_run sc c : cache1 sc = Some c -> exists s, urun U0 (upd1 sc) (uinit ∅ 1 false) = Some s /\ u_ret s = Some (Ok tt) /\ c = g_view (500 * second) (u_cur s).
Proof.
  unfold cache1. destruct (urun _ _ _) as [s|]; [|discriminate]. destruct (u_ret s) as [[[]| |]|] eqn:E; try discriminate. intros [= <-]. by exists s.
Qed.
Lemma cache1_taken doc sched sc c : scriptb U0 doc sched sc = true -> cache1 sc = Some c -> taken U0 1 (one doc) (500 * second) c.
Proof.
  intros Hs (s & H1 & H2 & ->)%cache1_run. exists (upd1 sc), s. split_and!; [done..| |done]. intros i j [-> ->]%upd1_fetched. by eapply scriptb_script_of.
Qed.
Lemma cache1_loaded doc sched sc c : scriptb U0 doc sched sc = true -> no_conflictb U0 doc = true -> no_commasb doc = true -> cache1 sc = Some c ->
  loaded U0 1 (one doc) (500 * second) c.
Proof.
  intros Hs Hn Hc (s & H1 & H2 & ->)%cache1_run. exists (upd1 sc), ∅, false, s. split_and!; [done|done| | | | | |done].
  - intros k e. by rewrite lookup_empty.
  - intros i j [-> ->]%upd1_fetched. split; [by apply no_commasb_spec|by eapply scriptb_faithful].
  - intros [|i] [|i'] pol pol' r r' Hp _ Hp' _ _; [done|by apply elem_of_nil in Hp'|by apply elem_of_nil in Hp..].
  - intros i j t [-> ->]%upd1_fetched ->%upd1_ticked. right. cbn [j_now j_exp]. unfold second, max_int64, two63. lia.
  - intros i j [-> ->]%upd1_fetched. right. vm_compute. done.
Qed.
Lemma says_one pol r : says_so [pol] r <-> r ∈ pol.
Proof. split; [by intros (pol' & ->%elem_of_list_singleton & H)|intros H; exists pol; split; [by apply elem_of_list_singleton|done]]. Qed.

(** A denial is added (of an action with a comma) and the request that was denied is granted: the added
    assertion has the same deduplication key as the denial and replaces it. *)
Theorem C107_more_denials_fewer_grants_refuted : ~ forall U domain action resource n docs docs' t t' c c' roles acc' r,
  taken U n docs t c -> taken U n docs' t' c' -> adds_denials U n docs docs' ->
  checked_by U domain roles action resource c' (Ok acc') -> checked_by U domain roles action resource c r -> exists acc, r = Ok acc.
Proof.
  intros H.
  destruct (verdict1_checked [a_all; d_xy] 6 2 (B "read") (B "x,d:y") (Err ErrDenyByPolicy)) as (c & Hc & Hr); [vm_compute; reflexivity|].
  destruct (verdict1_checked [a_all; d_yx] 8 3 (B "read") (B "x,d:y") (Ok [B "r"])) as (c' & Hc' & Hr'); [vm_compute; reflexivity|].
  destruct (H U0 (B "d") (B "read") (B "x,d:y") 1%nat (one [[a_all; d_xy]]) (one [[a_all; d_xy; d_yx]]) (500 * second) (500 * second) c c' [B "r"] [B "r"] (Err ErrDenyByPolicy)) as [acc Ha];
    [| | |exact Hr'|exact Hr|discriminate Ha].
  - apply (cache1_taken _ (replicate 5 (SWork 0)) [a_all; d_xy]); [vm_compute; reflexivity|exact Hc].
  - apply (cache1_taken _ (replicate 7 (SWork 0)) [a_all; d_yx]); [vm_compute; reflexivity|exact Hc'].
  - clear. intros i Hi. assert (i = 0%nat) as -> by lia. cbn [one]. setoid_rewrite says_one. setoid_rewrite elem_of_cons. setoid_rewrite elem_of_cons. setoid_rewrite elem_of_cons.
    split; [tauto|]. intros r [->|[->|[->|Hn]]]; [exact (or_introl (or_introl eq_refl))|exact (or_introl (or_intror (or_introl eq_refl)))| |destruct (proj1 (elem_of_nil _) Hn)]. right. vm_compute. reflexivity.
Qed.
(** An allow is added (of an action with a comma) and the request that was granted is refused. *)
Theorem C107_more_allows_more_grants_refuted : ~ forall U domain action resource n docs docs' t t' c c' roles acc r',
  taken U n docs t c -> taken U n docs' t' c' -> adds_allows U n docs docs' ->
  checked_by U domain roles action resource c (Ok acc) -> checked_by U domain roles action resource c' r' -> exists acc', r' = Ok acc'.
Proof.
  intros H.
  destruct (verdict1_checked [a_xy] 6 3 (B "read") (B "x,d:y") (Ok [B "r"])) as (c & Hc & Hr); [vm_compute; reflexivity|].
  destruct (verdict1_checked [a_yx] 6 2 (B "read") (B "x,d:y") (Err ErrNoMatch)) as (c' & Hc' & Hr'); [vm_compute; reflexivity|].
  destruct (H U0 (B "d") (B "read") (B "x,d:y") 1%nat (one [[a_xy]]) (one [[a_yx; a_xy]]) (500 * second) (500 * second) c c' [B "r"] [B "r"] (Err ErrNoMatch)) as [acc Ha];
    [| | |exact Hr|exact Hr'|discriminate Ha].
  - apply (cache1_taken _ (replicate 3 (SWork 0)) [a_xy]); [vm_compute; reflexivity|exact Hc].
  - apply (cache1_taken _ (replicate 5 (SWork 0)) [a_yx]); [vm_compute; reflexivity|exact Hc'].
  - clear. intros i Hi. assert (i = 0%nat) as -> by lia. cbn [one]. setoid_rewrite says_one. setoid_rewrite elem_of_cons. setoid_rewrite elem_of_cons.
    split; [tauto|]. intros r [->|[->|Hn]]; [|exact (or_introl (or_introl eq_refl))|destruct (proj1 (elem_of_nil _) Hn)]. right. vm_compute. discriminate.
Qed.
Example C107_nonvacuous : exists c c',
  loaded U0 1 (one [[a_all]]) (500 * second) c /\ loaded U0 1 (one [[a_all; d_sec]]) (500 * second) c' /\
  adds_denials U0 1 (one [[a_all]]) (one [[a_all; d_sec]]) /\
  checked_by U0 (B "d") [B "r"] (B "read") (B "doc") c (Ok [B "r"]) /\ checked_by U0 (B "d") [B "r"] (B "read") (B "doc") c' (Ok [B "r"]) /\
  checked_by U0 (B "d") [B "r"] (B "read") (B "secret") c (Ok [B "r"]) /\ checked_by U0 (B "d") [B "r"] (B "read") (B "secret") c' (Err ErrDenyByPolicy).
Proof.
  destruct (verdict1_checked [a_all] 6 3 (B "read") (B "doc") (Ok [B "r"])) as (c & Hc & H1); [vm_compute; reflexivity|].
  destruct (verdict1_checked [a_all] 6 3 (B "read") (B "secret") (Ok [B "r"])) as (c1 & Hc1 & H2); [vm_compute; reflexivity|].
  destruct (verdict1_checked [a_all; d_sec] 8 3 (B "read") (B "doc") (Ok [B "r"])) as (c' & Hc' & H1'); [vm_compute; reflexivity|].
  destruct (verdict1_checked [a_all; d_sec] 6 2 (B "read") (B "secret") (Err ErrDenyByPolicy)) as (c1' & Hc1' & H2'); [vm_compute; reflexivity|].
  assert (c1 = c) as -> by congruence. assert (c1' = c') as -> by congruence. exists c, c'. split_and!; [| | |exact H1|exact H1'|exact H2|exact H2'].
  - apply (cache1_loaded _ (replicate 3 (SWork 0)) [a_all]); [vm_compute; reflexivity..|exact Hc].
  - apply (cache1_loaded _ (replicate 5 (SWork 0)) [a_all; d_sec]); [vm_compute; reflexivity..|exact Hc'].
  - clear. intros i Hi. assert (i = 0%nat) as -> by lia. cbn [one]. setoid_rewrite says_one. setoid_rewrite elem_of_cons. setoid_rewrite elem_of_cons.
    split; [tauto|]. intros r [->|[->|Hn]]; [exact (or_introl (or_introl eq_refl))| |destruct (proj1 (elem_of_nil _) Hn)]. right. vm_compute. reflexivity.
Qed.

Print Assumptions C107_more_denials_fewer_grants_partial.
Print Assumptions C107_more_allows_more_grants_partial.
Print Assumptions C107_fewer_roles.
Print Assumptions C107_order_of_roles.
Print Assumptions C107_unknown_roles.
Print Assumptions C107_more_denials_fewer_grants_refuted.
Print Assumptions C107_more_allows_more_grants_refuted.
Print Assumptions C107_nonvacuous.
