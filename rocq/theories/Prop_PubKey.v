(** * Properties C26-C30, and the public key part of C25 *)
From Verif Require Import PubKeyFacts.

Definition env_of (z : bool) : env := if z then EnvZTS else EnvZMS.
Lemma get_pub_key_at {V} (s : @pst V) z id : get_pub_key s (env_of z) id = keys_at z s !! id.
Proof. by destruct z. Qed.

(** Example instance: a key text is valid unless empty, its verifier is the text. *)
Definition parse1 (k : str) : option str := match k with [] => None | _ => Some k end.
Definition pcf1 : pconf := PConf (3600 * second) true.
Definition ent (id key : string) : key_entry := Some (B id, B key).
Definition lA : key_list := [ent "0" "k0"; ent "1" "k1"; ent "0" "k0b"].
Definition lB : key_list := [ent "1" "k1"; ent "2" "k2"].
(** A complete application of a list by run [i]: answer, stores in the given order,
    sweep over the given keys. *)
Definition apply_list (i : nat) (tag : str) (l : key_list) (puts visits : string) : list plabel :=
  [PBegin i 1; PResp i (Response 200 tag (Doc l)) 2] ++ map (fun k => PPut i [k]) (B puts) ++ [PNext i] ++
  map (fun k => PVisit i [k]) (B visits) ++ [PNext i].
Definition ids (s : option (@pst str)) (z : bool) (qs : string) : option (list (option str)) :=
  option_map (fun s => map (fun k => get_pub_key s (env_of z) [k]) (B qs)) s.
Definition res (s : option (@pst str)) (n : nat) : option (option (outcome unit)) := option_map (fun s => update_result s n) s.

(** ** C26 *)
(** Run [i] receives the list [kl] and finishes successfully, no other run of the
    environment changes keys meanwhile (runs of the other environment may do anything):
    an id then resolves exactly to the verifier of its last entry in [kl]. *)
Theorem C26_keys_equal_list {V} (parse : str -> option V) cf s i etag kl now s1 ls s2 id v :
  pstep parse cf (PResp i (Response 200 etag (Doc kl)) now) s = Some s1 -> prun parse cf ls s1 = Some s2 ->
  (forall l, l ∈ ls -> quiet (is_zts i) i l) -> p_tasks s2 !! i = Some (PDone None) ->
  (get_pub_key s2 (env_of (is_zts i)) id = Some v <-> exists key, last_entry kl id key /\ parse key = Some v).
Proof.
  intros Hst Hr Hq Hd. apply pstep_inv in Hst as (t & t' & Ht & Htasks & Hm & _ & _). cbn [task_of moves] in *.
  destruct Hm as (c & -> & Ht' & Hk).
  assert (p_tasks s1 !! i = Some t') as Ht1 by (rewrite Htasks; apply list_lookup_insert; by apply lookup_lt_Some in Ht).
  cbn [respond] in Ht'. change (200 =? 304) with false in Ht'. change (200 =? 200) with true in Ht'. cbn [negb fst] in Ht'.
  destruct (decode_keys parse kl ∅) as [cm|e|] eqn:E; subst t'.
  - destruct (prun_progress parse cf ls s1 s2 i _ cm Hr Ht1 Hq) as (t2 & Ht2 & Hp & _); [split; [done|]; by left|by cbn|].
    rewrite Hd in Ht2. injection Ht2 as <-. cbn in Hp. rewrite get_pub_key_at, Hp. by apply decode_keys_spec.
  - rewrite (failure_is_final parse cf _ _ _ _ _ Hr Ht1) in Hd. done.
  - exfalso. assert (forall ls s, prun parse cf ls s1 = Some s -> p_tasks s !! i = Some PPanic) as Hx.
    { clear -Ht1. intros ls. induction ls as [|l ls IH] using rev_ind; intros s H; [by injection H as <-|].
      rewrite prun_app in H. destruct (prun parse cf ls s1) as [s'|] eqn:E; [|done]. cbn [prun] in H.
      destruct (pstep parse cf l s') as [s2|] eqn:E2; [|done]. injection H as ->.
      specialize (IH _ eq_refl). apply pstep_inv in E2 as (t & t' & Ht & Htasks & Hm & _). rewrite Htasks.
      rewrite list_lookup_insert_ne; [done|]. intros <-. rewrite IH in Ht. injection Ht as <-.
      destruct l; cbn [moves] in Hm; naive_solver. }
    rewrite (Hx _ _ Hr) in Hd. done.
Qed.
(** In particular a removed id no longer resolves. *)
Theorem C26_removed_keys_gone {V} (parse : str -> option V) cf s i etag kl now s1 ls s2 id :
  pstep parse cf (PResp i (Response 200 etag (Doc kl)) now) s = Some s1 -> prun parse cf ls s1 = Some s2 ->
  (forall l, l ∈ ls -> quiet (is_zts i) i l) -> p_tasks s2 !! i = Some (PDone None) ->
  (forall key, Some (id, key) ∉ kl) -> get_pub_key s2 (env_of (is_zts i)) id = None.
Proof.
  intros Hst Hr Hq Hd Hn. destruct (get_pub_key s2 (env_of (is_zts i)) id) as [v|] eqn:E; [|done].
  eapply C26_keys_equal_list in E as (key & Hk & _); [|done..]. apply last_entry_elem in Hk. by apply Hn in Hk.
Qed.
(** Decoding succeeds exactly for lists all of whose entries are present and valid. *)
Theorem C26_update_succeeds_iff_all_keys_valid {V} (parse : str -> option V) kl :
  (exists cm, decode_keys parse kl ∅ = Ok cm) <->
  (forall x, x ∈ kl -> exists id key v, x = Some (id, key) /\ parse key = Some v).
Proof. apply decode_keys_ok. Qed.
Example C26_nonvacuous :
  let s1 := prun parse1 pcf1 (apply_list 0 (B "a") lA "10" "01") (pinit 2) in
  let s2 := prun parse1 pcf1 (apply_list 0 (B "a") lA "10" "01" ++
                              apply_list 2 (B "b") lB "21" "201") (pinit 2) in
  ids s1 true "012" = Some [Some (B "k0b"); Some (B "k1"); None] /\
  ids s2 true "012" = Some [None; Some (B "k1"); Some (B "k2")].
Proof. vm_compute. done. Qed.

(** ** C27 *)
(** Every step of a run that ends in an error leaves both key sets alone. *)
Theorem C27_failed_update_changes_nothing {V} (parse : str -> option V) cf l ls s s1 s' i e :
  pstep parse cf l s = Some s1 -> prun parse cf ls s1 = Some s' ->
  task_of l = i -> p_tasks s' !! i = Some (PDone (Some e)) ->
  forall env id, get_pub_key s1 env id = get_pub_key s env id.
Proof.
  intros H1 H2 H3 H4 env id. destruct (failed_touches_nothing parse cf _ _ _ _ _ _ _ H1 H2 H3 H4) as [Ha Hb].
  destruct env; cbn; by rewrite ?Ha, ?Hb.
Qed.
(** No step of any run changes a key of the other environment. *)
Theorem C27_environments_independent {V} (parse : str -> option V) cf l s s1 id :
  pstep parse cf l s = Some s1 ->
  get_pub_key s1 (env_of (negb (is_zts (task_of l)))) id = get_pub_key s (env_of (negb (is_zts (task_of l)))) id.
Proof. intros H. apply pstep_inv in H as (t & t' & _ & _ & _ & H & _). by rewrite !get_pub_key_at, H. Qed.
(** A list with a bad entry anywhere makes the run fail. *)
Theorem C27_bad_entry_fails {V} (parse : str -> option V) cf s s1 i etag kl now id key :
  pstep parse cf (PResp i (Response 200 etag (Doc kl)) now) s = Some s1 ->
  (forall x, x ∈ kl -> x <> None) -> Some (id, key) ∈ kl -> parse key = None ->
  exists e, p_tasks s1 !! i = Some (PDone (Some e)).
Proof.
  intros H Hnn Hin Hp. apply pstep_inv in H as (t & t' & Ht & Htasks & Hm & _). cbn [task_of moves] in *.
  destruct Hm as (c & -> & Ht' & _). cbn [respond] in Ht'. change (200 =? 304) with false in Ht'.
  change (200 =? 200) with true in Ht'. cbn [negb fst] in Ht'.
  assert (p_tasks s1 !! i = Some t') as Ht1 by (rewrite Htasks; apply list_lookup_insert; by apply lookup_lt_Some in Ht).
  destruct (decode_keys parse kl ∅) as [cm|e|] eqn:E.
  - exfalso. destruct (decode_keys_ok parse kl ∅) as [Hok _]. destruct (Hok (ex_intro _ _ E) _ Hin) as (? & ? & ? & [= <- <-] & Hv).
    by rewrite Hp in Hv.
  - exists e. by rewrite Ht1, Ht'.
  - apply decode_keys_panic in E. by apply Hnn in E.
Qed.
Example C27_nonvacuous :
  let bad := lB ++ [ent "3" ""] in
  let s := prun parse1 pcf1 (apply_list 0 (B "a") lA "10" "01" ++
                             [PBegin 2 5; PResp 2 (Response 200 (B "b") (Doc bad)) 6]) (pinit 2) in
  ids s true "012" = Some [Some (B "k0b"); Some (B "k1"); None] /\
  option_map (fun s => p_tasks s !! 2%nat) s = Some (Some (PDone (Some (ErrMsg "error decoding key")))).
Proof. vm_compute. done. Qed.

(** ** C28 *)
(** From any state in which no run is applying a list to the environment, through any
    interleaving of any number of updates: an id that resolves, and is in every list that
    is applied, resolves at every later instant, to its old verifier or one of the new. *)
Theorem C28_no_gap {V} (parse : str -> option V) cf s ls s' z id v0 :
  prun parse cf ls s = Some s' ->
  (forall i t, is_zts i = z -> p_tasks s !! i = Some t -> applying t = false) ->
  get_pub_key s (env_of z) id = Some v0 ->
  (forall i etag kl now, PResp i (Response 200 etag (Doc kl)) now ∈ ls -> is_zts i = z -> exists key, Some (id, key) ∈ kl) ->
  exists v, get_pub_key s' (env_of z) id = Some v /\
    (v = v0 \/ exists i etag kl now key, PResp i (Response 200 etag (Doc kl)) now ∈ ls /\ is_zts i = z /\
                 last_entry kl id key /\ parse key = Some v).
Proof.
  intros Hr Hidle H0 Hcarry. rewrite get_pub_key_at in *.
  set (Q := fun v => v = v0 \/ exists i etag kl now key, PResp i (Response 200 etag (Doc kl)) now ∈ ls /\ is_zts i = z /\
                 last_entry kl id key /\ parse key = Some v).
  apply (key_stays parse cf z id Q ls s s' Hr).
  - intros l Hl i etag kl now -> Hz cm Hcm. destruct (Hcarry _ _ _ _ Hl Hz) as [key Hin]. apply last_entry_exists in Hin as [key' Hle].
    destruct (decode_keys_ok parse kl ∅) as [Hok _]. destruct (Hok (ex_intro _ _ Hcm) _ (last_entry_elem _ _ _ Hle)) as (? & ? & v & [= <- <-] & Hv).
    exists v. split; [apply (decode_keys_spec _ _ _ Hcm); eauto|]. right. by exists i, etag, kl, now, key'.
  - exists v0. split; [done|by left].
  - intros i t Hi Ht. specialize (Hidle _ _ Hi Ht). by destruct t.
Qed.
(** And an id that does not resolve, and is in no list that is applied, never resolves. *)
Theorem C28_no_ghost {V} (parse : str -> option V) cf s ls s' z id :
  prun parse cf ls s = Some s' ->
  (forall i t, is_zts i = z -> p_tasks s !! i = Some t -> applying t = false) ->
  get_pub_key s (env_of z) id = None ->
  (forall i etag kl now key, PResp i (Response 200 etag (Doc kl)) now ∈ ls -> is_zts i = z -> Some (id, key) ∉ kl) ->
  get_pub_key s' (env_of z) id = None.
Proof.
  intros Hr Hidle H0 Hlack. rewrite get_pub_key_at in *. apply (key_absent parse cf z id ls s s' Hr).
  - intros l Hl i etag kl now -> Hz key. by eapply Hlack.
  - done.
  - intros i t Hi Ht. specialize (Hidle _ _ Hi Ht). by destruct t.
Qed.
(** The instant between the stores and the sweep: old and new ids resolve. *)
Example C28_nonvacuous :
  let s := prun parse1 pcf1 (apply_list 0 (B "a") lA "10" "01" ++
             [PBegin 2 5; PResp 2 (Response 200 (B "b") (Doc lB)) 6; PPut 2 (B "2")]) (pinit 2) in
  ids s true "012" = Some [Some (B "k0b"); Some (B "k1"); Some (B "k2")].
Proof. vm_compute. done. Qed.

(** ** C29 *)
(** With non-overlapping updates and an honest server all of whose lists decode, a
    successful run leaves exactly the keys of the entity named in the server's answer. *)
Theorem C29_success_is_current_partial {V} (parse : str -> option V) cf content n ls1 i r now ls2 s s1 s2 :
  prun parse cf ls1 (pinit n) = Some s -> pstep parse cf (PResp i r now) s = Some s1 -> prun parse cf ls2 s1 = Some s2 ->
  along parse cf serial (ls1 ++ PResp i r now :: ls2) (pinit n) ->
  along parse cf (honest parse content) (ls1 ++ PResp i r now :: ls2) (pinit n) ->
  (forall l, l ∈ ls2 -> no_begin (is_zts i) l) -> p_tasks s2 !! i = Some (PDone None) ->
  exists tag, answered s i r = Some tag /\ forall id v,
    get_pub_key s2 (env_of (is_zts i)) id = Some v <->
      exists key, last_entry (content (is_zts i) tag) id key /\ parse key = Some v.
Proof.
  intros H1 H2 H3 H4 H5 H6 H7.
  destruct (success_is_current parse cf content n ls1 i r now ls2 s s1 s2 H1 H2 H3 H4 H5 H6 H7) as (tag & cm & Ha & Hm & Hk).
  exists tag. split; [done|]. intros id v. rewrite get_pub_key_at, Hk. by apply decode_keys_spec.
Qed.
(** What Update returns: nil iff the runs of both environments ended without error; the error of
    one of them if there is one. *)
Theorem C29_update_nil_iff {V} (s : @pst V) n :
  update_result s n = Some (Ok tt) <-> p_tasks s !! (2 * n)%nat = Some (PDone None) /\ p_tasks s !! (2 * n + 1)%nat = Some (PDone None).
Proof.
  unfold update_result. split.
  - intros H. destruct (p_tasks s !! (2 * n)%nat) as [[| | | |[]|]|], (p_tasks s !! (2 * n + 1)%nat) as [[| | | |[]|]|]; done.
  - intros [-> ->]. done.
Qed.
Theorem C29_update_reports_failures {V} (s : @pst V) n r1 r2 :
  p_tasks s !! (2 * n)%nat = Some (PDone r1) -> p_tasks s !! (2 * n + 1)%nat = Some (PDone r2) -> r1 <> None \/ r2 <> None ->
  exists e, update_result s n = Some (Err e) /\ (r1 = Some e \/ r2 = Some e).
Proof. unfold update_result. intros -> -> H. destruct r1 as [e|], r2 as [e'|]; [by exists e; auto|by exists e; auto|by exists e'; auto|]. by destruct H. Qed.
Definition content1 (z : bool) (tag : str) : key_list := if bool_decide (tag = B "a") then lA else lB.
Definition hist29 : list plabel :=
  apply_list 0 (B "a") lA "10" "01" ++ apply_list 2 (B "b") lB "21" "201" ++ [PBegin 4 7].
(** Boolean versions of the hypotheses, for the examples. *)
Definition goodb (l : key_list) : bool :=
  forallb (fun x => match x with Some (_, k) => match parse1 k with Some _ => true | None => false end | None => false end) l.
Definition honestb (l : plabel) (s : @pst str) : bool :=
  match l with
  | PResp i (Response status etag b) _ =>
      (negb (status =? 304) || match p_tasks s !! i with Some (PSent (Some _)) => true | _ => false end) &&
      (negb (status =? 200) || (negb (bool_decide (etag = [])) &&
        match b with BadBody => true | NullBody => false | Doc l => bool_decide (l = content1 (is_zts i) etag) && goodb l end))
  | _ => true
  end.
Definition serialb (l : plabel) (s : @pst str) : bool :=
  match l with
  | PBegin i _ => forallb (fun j => (j =? i)%nat || negb (Bool.eqb (is_zts j) (is_zts i)) ||
                     match p_tasks s !! j with Some t => negb (active t) | None => true end) (seq 0 (length (p_tasks s)))
  | _ => true
  end.
Fixpoint alongb (P : plabel -> @pst str -> bool) (ls : list plabel) (s : pst) : bool :=
  match ls with
  | [] => true
  | l :: ls => P l s && match pstep parse1 pcf1 l s with Some s' => alongb P ls s' | None => true end
  end.
Lemma along_sound Pb (P : plabel -> pst -> Prop) : (forall l s, Pb l s = true -> P l s) ->
  forall ls s, alongb Pb ls s = true -> along parse1 pcf1 P ls s.
Proof.
  intros HP ls. induction ls as [|l ls IH]; intros s H; cbn [along alongb] in *; [done|].
  apply andb_true_iff in H as [H1 H2]. split; [by apply HP|]. destruct (pstep parse1 pcf1 l s); [by apply IH|done].
Qed.
Lemma goodb_sound l : goodb l = true -> good_list parse1 l.
Proof.
  intros H x Hx. unfold goodb in H. rewrite forallb_forall in H. apply elem_of_list_In in Hx. specialize (H _ Hx).
  destruct x as [[id key]|]; [|done]. destruct (parse1 key) as [v|] eqn:E; [|done]. by exists id, key, v.
Qed.
Lemma honestb_sound l s : honestb l s = true -> honest parse1 content1 l s.
Proof.
  destruct l as [|i [|status etag b] now| | |]; try done. cbn [honestb honest]. intros [H1 H2]%andb_true_iff. split.
  - intros ->. cbn in H1. destruct (p_tasks s !! i) as [[|[c|]| | | |]|]; try done. by exists c.
  - intros ->. cbn in H2. apply andb_true_iff in H2 as [H2 H3]. split; [by case_bool_decide|].
    destruct b as [| |l]; [by left|done|]. apply andb_true_iff in H3 as [H3 H4]. apply bool_decide_eq_true in H3 as ->.
    right. split; [done|]. by apply goodb_sound.
Qed.
Lemma serialb_sound l s : serialb l s = true -> serial l s.
Proof.
  destruct l as [i now| | | |]; try done. cbn [serialb serial]. intros H j t Hne Hz Ht. rewrite forallb_forall in H.
  specialize (H j). rewrite Ht in H. apply lookup_lt_Some in Ht. rewrite in_seq in H. rewrite Hz, Bool.eqb_reflx in H.
  assert ((j =? i)%nat = false) as Hx by (by apply Nat.eqb_neq). rewrite Hx in H. cbn in H.
  destruct (active t); [|done]. assert (false = true) by (apply H; lia). done.
Qed.
Example C29_nonvacuous :
  let ls := hist29 ++ [PResp 4 (Response 304 [] BadBody) 8] in
  along parse1 pcf1 (honest parse1 content1) ls (pinit 3) /\ along parse1 pcf1 serial ls (pinit 3) /\
  ids (prun parse1 pcf1 ls (pinit 3)) true "012" = Some [None; Some (B "k1"); Some (B "k2")] /\
  option_map (fun s => answered s 4 (Response 304 [] BadBody)) (prun parse1 pcf1 hist29 (pinit 3)) = Some (Some (B "b")).
Proof.
  split; [|split; [|split]].
  - apply (along_sound honestb); [apply honestb_sound|]. vm_compute. done.
  - apply (along_sound serialb); [apply serialb_sound|]. vm_compute. done.
  - vm_compute. done.
  - vm_compute. done.
Qed.
(** REFUTED without the decoding condition: the ETag is remembered before the keys are
    decoded, so after one failed update the next is answered 304 and succeeds with the
    old keys.  Update 0 installs [lA]; update 1 gets entity "b", whose list has a bad
    entry, and fails; update 2 sends If-None-Match "b", gets 304, and reports success;
    the server serves "b" but the keys are those of [lA]. *)
Definition bad_b : key_list := lB ++ [ent "3" ""].
Definition other_env (n : nat) : list plabel :=
  apply_list (2 * n + 1) (B "m") lA "10" "01".
Definition poison : list plabel :=
  apply_list 0 (B "a") lA "10" "01" ++ other_env 0 ++
  [PBegin 2 5; PResp 2 (Response 200 (B "b") (Doc bad_b)) 6] ++ other_env 1 ++ [PBegin 4 7].
Definition look (k : nat) (s : @pst str) : option (option conf_cache) :=
  match p_tasks s !! k with Some (PSent t) => Some t | _ => None end.
Lemma some_of_proj {A X} (f : A -> X) o x : option_map f o = Some x -> exists s, o = Some s /\ f s = x.
Proof. destruct o as [a|]; [|done]. intros [= <-]. eauto. Qed.
Theorem C29_etag_poisoning_refuted :
  exists s s', prun parse1 pcf1 poison (pinit 3) = Some s /\
    (* If-None-Match: b *)
    look 4 s = Some (Some (B "b", Some bad_b)) /\
    update_result s 1 = Some (Err (ErrMsg "error decoding key")) /\
    prun parse1 pcf1 ([PResp 4 (Response 304 [] BadBody) 8] ++ other_env 2) s = Some s' /\
    update_result s' 2 = Some (Ok tt) /\
    get_pub_key s' EnvZTS (B "0") = Some (B "k0b") /\ get_pub_key s' EnvZTS (B "2") = None.
Proof.
  destruct (some_of_proj (fun s => (update_result s 2, get_pub_key s EnvZTS (B "0"), get_pub_key s EnvZTS (B "2")))
    (prun parse1 pcf1 (poison ++ ([PResp 4 (Response 304 [] BadBody) 8] ++ other_env 2)) (pinit 3))
    (Some (Ok tt), Some (B "k0b"), None)) as (s' & Hs' & Hp'); [vm_compute; reflexivity|].
  destruct (some_of_proj (fun s => (look 4 s, update_result s 1)) (prun parse1 pcf1 poison (pinit 3))
    (Some (Some (B "b", Some bad_b)), Some (Err (ErrMsg "error decoding key")))) as (s & Hs & Hp); [vm_compute; reflexivity|].
  exists s, s'. rewrite prun_app, Hs in Hs'. injection Hp as H1 H2. injection Hp' as H3 H4 H5. by split_and!.
Qed.
(** REFUTED also when an answer without an ETag comes in between: the tag of an earlier
    entity is kept, and 304 for it leaves the later keys in place. *)
Definition untagged : list plabel :=
  apply_list 0 (B "a") lA "10" "01" ++ apply_list 2 [] lB "12" "012" ++ [PBegin 4 7].
Theorem C29_missing_etag_refuted :
  exists s s', prun parse1 pcf1 untagged (pinit 3) = Some s /\
    (* If-None-Match: a *)
    look 4 s = Some (Some (B "a", Some lA)) /\
    prun parse1 pcf1 ([PResp 4 (Response 304 [] BadBody) 8] ++ other_env 2) s = Some s' /\
    update_result s' 2 = Some (Ok tt) /\
    get_pub_key s' EnvZTS (B "0") = None /\ get_pub_key s' EnvZTS (B "2") = Some (B "k2").
Proof.
  destruct (some_of_proj (fun s => (update_result s 2, get_pub_key s EnvZTS (B "0"), get_pub_key s EnvZTS (B "2")))
    (prun parse1 pcf1 (untagged ++ ([PResp 4 (Response 304 [] BadBody) 8] ++ other_env 2)) (pinit 3))
    (Some (Ok tt), None, Some (B "k2"))) as (s' & Hs' & Hp'); [vm_compute; reflexivity|].
  destruct (some_of_proj (look 4) (prun parse1 pcf1 untagged (pinit 3)) (Some (Some (B "a", Some lA)))) as (s & Hs & Hp);
    [vm_compute; reflexivity|].
  exists s, s'. rewrite prun_app, Hs in Hs'. injection Hp' as H3 H4 H5. by split_and!.
Qed.

(** ** C30 *)
(** After any history, a key that resolves for an environment was published in a list
    served for that environment. *)
Theorem C30_keys_come_from_own_environment {V} (parse : str -> option V) cf ls n s z id v :
  prun parse cf ls (pinit n) = Some s -> get_pub_key s (env_of z) id = Some v ->
  exists i etag kl now key, PResp i (Response 200 etag (Doc kl)) now ∈ ls /\ is_zts i = z /\
    Some (id, key) ∈ kl /\ parse key = Some v.
Proof. intros H Hg. rewrite get_pub_key_at in Hg. apply (published_inv parse cf z) in H as [H _]. by apply H in Hg. Qed.
(** A key published for one environment only does not resolve in the other. *)
Theorem C30_no_crossover {V} (parse : str -> option V) cf ls n s z id :
  prun parse cf ls (pinit n) = Some s ->
  (forall i etag kl now key, PResp i (Response 200 etag (Doc kl)) now ∈ ls -> Some (id, key) ∈ kl -> is_zts i = negb z) ->
  get_pub_key s (env_of z) id = None.
Proof.
  intros H Hn. destruct (get_pub_key s (env_of z) id) as [v|] eqn:E; [|done].
  eapply C30_keys_come_from_own_environment in E as (i & etag & kl & now & key & Hin & Hz & Hk & _); [|done].
  specialize (Hn _ _ _ _ _ Hin Hk). rewrite Hz in Hn; by destruct z.
Qed.
(** Any environment name other than "zts" is looked up among the ZMS keys. *)
Theorem C30_other_names_are_zms {V} (s : @pst V) name id : get_pub_key s (EnvOther name) id = get_pub_key s EnvZMS id.
Proof. done. Qed.
Example C30_nonvacuous :
  let s := prun parse1 pcf1 (apply_list 0 (B "a") lA "10" "01" ++ apply_list 1 (B "b") lB "21" "21") (pinit 1) in
  ids s true "012" = Some [Some (B "k0b"); Some (B "k1"); None] /\
  ids s false "012" = Some [None; Some (B "k1"); Some (B "k2")] /\ res s 0 = Some (Some (Ok tt)).
Proof. vm_compute. done. Qed.

(** ** C25, public key part *)
Theorem C25_key_update_panics_only_on_partial {V} (parse : str -> option V) cf l s s' i :
  pstep parse cf l s = Some s' -> p_tasks s' !! i = Some PPanic -> p_tasks s !! i <> Some PPanic ->
  exists r now t, l = PResp i r now /\ p_tasks s !! i = Some (PSent t) /\
    ((exists etag b, r = Response 304 etag b /\ t = None) \/ (exists etag, r = Response 200 etag NullBody) \/
     (exists etag kl, r = Response 200 etag (Doc kl) /\ None ∈ kl)).
Proof. apply pstep_panic. Qed.
Theorem C25_key_update_304_refuted :
  exists s, prun parse1 pcf1 [PBegin 0 1; PResp 0 (Response 304 [] BadBody) 2] (pinit 1) = Some s /\ update_result s 0 = Some Panic.
Proof. eexists. split; [vm_compute; reflexivity|]. vm_compute. done. Qed.
Theorem C25_key_update_null_body_refuted :
  exists s, prun parse1 pcf1 [PBegin 0 1; PResp 0 (Response 200 [] NullBody) 2] (pinit 1) = Some s /\ update_result s 0 = Some Panic.
Proof. eexists. split; [vm_compute; reflexivity|]. vm_compute. done. Qed.
Theorem C25_key_update_null_key_refuted :
  exists s, prun parse1 pcf1 [PBegin 0 1; PResp 0 (Response 200 [] (Doc [None])) 2] (pinit 1) = Some s /\ update_result s 0 = Some Panic.
Proof. eexists. split; [vm_compute; reflexivity|]. vm_compute. done. Qed.

Print Assumptions C26_keys_equal_list.
Print Assumptions C26_removed_keys_gone.
Print Assumptions C26_update_succeeds_iff_all_keys_valid.
Print Assumptions C27_failed_update_changes_nothing.
Print Assumptions C27_environments_independent.
Print Assumptions C27_bad_entry_fails.
Print Assumptions C28_no_gap.
Print Assumptions C28_no_ghost.
Print Assumptions C29_update_nil_iff.
Print Assumptions C29_update_reports_failures.
Print Assumptions C29_success_is_current_partial.
Print Assumptions C29_etag_poisoning_refuted.
Print Assumptions C29_missing_etag_refuted.
Print Assumptions C30_keys_come_from_own_environment.
Print Assumptions C30_no_crossover.
Print Assumptions C30_other_names_are_zms.
Print Assumptions C25_key_update_panics_only_on_partial.
Print Assumptions C25_key_update_304_refuted.
Print Assumptions C25_key_update_null_body_refuted.
Print Assumptions C25_key_update_null_key_refuted.
