(** * Executions of the daemon decided by computation, for examples and witnesses *)
From Verif Require Export MemTrace.

Global Instance kind_eq : EqDecision kind. Proof. solve_decision. Defined.
Global Instance val_eq : EqDecision val. Proof. solve_decision. Defined.
Global Instance loc_eq : EqDecision loc. Proof. solve_decision. Defined.
Global Instance role_eq : EqDecision role. Proof. solve_decision. Defined.
Global Instance acc_eq : EqDecision macc. Proof. solve_decision. Defined.

Notation mexec := (exec loc role).
Definition plainb (a : macc) : bool := match a with ARead Plain _ _ | AWrite Plain _ _ => true | _ => false end.
Lemma plainb_true a : plainb a = true <-> plain a.
Proof. by destruct a as [[] ? ?|[] ? ?| | | |]; cbn; split. Qed.
Lemma plainb_false a : plainb a = false <-> ~ plain a.
Proof. rewrite <- plainb_true. by destruct (plainb a). Qed.
(** One edge of happens before. *)
Definition edge (e : mexec) (i j : nat) : bool :=
  match e !! i, e !! j with
  | Some (Ev g a _), Some (Ev g' b rf) =>
      (bool_decide (g = g') && (i <? j)%nat) ||
      (negb (plainb a) && negb (plainb b) && bool_decide (rf = Some i) &&
        match writes a, reads b with Some (x, _), Some (y, _) => bool_decide (x = y) | _, _ => false end) ||
      match a with AGo h _ => bool_decide (h = g') | _ => false end || match b with AJoin h _ => bool_decide (h = g) | _ => false end
  | _, _ => false
  end.
Definition below (n : nat) (f : nat -> bool) : bool := forallb f (seq 0 n).
Lemma below_true n f i : below n f = true -> (i < n)%nat -> f i = true.
Proof. intros H Hi. unfold below in H. rewrite forallb_forall in H. apply H, in_seq. lia. Qed.
Lemma implb_use a b : implb a b = true -> a = true -> b = true.
Proof. by destruct a, b. Qed.
(** A relation that contains the edges and is transitive. *)
Definition closed (e : mexec) (R : nat -> nat -> bool) : bool :=
  let n := length e in
  below n (fun i => below n (fun j => implb (edge e i j) (R i j) && below n (fun k => implb (R i j && R j k) (R i k)))).
Lemma ev_lt {L A} (e : exec L A) i g a : ev_at e i g a -> (i < length e)%nat.
Proof. intros (? & H). by eapply lookup_lt_Some. Qed.
Lemma hb_range (e : mexec) i j : hb e i j -> (i < length e)%nat /\ (j < length e)%nat.
Proof.
  induction 1 as [? ? ? ? ? H1 H2|? ? ? ? ? ? ? ? ? H1 _ _ H2|? ? ? ? ? ? H1 H2|? ? ? ? ? ? H1 H2|? ? ? ? [] ? []]; try done.
  all: split; eauto using ev_lt, lookup_lt_Some.
Qed.
Lemma closed_hb e R i j : closed e R = true -> hb e i j -> R i j = true.
Proof.
  intros Hc. assert (He : forall i j, (i < length e)%nat -> (j < length e)%nat -> edge e i j = true -> R i j = true).
  { intros i' j' Hi Hj He. pose proof (below_true _ _ j' (below_true _ _ i' Hc Hi) Hj) as H. apply andb_prop in H as (H & _).
    rewrite He in H. by destruct (R i' j'). }
  intros H. pose proof (hb_range _ _ _ H) as (Hi & Hj). induction H as [i j g a b (rf & H1) (rf' & H2) Hlt|i j g g' a b x v u (rf & H1) H2 H3 H4 H5 H6|i j g g' r b (rf & H1) (rf' & H2)|i j g g' a ok (rf & H1) (rf' & H2)|i j k H1 IH1 H2 IH2].
  - apply He; try done. unfold edge. rewrite H1, H2. rewrite bool_decide_true by done. apply Nat.ltb_lt in Hlt. by rewrite Hlt.
  - apply He; try done. unfold edge. rewrite H1, H4. apply plainb_false in H2, H5. rewrite H2, H5, H3, H6, (bool_decide_true (Some i = Some i)), (bool_decide_true (x = x)) by done. cbn [negb andb].
    by rewrite orb_true_r.
  - apply He; try done. unfold edge. rewrite H1, H2. rewrite (bool_decide_true (g' = g')) by done. by rewrite orb_true_r.
  - apply He; try done. unfold edge. rewrite H1, H2. rewrite (bool_decide_true (g = g)) by done. by rewrite orb_true_r.
  - pose proof (hb_range _ _ _ H1) as (_ & Hj'). pose proof (below_true _ _ j (below_true _ _ i Hc Hi) Hj') as H.
    apply andb_prop in H as (_ & H). eapply implb_use; [exact (below_true _ _ k H Hj)|]. by rewrite IH1, IH2.
Qed.

Definition wloc (e : mexec) (k : nat) (x : loc) : bool :=
  match e !! k with Some ev => match writes (e_op ev) with Some (y, _) => bool_decide (y = x) | None => false end | None => false end.
Lemma wloc_true e k x v : writes_at e k x v -> wloc e k x = true /\ (k < length e)%nat.
Proof.
  intros (g & a & H & Hw). split; [|by eapply ev_lt]. destruct H as (rf & H). unfold wloc. rewrite H. cbn. rewrite Hw. by apply bool_decide_true.
Qed.
Definition read_ok (e : mexec) (R : nat -> nat -> bool) (j : nat) : bool :=
  match e !! j with
  | None => true
  | Some ev =>
      match reads (e_op ev) with
      | None => true
      | Some (x, v) =>
          match e_rf ev with
          | None => bool_decide (v = ini x)
          | Some i => match e !! i with Some b => bool_decide (writes (e_op b) = Some (x, v)) | None => false end
          end &&
          if plainb (e_op ev)
          then match e_rf ev with
               | None => below (length e) (fun k => implb (wloc e k x) (negb (R k j)))
               | Some i => negb (R j i) && below (length e) (fun k => implb (wloc e k x) (negb (R i k && R k j)))
               end
          else match e_rf ev with
               | None => below (length e) (fun k => implb (wloc e k x) (j <=? k)%nat)
               | Some i => (i <? j)%nat && below (length e) (fun k => implb (wloc e k x) ((j <=? k) || (k <=? i))%nat)
               end
      end
  end.
Definition start_ok (e : mexec) (i j : nat) : bool :=
  match e !! i, e !! j with
  | Some a, Some b =>
      match e_op a with AGo h _ => implb (bool_decide (e_g b = h)) (i <? j)%nat | _ => true end &&
      match e_op b with AJoin h _ => implb (bool_decide (e_g a = h)) (i <? j)%nat | _ => true end
  | _, _ => true
  end.
Definition mem_ok (e : mexec) (R : nat -> nat -> bool) : bool :=
  closed e R && below (length e) (read_ok e R) && below (length e) (fun i => below (length e) (start_ok e i)).
Lemma mem_ok_execution e R : mem_ok e R = true -> go_execution ini e.
Proof.
  unfold mem_ok. intros ((Hc & Hr)%andb_prop & Hs)%andb_prop.
  assert (Hrd : forall j g a w x v, e !! j = Some (Ev g a w) -> reads a = Some (x, v) -> read_ok e R j = true).
  { intros. eapply below_true; [exact Hr|by eapply lookup_lt_Some]. }
  assert (Hst : forall i j g g' a b, ev_at e i g a -> ev_at e j g' b -> start_ok e i j = true).
  { intros i j g g' a b H1 H2. exact (below_true _ _ j (below_true _ _ i Hs (ev_lt _ _ _ _ H1)) (ev_lt _ _ _ _ H2)). }
  split.
  - intros j g a w x v H1 H2. pose proof (Hrd _ _ _ _ _ _ H1 H2) as H. unfold read_ok in H. rewrite H1 in H. cbn in H. rewrite H2 in H.
    apply andb_prop in H as (H & _). destruct w as [i|]; [|by apply bool_decide_eq_true in H].
    destruct (e !! i) as [[g' b rf]|] eqn:E; [|done]. apply bool_decide_eq_true in H. exists g', b. split; [by exists rf|done].
  - intros j g a w x v H1 H2 H3. pose proof (Hrd _ _ _ _ _ _ H1 H2) as H. unfold read_ok in H. rewrite H1 in H. cbn in H. rewrite H2 in H.
    apply andb_prop in H as (_ & H). apply plainb_false in H3. rewrite H3 in H. destruct w as [i|].
    + apply andb_prop in H as (Hi & H). apply Nat.ltb_lt in Hi. split; [done|]. intros k u Hk Hkj.
      destruct (wloc_true _ _ _ _ Hk) as (Hw & Hl). pose proof (implb_use _ _ (below_true _ _ k H Hl) Hw) as H'.
      apply orb_prop in H' as [H'|H']; apply Nat.leb_le in H'; lia.
    + split; [done|]. intros k u Hk Hkj. destruct (wloc_true _ _ _ _ Hk) as (Hw & Hl).
      pose proof (implb_use _ _ (below_true _ _ k H Hl) Hw) as H'. apply Nat.leb_le in H'. lia.
  - intros j g a w x v H1 H2 H3. pose proof (Hrd _ _ _ _ _ _ H1 H2) as H. unfold read_ok in H. rewrite H1 in H. cbn in H. rewrite H2 in H.
    apply andb_prop in H as (_ & H). apply plainb_true in H3. rewrite H3 in H. destruct w as [i|].
    + apply andb_prop in H as (Hi & H). split; [intros Hb; apply (closed_hb _ _ _ _ Hc) in Hb; by rewrite Hb in Hi|].
      intros k u Hk (Hb1 & Hb2). destruct (wloc_true _ _ _ _ Hk) as (Hw & Hl). pose proof (implb_use _ _ (below_true _ _ k H Hl) Hw) as H'.
      apply (closed_hb _ _ _ _ Hc) in Hb1, Hb2. by rewrite Hb1, Hb2 in H'.
    + intros k u Hk Hb. destruct (wloc_true _ _ _ _ Hk) as (Hw & Hl). pose proof (implb_use _ _ (below_true _ _ k H Hl) Hw) as H'.
      apply (closed_hb _ _ _ _ Hc) in Hb. by rewrite Hb in H'.
  - intros i j g g' r b H1 H2. pose proof (Hst _ _ _ _ _ _ H1 H2) as H. destruct H1 as (? & H1), H2 as (? & H2).
    unfold start_ok in H. rewrite H1, H2 in H. cbn in H. apply andb_prop in H as (H & _). rewrite bool_decide_true in H by done. by apply Nat.ltb_lt in H.
  - intros i j g g' a ok H1 H2. pose proof (Hst _ _ _ _ _ _ H1 H2) as H. destruct H1 as (? & H1), H2 as (? & H2).
    unfold start_ok in H. rewrite H1, H2 in H. cbn in H. apply andb_prop in H as (_ & H). rewrite bool_decide_true in H by done. by apply Nat.ltb_lt in H.
Qed.

(** The goroutines, the Waits and the writes. *)
Definition started (e : mexec) : list (nat * role) := (0%nat, RMain) :: omap (fun ev => match e_op ev with AGo h r => Some (h, r) | _ => None end) e.
Definition waits (e : mexec) : list (nat * bool) := omap (fun ev => match e_op ev with AJoin h ok => Some (h, ok) | _ => None end) e.
Definition fresh_writes (e : mexec) : list loc :=
  omap (fun ev => match writes (e_op ev) with Some (LTag n, _) => Some (LTag n) | Some (LCell c, _) => Some (LCell c) | _ => None end) e.
Definition ids_ok (e : mexec) : bool :=
  bool_decide (NoDup (started e).*1) && forallb (fun ev => bool_decide (e_g ev ∈ (started e).*1)) e &&
  bool_decide (NoDup (fresh_writes e)) && bool_decide (LCell 0 ∉ fresh_writes e).
Lemma omap_once {A B} (f : A -> option B) (l : list A) i j a b x : NoDup (omap f l) -> l !! i = Some a -> l !! j = Some b -> f a = Some x -> f b = Some x -> i = j.
Proof.
  revert i j. induction l as [|y l IH]; intros i j Hnd Hi Hj Ha Hb; [done|].
  assert (Hin : forall k c, l !! k = Some c -> f c = Some x -> x ∈ omap f l) by (intros k c Hk Hc; apply elem_of_list_omap; exists c; split; [by eapply elem_of_list_lookup_2|done]).
  cbn in Hnd. destruct i as [|i], j as [|j]; cbn in Hi, Hj; try done.
  - injection Hi as ->. rewrite Ha in Hnd. apply NoDup_cons in Hnd as (Hn & _). by destruct Hn; eapply Hin.
  - injection Hj as ->. rewrite Hb in Hnd. apply NoDup_cons in Hnd as (Hn & _). by destruct Hn; eapply Hin.
  - f_equal. eapply IH; eauto. destruct (f y); [by apply NoDup_cons in Hnd as (_ & ?)|done].
Qed.
Lemma runs_started e g r : runs e g r -> (g, r) ∈ started e.
Proof.
  intros [(-> & ->)|(i & g' & rf & H)]; [constructor|]. right. apply elem_of_list_omap. exists (Ev g' (AGo g r) rf).
  split; [by eapply elem_of_list_lookup_2|done].
Qed.
Lemma ids_ok_execution doms e R : mem_ok e R = true -> ids_ok e = true ->
  (forall g r, (g, r) ∈ started e -> exists t, trace doms r t /\ proj g e `prefix_of` t) ->
  (forall h (ok : bool) c d, (h, ok) ∈ waits e -> (h, RFetch c d) ∈ started e -> exists en, work_tr c d (proj h e) en /\ (if ok then en = FOk else en = FErr)) ->
  daemon_execution doms e.
Proof.
  unfold ids_ok. intros Hm (((H1 & H2)%andb_prop & H3)%andb_prop & H4)%andb_prop Ht Hw.
  apply bool_decide_eq_true in H1, H3, H4. split.
  - by eapply mem_ok_execution.
  - intros g r Hr. by apply Ht, runs_started.
  - intros i g a (rf & H). rewrite forallb_forall in H2. assert (Hin : In (Ev g a rf) e) by (apply elem_of_list_In; by eapply elem_of_list_lookup_2).
    apply H2, bool_decide_eq_true in Hin. apply elem_of_list_fmap in Hin as ((g' & r) & Hg & Hin). cbn in Hg. subst g'. exists r.
    apply elem_of_cons in Hin as [Hin|Hin]; [left; injection Hin; auto|right].
    apply elem_of_list_omap in Hin as ([g1 b rf1] & Hin & Hb). destruct b as [| | |h' r'| |]; cbn in Hb; try done. injection Hb as E1 E2. subst h' r'.
    apply elem_of_list_lookup in Hin as (k & Hk). by exists k, g1, rf1.
  - intros i j g g' h r r' (rf & Hi) (rf' & Hj). apply NoDup_cons in H1 as (_ & H1).
    set (f := fun ev : event loc role => match e_op ev with AGo h _ => Some h | _ => None end).
    refine (omap_once f e i j _ _ h _ Hi Hj eq_refl eq_refl).
    assert (E : omap f e = fmap fst (omap (fun ev : event loc role => match e_op ev with AGo h r => Some (h, r) | _ => None end) e)).
    { clear. induction e as [|[g [] rf] l IH]; cbn; try done. by f_equal. }
    by rewrite E.
  - intros i g r (rf & Hi). apply NoDup_cons in H1 as (H1 & _). apply H1. apply elem_of_list_fmap. exists (0%nat, r). split; [done|].
    apply elem_of_list_omap. exists (Ev g (AGo 0%nat r) rf). split; [by eapply elem_of_list_lookup_2|done].
  - intros i g h ok c d (rf & Hi) Hr. apply runs_started in Hr. apply Hw; [|done]. apply elem_of_list_omap. exists (Ev g (AJoin h ok) rf).
    split; [by eapply elem_of_list_lookup_2|done].
  - intros i j x v u (g & a & (rf & Hi) & Ha) (g' & b & (rf' & Hj) & Hb).
    destruct x; try done; (refine (omap_once _ e i j _ _ _ H3 Hi Hj _ _); cbn; [by rewrite Ha|by rewrite Hb]).
  - intros i v (g & a & (rf & Hi) & Ha). apply H4. apply elem_of_list_omap. exists (Ev g a rf). split; [by eapply elem_of_list_lookup_2|]. cbn. by rewrite Ha.
Qed.
(** The smallest such relation, as a table (Floyd and Warshall). *)
Definition tab (t : list (list bool)) (i j : nat) : bool := nth j (nth i t []) false.
Definition closure (e : mexec) : list (list bool) :=
  let n := length e in
  let mk f := map (fun i => map (f i) (seq 0 n)) (seq 0 n) in
  fold_left (fun t k => mk (fun i j => tab t i j || (tab t i k && tab t k j))) (seq 0 n) (mk (edge e)).
Ltac listed H := match type of H with
  | _ ∈ ?l => let l' := eval vm_compute in l in change l with l' in H; rewrite ?elem_of_cons, ?elem_of_nil in H
  end.
Ltac projected := match goal with |- context [proj ?g ?e] => let l := eval vm_compute in (proj g e) in change (proj g e) with l end.
