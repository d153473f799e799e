(** * Property C76: sharing of backing arrays *)
From Verif Require Import Slices PolicyCheckers.
From Verif Require Import GoStrings.

(** ** Specification *)
(** What a reader finds under a key, and until when. *)
Definition entry_of (s : hst) (k : str) : option (list assertion * Z) :=
  option_map (fun e => (contents (h_heap s) (ge_val e), ge_exp e)) (h_g s !! k).
Definition value_entry (c : cst) (k : str) : option (list assertion * Z) := option_map (fun e => (ge_val e, ge_exp e)) (c_g c !! k).
(** The same execution of the machine with values: writing to the array is not a step of it. *)
Definition erase (ls : list hlabel) : list clabel :=
  omap (fun l => match l with HWork i inp => Some (CWork i inp) | HDrop k => Some (CDrop k) | HAppend _ _ => None end) ls.
Definition allow (a : assertion) : Prop := a_effect a = None.
(** Equal, or an allowance in place of another one. *)
Definition exchanged (x y : assertion) : Prop := x = y \/ allow x /\ allow y.
(** An assertion of role [k] in a document one of the goroutines got. *)
Definition own_assertion (U : unicode) (ls : list hlabel) (k : str) (a : assertion) : Prop :=
  exists i j r, HWork i (IFetch (Ok j)) ∈ ls /\ r ∈ j_script j /\ r_role r = k /\ new_assertion U (r_action r) (r_resource r) (r_effect r) = Ok a.
(** Goroutine [i] is between reading the entry of role [k] and writing it back. *)
Definition busy (s : hst) (i : nat) (k : str) : Prop :=
  exists j rest, (exists a cur, h_work s !! i = Some (HGot j k a cur rest)) \/ (exists sl, h_work s !! i = Some (HSet j k sl rest)).
Definition overlap (s : hst) : Prop := exists i i' k, i <> i' /\ busy s i k /\ busy s i' k.
Definition no_overlap (U : unicode) (ls : list hlabel) (s0 : hst) : Prop :=
  forall l1 l2 s, ls = l1 ++ l2 -> hrun U l1 s0 = Some s -> ~ overlap s.

(** ** Arrays *)
Lemma cells_app h x id : (id < length h)%nat -> cells (h ++ [x]) id = cells h id.
Proof. intros H. unfold cells. by rewrite lookup_app_l. Qed.
Lemma cells_new h x : cells (h ++ [x]) (length h) = ar_cells x.
Proof. unfold cells. by rewrite list_lookup_middle. Qed.
Lemma cells_upd_ne h id id' x : id <> id' -> cells (<[id := x]> h) id' = cells h id'.
Proof. intros H. unfold cells. by rewrite list_lookup_insert_ne. Qed.
Lemma cells_upd h id x : (id < length h)%nat -> cells (<[id := x]> h) id = ar_cells x.
Proof. intros H. unfold cells. by rewrite list_lookup_insert. Qed.
Lemma write_cell_length n a l : (n < length l)%nat -> length (write_cell n a l) = length l.
Proof. intros H. unfold write_cell. rewrite app_length, take_length, cons_length, drop_length. lia. Qed.
Lemma write_cell_end a l : write_cell (length l) a l = l ++ [a].
Proof. unfold write_cell. rewrite take_ge, drop_ge by lia. done. Qed.
Lemma write_cell_take n a l : (n <= length l)%nat -> take (S n) (write_cell n a l) = take n l ++ [a].
Proof. intros H. unfold write_cell. rewrite take_app_ge by (rewrite take_length; lia). rewrite take_length, Nat.min_l by lia. replace (S n - n)%nat with 1%nat by lia. done. Qed.
Lemma write_cell_small n a l m : (m <= n)%nat -> (n <= length l)%nat -> take m (write_cell n a l) = take m l.
Proof. intros Hm Hn. unfold write_cell. rewrite take_app_le by (rewrite take_length; lia). rewrite take_take, Nat.min_l by lia. done. Qed.

Lemma exchanged_refl l : Forall2 exchanged l l.
Proof. apply Forall_Forall2_diag, Forall_forall. intros x _. by left. Qed.
Lemma exchanged_trans l1 l2 l3 : Forall2 exchanged l1 l2 -> Forall2 exchanged l2 l3 -> Forall2 exchanged l1 l3.
Proof.
  intros H. revert l3. induction H as [|x y l1 l2 Hxy _ IH]; intros l3 H3; inversion H3 as [|? z ? l3' Hyz Hl]; subst; constructor; [|by apply IH].
  destruct Hxy as [-> | [? ?]]; [done|]. destruct Hyz as [<- | [? ?]]; right; done.
Qed.

(** ** The simulation, for every schedule *)
Section sim.
  Context (U : unicode).
  (** A ghost for every array: the role it belongs to and the number of cells it was made with. *)
  Notation ghost := (list (str * nat)).
  Record hwf (P : str -> assertion -> Prop) (γ : ghost) (h : list arr) : Prop := {
    wf_len : length γ = length h;
    wf_arr : forall id k b, γ !! id = Some (k, b) -> Forall (P k) (cells h id) /\ Forall allow (drop b (cells h id)) /\ (length (cells h id) <= room h id)%nat }.
  (** A slice of role [k]. *)
  Definition slice_ok (γ : ghost) (h : list arr) (k : str) (sl : slice) : Prop :=
    exists b, γ !! sl.1 = Some (k, b) /\ (b <= sl.2 <= length (cells h sl.1))%nat.
  Definition works_rel (P : str -> assertion -> Prop) (γ : ghost) (h : list arr) (w : hw) (c : cw) : Prop :=
    match w, c with
    | HIdle, CIdle => True
    | HCache j rest, CCache j' rest' => j = j' /\ rest = rest' /\ forall r a, r ∈ rest -> new_assertion U (r_action r) (r_resource r) (r_effect r) = Ok a -> P (r_role r) a
    | HGot j k a cur rest, CSet j' k' asss rest' => j = j' /\ k = k' /\ rest = rest' /\ P k a /\
        (forall r a, r ∈ rest -> new_assertion U (r_action r) (r_resource r) (r_effect r) = Ok a -> P (r_role r) a) /\
        match cur with
        | Some sl => slice_ok γ h k sl /\ exists l, asss = add_assertion a (Some l) /\ Forall2 exchanged (contents h sl) l
        | None => asss = [a]
        end
    | HSet j k sl rest, CSet j' k' asss rest' => j = j' /\ k = k' /\ rest = rest' /\
        (forall r a, r ∈ rest -> new_assertion U (r_action r) (r_resource r) (r_effect r) = Ok a -> P (r_role r) a) /\
        slice_ok γ h k sl /\ Forall2 exchanged (contents h sl) asss
    | HEnd j e, CEnd j' e' => j = j' /\ e = e'
    | _, _ => False
    end.
  Definition entry_rel (γ : ghost) (h : list arr) (k : str) (e : option (gentry slice)) (e' : option (gentry (list assertion))) : Prop :=
    match e, e' with
    | Some e, Some e' => ge_exp e = ge_exp e' /\ slice_ok γ h k (ge_val e) /\ Forall2 exchanged (contents h (ge_val e)) (ge_val e')
    | None, None => True
    | _, _ => False
    end.
  Definition sim (P : str -> assertion -> Prop) (γ : ghost) (s : hst) (c : cst) : Prop :=
    hwf P γ (h_heap s) /\ Forall2 (works_rel P γ (h_heap s)) (h_work s) (c_work c) /\
      forall k, entry_rel γ (h_heap s) k (h_g s !! k) (c_g c !! k).

  Lemma slice_lt γ h k sl P : hwf P γ h -> slice_ok γ h k sl -> (sl.1 < length h)%nat.
  Proof. intros Hw (b & Hb & _). rewrite <- (wf_len _ _ _ Hw). by apply lookup_lt_Some in Hb. Qed.
  Lemma contents_length γ h k sl : slice_ok γ h k sl -> length (contents h sl) = sl.2.
  Proof. intros (b & _ & H). unfold contents. rewrite take_length. lia. Qed.
  (** A new array changes nothing. *)
  Lemma new_array P γ h k x b : hwf P γ h -> Forall (P k) (ar_cells x) -> Forall allow (drop b (ar_cells x)) -> (length (ar_cells x) <= ar_cap x)%nat ->
    hwf P (γ ++ [(k, b)]) (h ++ [x]) /\
    (forall k2 sl2, slice_ok γ h k2 sl2 -> slice_ok (γ ++ [(k, b)]) (h ++ [x]) k2 sl2 /\ contents (h ++ [x]) sl2 = contents h sl2) /\
    (forall m, (b <= m <= length (ar_cells x))%nat -> slice_ok (γ ++ [(k, b)]) (h ++ [x]) k (length h, m)).
  Proof.
    intros Hw Hp Ha Hc. pose proof (wf_len _ _ _ Hw) as Hl. split; [|split].
    - split; [rewrite !app_length; cbn; lia|]. intros id k' b' H. destruct (decide (id < length h)%nat) as [Hlt|Hge].
      + rewrite lookup_app_l in H by lia. rewrite cells_app by done. unfold room. rewrite lookup_app_l by lia. by apply (wf_arr _ _ _ Hw).
      + assert (id = length h) as -> by (apply lookup_lt_Some in H; rewrite app_length in H; cbn in H; lia).
        rewrite <- Hl, list_lookup_middle in H by done. injection H as <- <-. rewrite cells_new. unfold room. rewrite list_lookup_middle by done. done.
    - intros k2 sl2 Hs. pose proof (slice_lt _ _ _ _ _ Hw Hs) as Hlt. destruct Hs as (b2 & Hb & Hr). unfold contents. rewrite cells_app by done. split; [|done].
      exists b2. rewrite lookup_app_l by lia. by rewrite cells_app.
    - intros m Hm. exists b. cbn [fst snd]. rewrite cells_new. rewrite <- Hl at 1. by rewrite list_lookup_middle.
  Qed.
  Lemma write_exchanged n a l m b : Forall allow (drop b l) -> (b <= n <= length l)%nat -> (m <= length l)%nat -> allow a ->
    Forall2 exchanged (take m (write_cell n a l)) (take m l).
  Proof.
    intros Ha Hn Hm Hal. destruct (decide (m <= n)%nat) as [H|H].
    - rewrite write_cell_small by lia. apply exchanged_refl.
    - assert (n < length l)%nat as Hlt by lia. destruct (lookup_lt_is_Some_2 l n Hlt) as [y Hy].
      assert (l = take n l ++ y :: drop (S n) l) as El by (by rewrite take_drop_middle).
      rewrite El at 2. unfold write_cell. rewrite !take_app_ge by (rewrite take_length; lia). rewrite take_length, Nat.min_l by lia.
      destruct (m - n)%nat as [|q] eqn:Eq; [lia|]. cbn [take]. apply Forall2_app; [apply exchanged_refl|]. constructor; [|apply exchanged_refl].
      right. split; [done|]. rewrite Forall_forall in Ha. apply Ha. apply elem_of_list_lookup. exists (n - b)%nat. rewrite lookup_drop. by replace (b + (n - b))%nat with n by lia.
  Qed.
  (** What adding an assertion does. *)
  Lemma add_slice_ok P γ h k a cur extra h' sl' : hwf P γ h -> P k a -> (forall sl, cur = Some sl -> slice_ok γ h k sl) ->
    add_slice extra a cur h = (h', sl') ->
    exists γ', hwf P γ' h' /\ slice_ok γ' h' k sl' /\ contents h' sl' = add_assertion a (option_map (contents h) cur) /\
      (forall k2 sl2, slice_ok γ h k2 sl2 -> slice_ok γ' h' k2 sl2 /\ Forall2 exchanged (contents h' sl2) (contents h sl2)).
  Proof.
    intros Hw Hp Hcur Hadd. unfold add_slice in Hadd.
    assert (forall x, h' = h ++ [x] -> sl' = (length h, length (ar_cells x)) -> ar_cells x = add_assertion a (option_map (contents h) cur) ->
      (length (ar_cells x) <= ar_cap x)%nat -> Forall (P k) (ar_cells x) ->
      exists γ', hwf P γ' h' /\ slice_ok γ' h' k sl' /\ contents h' sl' = add_assertion a (option_map (contents h) cur) /\
      (forall k2 sl2, slice_ok γ h k2 sl2 -> slice_ok γ' h' k2 sl2 /\ Forall2 exchanged (contents h' sl2) (contents h sl2))) as Hnew.
    { intros x -> -> Hx Hc Hpx. exists (γ ++ [(k, length (ar_cells x))]).
      destruct (new_array P γ h k x (length (ar_cells x)) Hw Hpx) as (H1 & H2 & H3); [by rewrite drop_ge|done|].
      split; [done|]. split; [apply H3; lia|]. split; [unfold contents; cbn [fst snd]; by rewrite cells_new, take_ge|].
      intros k2 sl2 Hs. destruct (H2 k2 sl2 Hs) as [? ->]. split; [done|]. apply exchanged_refl. }
    destruct cur as [sl|]; [|injection Hadd as <- <-; apply (Hnew (Arr [a] 1) eq_refl); try done; by constructor].
    pose proof (Hcur sl eq_refl) as Hs. pose proof (contents_length _ _ _ _ Hs) as Hcl. pose proof (slice_lt _ _ _ _ _ Hw Hs) as Hlt.
    assert (Forall (P k) (contents h sl)) as Hpc. { destruct Hs as (b & Hb & _). apply Forall_take. by apply (wf_arr _ _ _ Hw _ _ _ Hb). }
    cbn [option_map add_assertion] in *. destruct (a_effect a) as [e|] eqn:Ea.
    { injection Hadd as <- <-. apply (Hnew (Arr (a :: contents h sl) (S (length (contents h sl)) + extra)) eq_refl); try done; cbn [ar_cells ar_cap length]; [lia|by constructor]. }
    unfold append_to in Hadd. destruct (Nat.ltb_spec sl.2 (room h sl.1)) as [Hroom|Hroom].
    2: { injection Hadd as <- <-. apply (Hnew (Arr (contents h sl ++ [a]) (S sl.2 + extra)) eq_refl); cbn [ar_cells ar_cap]; try done.
         - rewrite app_length, Hcl. cbn. f_equal. lia.
         - rewrite app_length, Hcl. cbn. lia.
         - apply Forall_app. by split; [|constructor]. }
    injection Hadd as <- <-. destruct Hs as (b & Hb & Hr). destruct (wf_arr _ _ _ Hw _ _ _ Hb) as (Hw1 & Hw2 & Hw3).
    set (h' := <[sl.1 := Arr (write_cell sl.2 a (cells h sl.1)) (room h sl.1)]> h).
    assert (cells h' sl.1 = write_cell sl.2 a (cells h sl.1)) as Hc1 by (unfold h'; by rewrite cells_upd).
    assert (forall id, id <> sl.1 -> cells h' id = cells h id /\ room h' id = room h id) as Hc2.
    { intros id Hne. unfold h'. rewrite cells_upd_ne by done. split; [done|]. unfold room. by rewrite list_lookup_insert_ne. }
    assert (room h' sl.1 = room h sl.1) as Hro by (unfold h', room at 1; by rewrite list_lookup_insert).
    assert (length (cells h' sl.1) = Nat.max (length (cells h sl.1)) (S sl.2)) as Hlen.
    { rewrite Hc1. unfold write_cell. rewrite app_length, take_length, cons_length, drop_length. lia. }
    exists γ. split.
    - split; [unfold h'; rewrite insert_length; apply (wf_len _ _ _ Hw)|]. intros id k' b' Hg. destruct (decide (id = sl.1)) as [->|Hne].
      + rewrite Hb in Hg. injection Hg as <- <-. rewrite Hlen, Hro. rewrite Hc1. unfold write_cell. split; [|split; [|lia]].
        * apply Forall_app. split; [by apply Forall_take|]. constructor; [done|]. by apply Forall_drop.
        * rewrite drop_app_le by (rewrite take_length; lia). apply Forall_app. split.
          { rewrite <- (take_drop b (cells h sl.1)) at 1. rewrite take_app_ge by (rewrite take_length; lia). rewrite drop_app_ge by (rewrite take_length; lia).
            apply Forall_drop, Forall_take. done. }
          constructor; [done|]. replace (S sl.2) with (b + (S sl.2 - b))%nat by lia. rewrite <- drop_drop. by apply Forall_drop.
      + destruct (Hc2 id Hne) as [-> ->]. by apply (wf_arr _ _ _ Hw).
    - split; [exists b; cbn [fst snd]; split; [done|]; rewrite Hlen; lia|]. split.
      { unfold contents at 1. cbn [fst snd]. rewrite Hc1. rewrite write_cell_take by lia. done. }
      intros k2 sl2 (b2 & Hb2 & Hr2). destruct (decide (sl2.1 = sl.1)) as [He|Hne].
      + rewrite He in Hb2. rewrite Hb in Hb2. injection Hb2 as <- <-. split; [exists b; rewrite He; split; [done|]; rewrite Hlen; rewrite He in Hr2; lia|].
        unfold contents. rewrite He, Hc1. rewrite He in Hr2. apply (write_exchanged _ _ _ _ b); [done|lia|lia|done].
      + destruct (Hc2 _ Hne) as [Hcc _]. unfold slice_ok, contents. rewrite Hcc. split; [by exists b2|apply exchanged_refl].
  Qed.

  Lemma insert_rel {A C} (R : A -> C -> Prop) i x y (l : list A) (l' : list C) : Forall2 R l l' -> R x y -> Forall2 R (<[i := x]> l) (<[i := y]> l').
  Proof. intros. by apply Forall2_insert. Qed.
  Lemma get_rel γ h k t g g' : (forall k, entry_rel γ h k (g !! k) (g' !! k)) ->
    match g_get t k g, g_get t k g' with
    | Some sl, Some l => slice_ok γ h k sl /\ Forall2 exchanged (contents h sl) l
    | None, None => True
    | _, _ => False
    end.
  Proof.
    intros H. specialize (H k). unfold g_get. destruct (g !! k) as [e|], (g' !! k) as [e'|]; try done.
    destruct H as (He & Hs & Hx). unfold g_valid. rewrite He. by destruct ((ge_exp e' <=? 0) || (t <=? ge_exp e')).
  Qed.
  Lemma add_exchanged a l l' : Forall2 exchanged l l' -> Forall2 exchanged (add_assertion a (Some l)) (add_assertion a (Some l')).
  Proof. intros H. cbn [add_assertion]. destruct (a_effect a); [constructor; [by left|done]|]. apply Forall2_app; [done|]. constructor; [by left|constructor]. Qed.
  (** Slices stay slices, and read the same but for exchanged allowances. *)
  Definition evolves (γ γ' : ghost) (h h' : list arr) : Prop :=
    forall k sl, slice_ok γ h k sl -> slice_ok γ' h' k sl /\ Forall2 exchanged (contents h' sl) (contents h sl).
  Lemma evolves_refl γ h : evolves γ γ h h.
  Proof. intros k sl H. split; [done|apply exchanged_refl]. Qed.
  Lemma evolves_trans γ1 γ2 γ3 h1 h2 h3 : evolves γ1 γ2 h1 h2 -> evolves γ2 γ3 h2 h3 -> evolves γ1 γ3 h1 h3.
  Proof. intros H1 H2 k sl H. destruct (H1 k sl H) as [Ha Hx]. destruct (H2 k sl Ha) as [Hb Hy]. split; [done|]. by eapply exchanged_trans. Qed.
  Lemma sim_step P γ l s s' c : sim P γ s c ->
    (forall i j, l = HWork i (IFetch (Ok j)) -> forall r a, r ∈ j_script j -> new_assertion U (r_action r) (r_resource r) (r_effect r) = Ok a -> P (r_role r) a) ->
    hstep U l s = Some s' -> exists c' γ', crun U (erase [l]) c = Some c' /\ sim P γ' s' c' /\ evolves γ γ' (h_heap s) (h_heap s').
  Proof.
    intros (Hw & Hwork & Hcache) HP Hs. destruct l as [i inp|i extra|key]; cbn [hstep] in Hs.
    - change (erase [HWork i inp]) with [CWork i inp]. cbn [crun cstep].
      destruct (h_work s !! i) as [w|] eqn:Ew; [|done]. destruct (Forall2_lookup_l _ _ _ _ _ Hwork Ew) as (w' & Ew' & Hrel). rewrite Ew'.
      destruct w as [|j [|r rest]|j role a cur rest|j role sl rest|j e], w' as [|j' rest'|j' role' asss' rest'|j' e']; cbn [works_rel] in Hrel; try done.
      + destruct inp as [[j|e|]|]; try done; injection Hs as <-; (eexists; exists γ; split; [done|]); (split; [|apply evolves_refl]); (split; [done|]); (split; [|done]); apply insert_rel; try done.
        split; [done|]. split; [done|]. intros r a Hr Ha. by apply (HP i j eq_refl).
      + destruct Hrel as (<- & <- & Hrest). destruct inp as [[|?|]|t]; try done. injection Hs as <-. eexists. exists γ. split; [done|]. split; [|apply evolves_refl]. split; [done|]. split; [|done]. by apply insert_rel.
      + destruct Hrel as (<- & <- & Hrest). destruct inp as [[|?|]|t]; try done.
        destruct (new_assertion U (r_action r) (r_resource r) (r_effect r)) as [a|e|] eqn:Ea; try done.
        * injection Hs as <-. eexists. exists γ. split; [done|]. split; [|apply evolves_refl]. split; [done|]. split; [|done]. apply insert_rel; [done|]. cbn [works_rel].
          do 3 (split; [done|]). split; [apply Hrest; [left|done]|]. split; [intros r' a' Hr' Ha'; apply Hrest; [by right|done]|].
          pose proof (get_rel γ (h_heap s) (r_role r) t _ _ Hcache) as Hg.
          destruct (g_get t (r_role r) (h_g s)) as [sl|], (g_get t (r_role r) (c_g c)) as [l|]; try done. destruct Hg as [? ?]. split; [done|]. by exists l.
        * injection Hs as <-. eexists. exists γ. split; [done|]. split; [|apply evolves_refl]. split; [done|]. split; [|done]. by apply insert_rel.
      + destruct Hrel as (<- & <- & <- & Hrest & Hsl & Hx). destruct inp as [[|?|]|t]; try done. injection Hs as <-. eexists. exists γ. split; [done|]. split; [|apply evolves_refl]. split; [done|].
        split; [by apply insert_rel|]. intros k. cbn [h_g c_g]. unfold g_set. destruct (decide (role = k)) as [<-|Hne]; [rewrite !lookup_insert|rewrite !lookup_insert_ne by done; apply Hcache].
        by cbn [entry_rel ge_exp ge_val].
    - change (erase [HAppend i extra]) with (@nil clabel). cbn [crun].
      destruct (h_work s !! i) as [w|] eqn:Ew; [|done]. destruct (Forall2_lookup_l _ _ _ _ _ Hwork Ew) as (w' & Ew' & Hrel).
      destruct w as [| |j role a cur rest| |]; try done. destruct w' as [| |j' role' asss' rest'|]; try done. destruct Hrel as (<- & <- & <- & Hpa & Hrest & Hcur).
      destruct (add_slice extra a cur (h_heap s)) as [h' sl'] eqn:Eadd. injection Hs as <-.
      destruct (add_slice_ok P γ (h_heap s) role a cur extra h' sl') as (γ' & Hw' & Hsl' & Hcont & Hold); [done|done|by intros sl ->; destruct Hcur|done|].
      exists c, γ'. split; [done|]. split; [|exact Hold]. split; [done|]. cbn [h_heap h_work h_g]. split.
      + assert (Forall2 (works_rel P γ' h') (h_work s) (c_work c)) as Hwork'.
        { eapply Forall2_impl; [exact Hwork|]. intros w w' Hwr. destruct w as [|j1 r1|j1 k1 a1 cur1 r1|j1 k1 sl1 r1|j1 e1], w' as [|j2 r2|j2 k2 as2 r2|j2 e2]; try done; cbn [works_rel] in *.
          - destruct Hwr as (? & ? & ? & ? & ? & Hc). do 5 (split; [done|]). destruct cur1 as [sl1|]; [|done]. destruct Hc as (Hs1 & l & -> & Hl).
            destruct (Hold _ _ Hs1) as [? Hx]. split; [done|]. exists l. split; [done|]. by eapply exchanged_trans.
          - destruct Hwr as (? & ? & ? & ? & Hs1 & Hl). do 4 (split; [done|]). destruct (Hold _ _ Hs1) as [? Hx]. split; [done|]. by eapply exchanged_trans. }
        rewrite <- (list_insert_id (c_work c) i (CSet j role asss' rest)) by done. apply insert_rel; [done|]. cbn [works_rel]. do 4 (split; [done|]). split; [done|]. rewrite Hcont.
        destruct cur as [sl|]; [|subst; cbn [option_map add_assertion]; apply exchanged_refl]. destruct Hcur as (_ & l & -> & Hl). cbn [option_map]. by apply add_exchanged.
      + intros k. specialize (Hcache k). destruct (h_g s !! k) as [e|], (c_g c !! k) as [e'|]; try done. destruct Hcache as (He & Hs1 & Hl). destruct (Hold _ _ Hs1) as [? Hx].
        cbn [entry_rel]. split; [done|]. split; [done|]. by eapply exchanged_trans.
    - injection Hs as <-. change (erase [HDrop key]) with [CDrop key]. cbn [crun cstep]. eexists. exists γ. split; [done|]. split; [|apply evolves_refl]. split; [done|]. split; [done|].
      intros k. cbn [h_g c_g]. destruct (decide (key = k)) as [<-|Hne]; [by rewrite !lookup_delete|rewrite !lookup_delete_ne by done; apply Hcache].
  Qed.
  Lemma crun_app l1 l2 c : crun U (l1 ++ l2) c = match crun U l1 c with Some c' => crun U l2 c' | None => None end.
  Proof. revert c. induction l1 as [|l l1 IH]; intros c; cbn [crun app]; [done|]. by destruct (cstep U l c). Qed.
  Lemma erase_app l1 l2 : erase (l1 ++ l2) = erase l1 ++ erase l2.
  Proof. apply omap_app. Qed.
  Lemma sim_run all ls γ s s' c : (forall l, l ∈ ls -> l ∈ all) -> sim (own_assertion U all) γ s c -> hrun U ls s = Some s' ->
    exists c' γ', crun U (erase ls) c = Some c' /\ sim (own_assertion U all) γ' s' c' /\ evolves γ γ' (h_heap s) (h_heap s').
  Proof.
    revert γ s c. induction ls as [|l ls IH]; intros γ s c Hall Hsim Hr; cbn [hrun] in Hr.
    - injection Hr as <-. exists c, γ. split; [done|]. split; [done|apply evolves_refl].
    - destruct (hstep U l s) as [s1|] eqn:E; [|done].
      destruct (sim_step _ _ l _ s1 _ Hsim) as (c1 & γ1 & Hc1 & Hsim1 & Hev1); [|done|].
      { intros i j -> r a Hr' Ha. exists i, j, r. split; [apply Hall; left|]. done. }
      destruct (IH γ1 s1 c1) as (c' & γ' & Hc' & Hsim' & Hev'); [intros x Hx; apply Hall; by right|done|done|].
      exists c', γ'. split; [|split; [done|by eapply evolves_trans]]. change (l :: ls) with ([l] ++ ls). by rewrite erase_app, crun_app, Hc1.
  Qed.
  Lemma sim_init P n : sim P [] (hinit n) (cinit ∅ n).
  Proof.
    split; [split; [done|intros id k b H; done]|]. split; [|intros k; cbn [hinit cinit h_g c_g]; by rewrite !lookup_empty].
    cbn [hinit cinit h_work c_work]. induction n; cbn [replicate]; constructor; done.
  Qed.
  Lemma hrun_app l1 l2 s : hrun U (l1 ++ l2) s = match hrun U l1 s with Some s' => hrun U l2 s' | None => None end.
  Proof. revert s. induction l1 as [|l l1 IH]; intros s; cbn [hrun app]; [done|]. by destruct (hstep U l s). Qed.

  (** ** Without overlap the machines agree *)
  Definition full (h : list arr) (sl : slice) : Prop := sl.2 = length (cells h sl.1).
  Record exact (s : hst) (c : cst) : Prop := {
    x_cache : forall k e e', h_g s !! k = Some e -> c_g c !! k = Some e' -> contents (h_heap s) (ge_val e) = ge_val e';
    x_got : forall i j k a sl rest j' k' asss rest', h_work s !! i = Some (HGot j k a (Some sl) rest) -> c_work c !! i = Some (CSet j' k' asss rest') ->
      asss = add_assertion a (Some (contents (h_heap s) sl)) /\ full (h_heap s) sl;
    x_set : forall i j k sl rest j' k' asss rest', h_work s !! i = Some (HSet j k sl rest) -> c_work c !! i = Some (CSet j' k' asss rest') ->
      asss = contents (h_heap s) sl /\ full (h_heap s) sl;
    x_full : forall k e, h_g s !! k = Some e -> full (h_heap s) (ge_val e) \/
      exists i j sl rest, h_work s !! i = Some (HSet j k sl rest) /\ sl.1 = (ge_val e).1 }.
  (** Adding to a full slice leaves what slices read, and other full slices. *)
  Lemma add_slice_full P γ h k a cur extra h' sl' : hwf P γ h -> (forall sl, cur = Some sl -> slice_ok γ h k sl /\ full h sl) ->
    add_slice extra a cur h = (h', sl') ->
    full h' sl' /\ (forall k2 sl2, slice_ok γ h k2 sl2 -> contents h' sl2 = contents h sl2) /\
    (forall k2 sl2, slice_ok γ h k2 sl2 -> full h sl2 -> full h' sl2 \/ k2 = k /\ sl'.1 = sl2.1).
  Proof.
    intros Hw Hcur Hadd.
    assert (forall x, h' = h ++ [x] -> sl' = (length h, length (ar_cells x)) ->
      full h' sl' /\ (forall k2 sl2, slice_ok γ h k2 sl2 -> contents h' sl2 = contents h sl2) /\
      (forall k2 sl2, slice_ok γ h k2 sl2 -> full h sl2 -> full h' sl2 \/ k2 = k /\ sl'.1 = sl2.1)) as Hnew.
    { intros x -> ->. split; [unfold full; cbn [fst snd]; by rewrite cells_new|]. split.
      - intros k2 sl2 Hs. unfold contents. by rewrite cells_app by (by eapply slice_lt).
      - intros k2 sl2 Hs Hf. left. unfold full. by rewrite cells_app by (by eapply slice_lt). }
    unfold add_slice in Hadd. destruct cur as [sl|]; [|injection Hadd as <- <-; by apply (Hnew (Arr [a] 1))].
    destruct (Hcur sl eq_refl) as [Hs Hf]. pose proof (contents_length _ _ _ _ Hs) as Hcl. pose proof (slice_lt _ _ _ _ _ Hw Hs) as Hlt.
    destruct (a_effect a); [injection Hadd as <- <-; by apply (Hnew (Arr (a :: contents h sl) (S (length (contents h sl)) + extra)))|].
    unfold append_to in Hadd. destruct (Nat.ltb_spec sl.2 (room h sl.1)).
    2: { injection Hadd as <- <-. apply (Hnew (Arr (contents h sl ++ [a]) (S sl.2 + extra)) eq_refl). cbn [ar_cells]. rewrite app_length, Hcl. cbn. f_equal. lia. }
    injection Hadd as <- <-. assert (write_cell sl.2 a (cells h sl.1) = cells h sl.1 ++ [a]) as -> by (rewrite Hf; apply write_cell_end). split; [|split].
    - unfold full. cbn [fst snd]. rewrite cells_upd by done. cbn [ar_cells]. rewrite app_length. cbn. unfold full in Hf. lia.
    - intros k2 sl2 (b & Hb & Hr). unfold contents. destruct (decide (sl2.1 = sl.1)) as [He|Hne]; [|by rewrite cells_upd_ne].
      rewrite He in *. rewrite cells_upd by done. cbn [ar_cells]. rewrite take_app_le by lia. done.
    - intros k2 sl2 Hs2 Hf2. destruct (decide (sl2.1 = sl.1)) as [He|Hne]; [right|left; unfold full; by rewrite cells_upd_ne].
      destruct Hs as (b & Hb & _), Hs2 as (b2 & Hb2 & _). rewrite He, Hb in Hb2. injection Hb2 as -> _. by rewrite He.
  Qed.
  Lemma sim_work P γ s c i w : sim P γ s c -> h_work s !! i = Some w -> exists w', c_work c !! i = Some w' /\ works_rel P γ (h_heap s) w w'.
  Proof. intros (_ & H & _) Hi. destruct (Forall2_lookup_l _ _ _ _ _ H Hi) as (w' & ? & ?). eauto. Qed.
  Lemma exact_step P γ l s s' c c' : sim P γ s c -> exact s c -> hstep U l s = Some s' -> crun U (erase [l]) c = Some c' -> ~ overlap s -> ~ overlap s' ->
    exact s' c' /\ forall k sl, slice_ok γ (h_heap s) k sl -> contents (h_heap s') sl = contents (h_heap s) sl.
  Proof.
    intros Hsim Hx Hs Hc Hno Hno'. pose proof Hsim as (Hw & Hwork & Hcache). destruct l as [i inp|i extra|key]; cbn [hstep] in Hs.
    - change (erase [HWork i inp]) with [CWork i inp] in Hc. cbn [crun cstep] in Hc.
      destruct (h_work s !! i) as [w|] eqn:Ew; [|done]. destruct (sim_work _ _ _ _ _ _ Hsim Ew) as (w' & Ew' & Hrel). rewrite Ew' in Hc.
      assert (i < length (h_work s))%nat as Hil by (by apply lookup_lt_Some in Ew). assert (i < length (c_work c))%nat as Hil' by (by apply lookup_lt_Some in Ew').
      (* a step of [i] that only changes its own state, to one that is not busy *)
      assert (forall v v', s' = HSt (h_heap s) (h_g s) (<[i := v]> (h_work s)) -> c' = CSt (c_g c) (<[i := v']> (c_work c)) ->
        (forall j k sl rest, w <> HSet j k sl rest) -> (forall j k sl rest, v <> HSet j k sl rest) ->
        (forall j k a sl rest j' k' asss rest', v = HGot j k a (Some sl) rest -> v' = CSet j' k' asss rest' -> asss = add_assertion a (Some (contents (h_heap s) sl)) /\ full (h_heap s) sl) ->
        exact s' c' /\ forall k sl, slice_ok γ (h_heap s) k sl -> contents (h_heap s') sl = contents (h_heap s) sl) as Hloc.
      { intros v v' -> -> Hnw Hnv Hv. split; [|done]. split; cbn [h_heap h_g h_work c_g c_work].
        - apply (x_cache _ _ Hx).
        - intros i' j k a sl rest j' k' asss rest' H1 H2. apply list_lookup_insert_Some in H1 as [(<- & -> & _)|[Hne H1]].
          + rewrite list_lookup_insert in H2 by done. injection H2 as ->. by eapply Hv.
          + rewrite list_lookup_insert_ne in H2 by done. by eapply (x_got _ _ Hx).
        - intros i' j k sl rest j' k' asss rest' H1 H2. apply list_lookup_insert_Some in H1 as [(<- & -> & _)|[Hne H1]]; [by destruct (Hnv j k sl rest)|].
          rewrite list_lookup_insert_ne in H2 by done. by eapply (x_set _ _ Hx).
        - intros k e He. destruct (x_full _ _ Hx k e He) as [?|(i' & j & sl & rest & Hi' & Hid)]; [by left|right].
          assert (i' <> i) as Hne by (intros ->; rewrite Ew in Hi'; injection Hi' as ->; by destruct (Hnw j k sl rest)).
          exists i', j, sl, rest. by rewrite list_lookup_insert_ne. }
      destruct w as [|j [|r rest]|j role a cur rest|j role sl rest|j e], w' as [|j' rest'|j' role' asss' rest'|j' e']; cbn [works_rel] in Hrel; try done.
      + destruct inp as [[j|e|]|]; try done; injection Hs as <-; injection Hc as <-; by eapply Hloc.
      + destruct Hrel as (<- & <- & Hrest). destruct inp as [[|?|]|t]; try done. injection Hs as <-. injection Hc as <-. by eapply Hloc.
      + destruct Hrel as (<- & <- & Hrest). destruct inp as [[|?|]|t]; try done.
        destruct (new_assertion U (r_action r) (r_resource r) (r_effect r)) as [a|e|] eqn:Ea; try done; injection Hs as <-; injection Hc as <-; eapply Hloc; try done.
        intros j1 k1 a1 sl1 rest1 j2 k2 asss rest2 [= -> <- <- Hg ->] [= -> <- <- ->].
        unfold g_get in Hg. destruct (h_g s !! r_role r) as [e|] eqn:Ee; [|done]. destruct (g_valid t e) eqn:Ev; [|done]. injection Hg as <-.
        pose proof (Hcache (r_role r)) as Her. rewrite Ee in Her. destruct (c_g c !! r_role r) as [e'|] eqn:Ee'; [|done]. destruct Her as (Hexp & _ & _). split.
        * assert (g_get t (r_role r) (c_g c) = Some (contents (h_heap s) (ge_val e))) as ->; [|done].
          unfold g_get. rewrite Ee'. unfold g_valid in *. rewrite <- Hexp, Ev. f_equal. symmetry. by apply (x_cache _ _ Hx (r_role r)).
        * destruct (x_full _ _ Hx _ _ Ee) as [?|(i' & j3 & sl3 & rest3 & Hi' & _)]; [done|]. exfalso. apply Hno'. exists i, i', (r_role r).
          assert (i <> i') as Hne by (intros ->; by rewrite Ew in Hi'). split; [done|]. split.
          { eexists _, _. left. eexists _, _. cbn [h_work]. by rewrite list_lookup_insert. }
          { eexists _, _. right. eexists. cbn [h_work]. rewrite list_lookup_insert_ne by done. exact Hi'. }
      + destruct Hrel as (<- & <- & <- & Hrest & Hsl & _). destruct inp as [[|?|]|t]; try done. injection Hs as <-. injection Hc as <-.
        destruct (x_set _ _ Hx _ _ _ _ _ _ _ _ _ Ew Ew') as [-> Hf]. split; [|done]. split; cbn [h_heap h_g h_work c_g c_work].
        * intros k e e'. unfold g_set. destruct (decide (role = k)) as [<-|Hne]; [rewrite !lookup_insert; intros [= <-] [= <-]; done|rewrite !lookup_insert_ne by done; apply (x_cache _ _ Hx)].
        * intros i' j1 k a sl1 rest1 j' k' asss rest' H1 H2. apply list_lookup_insert_Some in H1 as [(<- & ? & _)|[Hne H1]]; [done|].
          rewrite list_lookup_insert_ne in H2 by done. by eapply (x_got _ _ Hx).
        * intros i' j1 k sl1 rest1 j' k' asss rest' H1 H2. apply list_lookup_insert_Some in H1 as [(<- & ? & _)|[Hne H1]]; [done|].
          rewrite list_lookup_insert_ne in H2 by done. by eapply (x_set _ _ Hx).
        * intros k e. unfold g_set. destruct (decide (role = k)) as [<-|Hne]; [rewrite lookup_insert; intros [= <-]; by left|rewrite lookup_insert_ne by done]. intros He.
          destruct (x_full _ _ Hx k e He) as [?|(i' & j1 & sl1 & rest1 & Hi' & Hid)]; [by left|right].
          assert (i' <> i) as Hne' by (intros ->; rewrite Ew in Hi'; injection Hi' as _ ? _ _; done).
          exists i', j1, sl1, rest1. by rewrite list_lookup_insert_ne.
    - change (erase [HAppend i extra]) with (@nil clabel) in Hc. cbn [crun] in Hc. injection Hc as <-.
      destruct (h_work s !! i) as [w|] eqn:Ew; [|done]. destruct (sim_work _ _ _ _ _ _ Hsim Ew) as (w' & Ew' & Hrel).
      destruct w as [| |j role a cur rest| |]; try done. destruct w' as [| |j' role' asss' rest'|]; try done. destruct Hrel as (<- & <- & <- & Hpa & Hrest & Hcur).
      assert (i < length (h_work s))%nat as Hil by (by apply lookup_lt_Some in Ew).
      destruct (add_slice extra a cur (h_heap s)) as [h' sl'] eqn:Eadd. injection Hs as <-.
      assert (forall sl, cur = Some sl -> slice_ok γ (h_heap s) role sl /\ full (h_heap s) sl) as Hok.
      { intros sl ->. split; [by destruct Hcur|]. by destruct (x_got _ _ Hx _ _ _ _ _ _ _ _ _ _ Ew Ew'). }
      destruct (add_slice_full P γ _ _ _ _ _ _ _ Hw Hok Eadd) as (Hf & Hsame & Hfull).
      destruct (add_slice_ok P γ _ _ _ _ _ _ _ Hw Hpa (fun sl H => proj1 (Hok sl H)) Eadd) as (_ & _ & _ & Hcont & _).
      assert (forall i' k, i' <> i -> busy s i' k -> k <> role) as Hother.
      { intros i' k Hne Hb ->. apply Hno. exists i', i, role. split; [done|]. split; [done|]. eexists _, _. left. eexists _, _. exact Ew. }
      split; [|exact Hsame]. split; cbn [h_heap h_g h_work].
      + intros k e e' He He'. specialize (Hcache k). rewrite He, He' in Hcache. destruct Hcache as (_ & Hsl & _). rewrite (Hsame _ _ Hsl). by eapply (x_cache _ _ Hx).
      + intros i' j1 k a1 sl1 rest1 j2 k2 asss rest2 H1 H2. apply list_lookup_insert_Some in H1 as [(<- & ? & _)|[Hne H1]]; [done|].
        destruct (x_got _ _ Hx _ _ _ _ _ _ _ _ _ _ H1 H2) as [-> Hf1]. destruct (sim_work _ _ _ _ _ _ Hsim H1) as (w2 & Ew2 & Hr2). rewrite H2 in Ew2. injection Ew2 as <-.
        destruct Hr2 as (_ & _ & _ & _ & _ & Hs1 & _). rewrite (Hsame _ _ Hs1). split; [done|]. destruct (Hfull _ _ Hs1 Hf1) as [?|[Hk _]]; [done|].
        exfalso. apply (Hother i' k); [done| |done]. eexists _, _. left. eexists _, _. exact H1.
      + intros i' j1 k sl1 rest1 j2 k2 asss rest2 H1 H2. apply list_lookup_insert_Some in H1 as [(<- & Heq & _)|[Hne H1]].
        * injection Heq as -> -> -> ->. rewrite Ew' in H2. injection H2 as <- <- <- <-. split; [|done]. rewrite Hcont.
          destruct cur as [sl|]; [|done]. by destruct (x_got _ _ Hx _ _ _ _ _ _ _ _ _ _ Ew Ew') as [-> _].
        * destruct (x_set _ _ Hx _ _ _ _ _ _ _ _ _ H1 H2) as [-> Hf1]. destruct (sim_work _ _ _ _ _ _ Hsim H1) as (w2 & Ew2 & Hr2). rewrite H2 in Ew2. injection Ew2 as <-.
          destruct Hr2 as (_ & _ & _ & _ & Hs1 & _). rewrite (Hsame _ _ Hs1). split; [done|]. destruct (Hfull _ _ Hs1 Hf1) as [?|[Hk _]]; [done|].
          exfalso. apply (Hother i' k); [done| |done]. eexists _, _. right. eexists. exact H1.
      + intros k e He. pose proof (Hcache k) as Her. rewrite He in Her. destruct (c_g c !! k) as [e'|]; [|done]. destruct Her as (_ & Hsl & _).
        destruct (x_full _ _ Hx k e He) as [Hfe|(i' & j1 & sl1 & rest1 & Hi' & Hid)].
        * destruct (Hfull _ _ Hsl Hfe) as [?|[-> Hid]]; [by left|right]. exists i, j, sl', rest. by rewrite list_lookup_insert.
        * right. assert (i' <> i) as Hne by (intros ->; by rewrite Ew in Hi'). exists i', j1, sl1, rest1. by rewrite list_lookup_insert_ne.
    - injection Hs as <-. change (erase [HDrop key]) with [CDrop key] in Hc. cbn [crun cstep] in Hc. injection Hc as <-. split; [|done].
      split; cbn [h_heap h_g h_work c_g c_work]; [|apply (x_got _ _ Hx)|apply (x_set _ _ Hx)|].
      + intros k e e' [_ He]%lookup_delete_Some [_ He']%lookup_delete_Some. by apply (x_cache _ _ Hx k).
      + intros k e [_ He]%lookup_delete_Some. by apply (x_full _ _ Hx).
  Qed.
  Lemma exact_run all ls γ s s' c : (forall l, l ∈ ls -> l ∈ all) -> sim (own_assertion U all) γ s c -> exact s c -> no_overlap U ls s -> hrun U ls s = Some s' ->
    exists c', crun U (erase ls) c = Some c' /\ exact s' c' /\ forall k sl, slice_ok γ (h_heap s) k sl -> contents (h_heap s') sl = contents (h_heap s) sl.
  Proof.
    revert γ s c. induction ls as [|l ls IH]; intros γ s c Hall Hsim Hx Hno Hr; cbn [hrun] in Hr.
    - injection Hr as <-. by exists c.
    - destruct (hstep U l s) as [s1|] eqn:E; [|done].
      destruct (sim_step _ _ l _ s1 _ Hsim) as (c1 & γ1 & Hc1 & Hsim1 & Hev1); [|done|].
      { intros i j -> r a Hr' Ha. exists i, j, r. split; [apply Hall; left|]. done. }
      destruct (exact_step _ _ _ _ _ _ _ Hsim Hx E Hc1) as [Hx1 Hst]; [by apply (Hno [] (l :: ls))|apply (Hno [l] ls); [done|]; cbn [hrun]; by rewrite E|].
      destruct (IH γ1 s1 c1) as (c' & Hc' & Hx' & Hst'); [intros x Hin; apply Hall; by right|done|done| |done|].
      { intros l1 l2 s2 -> Hr2. apply (Hno (l :: l1) l2); [done|]. cbn [hrun]. by rewrite E. }
      exists c'. split; [change (l :: ls) with ([l] ++ ls); by rewrite erase_app, crun_app, Hc1|]. split; [done|].
      intros k sl Hs. destruct (Hev1 _ _ Hs) as [Hs1 _]. by rewrite (Hst' _ _ Hs1), (Hst _ _ Hs).
  Qed.
  Lemma exact_init n : exact (hinit n) (cinit ∅ n).
  Proof.
    assert (forall i w, replicate n HIdle !! i = Some w -> w = HIdle) as Hi by (intros i w H; by apply lookup_replicate in H as [-> _]).
    split; cbn [hinit cinit h_g h_work c_g c_work].
    - intros k e e'. by rewrite lookup_empty.
    - intros i j k a sl rest ? ? ? ? H. by apply Hi in H.
    - intros i j k sl rest ? ? ? ? H. by apply Hi in H.
    - intros k e. by rewrite lookup_empty.
  Qed.
End sim.

(** ** C76 *)
(** In every execution the entries are those of the machine with values, except that an allowance of
    a role may stand in place of another allowance of the same role. *)
Theorem C76_only_allowances_are_exchanged U n ls s : hrun U ls (hinit n) = Some s ->
  exists c, crun U (erase ls) (cinit ∅ n) = Some c /\
    forall k, match entry_of s k, value_entry c k with
              | Some (l, exp), Some (l', exp') => exp = exp' /\ Forall2 exchanged l l'
              | None, None => True
              | _, _ => False
              end.
Proof.
  intros Hr. destruct (sim_run U ls ls _ _ _ _ (fun l H => H) (sim_init U (own_assertion U ls) n) Hr) as (c & γ & Hc & (_ & _ & Hcache) & _).
  exists c. split; [done|]. intros k. unfold entry_of, value_entry. specialize (Hcache k).
  destruct (h_g s !! k) as [e|], (c_g c !! k) as [e'|]; try done. by destruct Hcache as (? & _ & ?).
Qed.
(** So every entry holds assertions of its own role only, and a denial is found by a reader exactly
    when the machine with values has it. *)
Theorem C76_assertions_are_the_roles_own U n ls s k l exp a : hrun U ls (hinit n) = Some s -> entry_of s k = Some (l, exp) -> a ∈ l -> own_assertion U ls k a.
Proof.
  intros Hr He Ha. destruct (sim_run U ls ls _ _ _ _ (fun l H => H) (sim_init U (own_assertion U ls) n) Hr) as (c & γ & Hc & (Hw & _ & Hcache) & _).
  unfold entry_of in He. specialize (Hcache k). destruct (h_g s !! k) as [e|]; [|done]. injection He as <- <-. destruct (c_g c !! k); [|done]. destruct Hcache as (_ & (b & Hb & _) & _).
  apply wf_arr with (2 := Hb) in Hw as (Hp & _). unfold contents in Ha. rewrite Forall_forall in Hp. apply Hp. apply elem_of_take in Ha as (i & Hi & _). by apply elem_of_list_lookup_2 in Hi.
Qed.
Lemma exchanged_denials l l' i a : Forall2 exchanged l l' -> ~ allow a -> l !! i = Some a <-> l' !! i = Some a.
Proof.
  intros H Ha. split; intros Hi.
  - destruct (Forall2_lookup_l _ _ _ _ _ H Hi) as (y & Hy & [-> | [? _]]); [done|by destruct Ha].
  - destruct (Forall2_lookup_r _ _ _ _ _ H Hi) as (y & Hy & [-> | [_ ?]]); [done|by destruct Ha].
Qed.
Theorem C76_denials_unaffected U n ls s c k l exp : hrun U ls (hinit n) = Some s -> crun U (erase ls) (cinit ∅ n) = Some c -> entry_of s k = Some (l, exp) ->
  exists l', value_entry c k = Some (l', exp) /\ forall i a, a_effect a <> None -> l !! i = Some a <-> l' !! i = Some a.
Proof.
  intros Hr Hc He. destruct (C76_only_allowances_are_exchanged U n ls s Hr) as (c' & Hc' & H). rewrite Hc in Hc'. injection Hc' as <-.
  specialize (H k). rewrite He in H. destruct (value_entry c k) as [[l' exp']|]; [|done]. destruct H as [<- H]. exists l'. split; [done|]. intros i a Ha. by apply exchanged_denials.
Qed.
(** Every entry is deny-first (C15 for shared arrays). *)
Theorem C76_deny_first U n ls s k l exp : hrun U ls (hinit n) = Some s -> entry_of s k = Some (l, exp) -> deny_first l.
Proof.
  intros Hr He. destruct (C76_only_allowances_are_exchanged U n ls s Hr) as (c & Hc & H). specialize (H k). rewrite He in H.
  destruct (value_entry c k) as [[l' exp']|] eqn:Ev; [|done]. destruct H as [_ H].
  assert (deny_first l') as Hd.
  { unfold value_entry in Ev. destruct (c_g c !! k) as [e|] eqn:Ee; [|done]. injection Ev as <- <-.
    assert (cdf c) as [Hg _]; [|by apply (Hg k)]. apply (crun_df _ _ _ _ Hc), cinit_df. intros k' e' H'. by rewrite lookup_empty in H'. }
  destruct Hd as (d & al & -> & Hd & Hal). apply Forall2_app_inv_r in H as (d1 & al1 & H1 & H2 & ->). exists d1, al1. split; [done|]. split.
  - clear - Hd H1. induction H1 as [|x y d1 d [-> | [_ Hy]] _ IH]; [constructor| |]; inversion Hd as [|? ? Hyd Hd']; subst; constructor; auto. by destruct Hyd.
  - clear - Hal H2. induction H2 as [|x y d1 d [-> | [Hx _]] _ IH]; [constructor| |]; inversion Hal as [|? ? Hyd Hd']; subst; constructor; auto.
Qed.
(** A reader goes through the list of a role while others fill the cache: what it finds stays, but
    for exchanged allowances. *)
Theorem C76_readers_list_partial U n l1 l2 s1 s k e : hrun U l1 (hinit n) = Some s1 -> hrun U (l1 ++ l2) (hinit n) = Some s -> h_g s1 !! k = Some e ->
  Forall2 exchanged (contents (h_heap s) (ge_val e)) (contents (h_heap s1) (ge_val e)).
Proof.
  intros Hr1 Hr He. rewrite hrun_app, Hr1 in Hr.
  destruct (sim_run U (l1 ++ l2) l1 _ _ _ _ (fun l H => proj2 (elem_of_app _ _ _) (or_introl H)) (sim_init U _ n) Hr1) as (c1 & γ1 & _ & Hsim & _).
  destruct (sim_run U (l1 ++ l2) l2 _ _ _ _ (fun l H => proj2 (elem_of_app _ _ _) (or_intror H)) Hsim Hr) as (c & γ & _ & _ & Hev).
  destruct Hsim as (_ & _ & Hcache). specialize (Hcache k). rewrite He in Hcache. destruct (c_g c1 !! k); [|done]. destruct Hcache as (_ & Hs & _). by apply (Hev k).
Qed.
(** If no two goroutines ever work on one role at the same time, slices are values: the entries are
    those of the machine with values and no list changes under a reader. *)
Theorem C76_values_without_overlap_partial U n ls s : hrun U ls (hinit n) = Some s -> no_overlap U ls (hinit n) ->
  exists c, crun U (erase ls) (cinit ∅ n) = Some c /\ forall k, entry_of s k = value_entry c k.
Proof.
  intros Hr Hno. destruct (sim_run U ls ls _ _ _ _ (fun l H => H) (sim_init U (own_assertion U ls) n) Hr) as (c & γ & Hc & (_ & _ & Hcache) & _).
  destruct (exact_run U ls ls _ _ _ _ (fun l H => H) (sim_init U (own_assertion U ls) n) (exact_init n) Hno Hr) as (c' & Hc' & Hx & _).
  rewrite Hc in Hc'. injection Hc' as <-. exists c. split; [done|]. intros k. unfold entry_of, value_entry. specialize (Hcache k).
  destruct (h_g s !! k) as [e|] eqn:Ee, (c_g c !! k) as [e'|] eqn:Ee'; try done. cbn [option_map]. destruct Hcache as (-> & _). by rewrite (x_cache _ _ Hx k e e').
Qed.
Theorem C76_readers_list_without_overlap_partial U n l1 l2 s1 s k e : hrun U l1 (hinit n) = Some s1 -> hrun U (l1 ++ l2) (hinit n) = Some s ->
  no_overlap U (l1 ++ l2) (hinit n) -> h_g s1 !! k = Some e -> contents (h_heap s) (ge_val e) = contents (h_heap s1) (ge_val e).
Proof.
  intros Hr1 Hr Hno He. rewrite hrun_app, Hr1 in Hr.
  destruct (sim_run U (l1 ++ l2) l1 _ _ _ _ (fun l H => proj2 (elem_of_app _ _ _) (or_introl H)) (sim_init U _ n) Hr1) as (c1 & γ1 & Hc1 & Hsim & _).
  destruct (exact_run U (l1 ++ l2) l1 _ _ s1 _ (fun l H => proj2 (elem_of_app _ _ _) (or_introl H)) (sim_init U _ n) (exact_init n)) as (c1' & Hc1' & Hx & _); [|done|].
  { intros a b s2 -> H2. apply (Hno a (b ++ l2)); [by rewrite app_assoc|done]. }
  rewrite Hc1 in Hc1'. injection Hc1' as <-.
  destruct (exact_run U (l1 ++ l2) l2 _ _ s _ (fun l H => proj2 (elem_of_app _ _ _) (or_intror H)) Hsim Hx) as (c' & _ & _ & Hst); [|done|].
  { intros a b s2 -> H2. apply (Hno (l1 ++ a) b); [by rewrite app_assoc|]. by rewrite hrun_app, Hr1. }
  destruct Hsim as (_ & _ & Hcache). specialize (Hcache k). rewrite He in Hcache. destruct (c_g c1 !! k); [|done]. destruct Hcache as (_ & Hs & _). by apply (Hst k).
Qed.

(** *** Nothing is lost *)
(** Where the goroutines are, apart from the lists. *)
Definition same_place (w : hw) (w' : cw) : Prop :=
  match w, w' with
  | HIdle, CIdle => True
  | HCache j rest, CCache j' rest' => j = j' /\ rest = rest'
  | HSet j role _ rest, CSet j' role' _ rest' => j = j' /\ role = role' /\ rest = rest'
  | HEnd j e, CEnd j' e' => j = j' /\ e = e'
  | _, _ => False
  end.
Lemma place_insert i w w' hs cs : Forall2 same_place hs cs -> same_place w w' -> Forall2 same_place (<[i := w]> hs) (<[i := w']> cs).
Proof. intros H Hw. by apply Forall2_insert. Qed.
Lemma mirror_step U l s c c' : Forall2 same_place (h_work s) (c_work c) -> cstep U l c = Some c' ->
  exists hs s', hrun U hs s = Some s' /\ erase hs = [l] /\ Forall2 same_place (h_work s') (c_work c').
Proof.
  intros HR H. destruct l as [i inp|key]; cbn [cstep] in H; [|injection H as <-; exists [HDrop key]; eexists; split; [reflexivity|]; by split].
  destruct (c_work c !! i) as [w'|] eqn:Ew; [|done]. destruct (Forall2_lookup_r _ _ _ _ _ HR Ew) as (w & Hw & Hp).
  destruct w' as [|j rest|j role asss rest|j e]; [| | |by destruct inp].
  - destruct w; try done. destruct inp as [[j|e|]|t]; try done; injection H as <-.
    + exists [HWork i (IFetch (Ok j))]. eexists. split; [cbn [hrun hstep]; by rewrite Hw|]. split; [done|]. by apply place_insert.
    + exists [HWork i (IFetch (Err e))]. eexists. split; [cbn [hrun hstep]; by rewrite Hw|]. split; [done|]. by apply place_insert.
  - destruct w; try done. destruct Hp as [-> ->]. destruct rest as [|r rest].
    + destruct inp as [|t]; [done|]. injection H as <-. exists [HWork i (ITime t)]. eexists. split; [cbn [hrun hstep]; by rewrite Hw|]. split; [done|]. by apply place_insert.
    + destruct inp as [|t]; [done|]. destruct (new_assertion U (r_action r) (r_resource r) (r_effect r)) as [a|e|] eqn:Ea; [| |done]; injection H as <-.
      * destruct (add_slice 0 a (g_get t (r_role r) (h_g s)) (h_heap s)) as [h sl] eqn:El.
        exists [HWork i (ITime t); HAppend i 0]. eexists. split; [cbn [hrun hstep]; rewrite Hw, Ea; cbn [h_work h_heap h_g]; rewrite list_lookup_insert by (by eapply lookup_lt_Some); rewrite El; reflexivity|].
        split; [done|]. cbn [h_work c_work]. rewrite list_insert_insert. by apply place_insert.
      * exists [HWork i (ITime t)]. eexists. split; [cbn [hrun hstep]; by rewrite Hw, Ea|]. split; [done|]. by apply place_insert.
  - destruct w; try done. destruct Hp as (-> & -> & ->). destruct inp as [|t]; [done|]. injection H as <-.
    exists [HWork i (ITime t)]. eexists. split; [cbn [hrun hstep]; by rewrite Hw|]. split; [done|]. by apply place_insert.
Qed.
(** Every execution of the machine with values is that of an execution with arrays. *)
Theorem C76_every_schedule_is_run U n ls c : crun U ls (cinit ∅ n) = Some c -> exists hs s, hrun U hs (hinit n) = Some s /\ erase hs = ls.
Proof.
  assert (forall ls s c c', Forall2 same_place (h_work s) (c_work c) -> crun U ls c = Some c' -> exists hs s', hrun U hs s = Some s' /\ erase hs = ls) as Hall.
  { clear. intros ls. induction ls as [|l ls IH]; intros s c c' HR H; [exists [], s; by split|]. cbn [crun] in H. destruct (cstep U l c) as [c1|] eqn:E; [|done].
    destruct (mirror_step U l s c c1 HR E) as (h1 & s1 & H1 & E1 & HR1). destruct (IH s1 c1 c' HR1 H) as (h2 & s2 & H2 & E2). exists (h1 ++ h2), s2. by rewrite hrun_app, H1, erase_app, E1, E2. }
  intros H. eapply Hall; [|exact H]. cbn [hinit cinit h_work c_work]. clear. induction n as [|n IH]; cbn [replicate]; constructor; done.
Qed.

(** ** Witnesses *)
(** Documents with allowances of one role. *)
Definition arole : str := B "d:role.r".
Definition aw (act : string) : raw := Raw arole (B act) (B "d:x") (B "ALLOW").
Definition dw (act : string) : raw := Raw arole (B act) (B "d:x") (B "DENY").
Definition ajob (l : list raw) : cinput := IFetch (Ok (Job (100 * second) second l)).
Definition at1 : cinput := ITime second.
(** One goroutine caches four assertions (the array then has cells to spare); two more read the
    entry, and one appends and writes back.  With the next step, the other one's append, the entry
    in the cache changes although nobody has written to the cache. *)
Definition aplain : list hlabel :=
  [HWork 0 (ajob [aw "a"; dw "b"; aw "c"]); HWork 0 at1; HAppend 0 0; HWork 0 at1; HWork 0 at1; HAppend 0 0; HWork 0 at1; HWork 0 at1; HAppend 0 1; HWork 0 at1; HWork 0 at1].
Definition arace : list hlabel :=
  aplain ++ [HWork 1 (ajob [aw "e"]); HWork 2 (ajob [aw "f"]); HWork 1 at1; HWork 2 at1; HAppend 1 0; HWork 1 at1].
Definition acts (s : option hst) (k : str) : option (list str) :=
  match s with Some s => option_map (fun x => map a_action (fst x)) (entry_of s k) | None => None end.
Theorem C76_list_changes_under_readers_refuted : exists U n l1 l s1 s k e, hrun U l1 (hinit n) = Some s1 /\ hrun U (l1 ++ [l]) (hinit n) = Some s /\
  h_g s = h_g s1 /\ h_g s1 !! k = Some e /\ contents (h_heap s) (ge_val e) <> contents (h_heap s1) (ge_val e).
Proof.
  exists U0, 3%nat, arace, (HAppend 2 0).
  destruct (hrun U0 arace (hinit 3)) as [s1|] eqn:E1; [|vm_compute in E1; discriminate E1].
  assert (acts (Some s1) arole = Some [B "b"; B "a"; B "c"; B "e"]) as H1 by (rewrite <- E1; vm_compute; reflexivity).
  rewrite hrun_app, E1. cbn [hrun].
  assert (acts (hstep U0 (HAppend 2 0) s1) arole = Some [B "b"; B "a"; B "c"; B "f"]) as H2.
  { assert (acts (match hrun U0 arace (hinit 3) with Some s => hstep U0 (HAppend 2 0) s | None => None end) arole = Some [B "b"; B "a"; B "c"; B "f"]) as H by (vm_compute; reflexivity). by rewrite E1 in H. }
  clear E1. destruct (hstep U0 (HAppend 2 0) s1) as [s|] eqn:E2; [|discriminate H2].
  assert (h_g s = h_g s1) as Hg.
  { cbn [hstep] in E2. destruct (h_work s1 !! 2%nat) as [[]|]; try discriminate E2. destruct (add_slice _ _ _ _). injection E2 as <-. reflexivity. }
  clear E2. unfold acts, entry_of in H1, H2. rewrite Hg in H2. destruct (h_g s1 !! arole) as [e|] eqn:Ee; [|discriminate H1].
  exists s1, s, arole, e. split; [reflexivity|]. split; [reflexivity|]. split; [exact Hg|]. split; [exact Ee|]. intros Heq.
  cbn [option_map fst] in H1, H2. rewrite Heq, H1 in H2. revert H2. vm_compute. discriminate.
Qed.
(** No overlap: the first goroutine alone, then the second. *)
Definition aseq : list hlabel := aplain ++ [HWork 1 (ajob [aw "e"]); HWork 1 at1; HAppend 1 0; HWork 1 at1; HWork 1 at1].
Definition busyb (w : hw) : bool := match w with HGot _ _ _ _ _ | HSet _ _ _ _ => true | _ => false end.
Fixpoint alone (ls : list hlabel) (s : hst) : bool :=
  (length (List.filter busyb (h_work s)) <=? 1)%nat &&
  match ls with [] => true | l :: ls => match hstep U0 l s with Some s' => alone ls s' | None => true end end.
Lemma one_busy ws i i' w w' : (length (List.filter busyb ws) <= 1)%nat -> ws !! i = Some w -> ws !! i' = Some w' -> busyb w = true -> busyb w' = true -> i = i'.
Proof.
  revert i i'. induction ws as [|x ws IH]; intros i i' Hl Hi Hi' Hw Hw'; [done|]. cbn [List.filter] in Hl.
  assert (forall y j, ws !! j = Some y -> busyb y = true -> (1 <= length (List.filter busyb ws))%nat) as Hpos.
  { intros y j Hj Hy. apply elem_of_list_lookup_2, elem_of_list_In in Hj. assert (In y (List.filter busyb ws)) as Hin by (by apply filter_In). destruct (List.filter busyb ws); [done|cbn; lia]. }
  destruct i as [|i], i' as [|i']; cbn [lookup list_lookup] in Hi, Hi'; [done| | |].
  - injection Hi as ->. rewrite Hw in Hl. specialize (Hpos _ _ Hi' Hw'). cbn [length] in Hl. lia.
  - injection Hi' as ->. rewrite Hw' in Hl. specialize (Hpos _ _ Hi Hw). cbn [length] in Hl. lia.
  - f_equal. apply (IH i i'); try done. destruct (busyb x); cbn [length] in Hl; lia.
Qed.
Lemma alone_spec ls s : alone ls s = true -> no_overlap U0 ls s.
Proof.
  revert s. induction ls as [|l ls IH]; intros s H l1 l2 s2 Heq Hr (i & i' & k & Hne & (j & rest & Hb) & (j' & rest' & Hb')).
  all: assert (length (List.filter busyb (h_work s)) <= 1)%nat as Hl by (apply andb_true_iff in H as [H _]; by apply Nat.leb_le).
  all: assert (s2 = s -> False) as Hs by (intros ->; apply Hne; destruct Hb as [(? & ? & Hb)|(? & Hb)], Hb' as [(? & ? & Hb')|(? & Hb')]; eapply one_busy; eauto).
  - symmetry in Heq. apply app_eq_nil in Heq as [-> ->]. injection Hr as <-. by apply Hs.
  - destruct l1 as [|x l1]; [injection Hr as <-; by apply Hs|]. injection Heq as <- ->. cbn [hrun] in Hr. apply andb_true_iff in H as [_ H].
    destruct (hstep U0 l s) as [s1|]; [|done]. apply (IH s1 H l1 l2 s2); [done|done|]. exists i, i', k. split; [done|]. split; eexists _, _; eauto.
Qed.
Example C76_nonvacuous :
  acts (hrun U0 aplain (hinit 3)) arole = Some [B "b"; B "a"; B "c"] /\ no_overlap U0 aseq (hinit 3) /\
  acts (hrun U0 aseq (hinit 3)) arole = Some [B "b"; B "a"; B "c"; B "e"] /\
  acts (hrun U0 (arace ++ [HAppend 2 0; HWork 2 at1]) (hinit 3)) arole = Some [B "b"; B "a"; B "c"; B "f"].
Proof. split; [vm_compute; reflexivity|]. split; [apply alone_spec; vm_compute; reflexivity|]. split; vm_compute; reflexivity. Qed.

Print Assumptions C76_only_allowances_are_exchanged.
Print Assumptions C76_assertions_are_the_roles_own.
Print Assumptions C76_denials_unaffected.
Print Assumptions C76_deny_first.
Print Assumptions C76_readers_list_partial.
Print Assumptions C76_values_without_overlap_partial.
Print Assumptions C76_readers_list_without_overlap_partial.
Print Assumptions C76_list_changes_under_readers_refuted.
Print Assumptions C76_every_schedule_is_run.
