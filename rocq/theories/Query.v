(** * net/url.ParseQuery and map iteration *)
From Verif Require Export Base GoStrings GoStringsFacts.

(** The iteration of [range m] over a Go map is any order.  An oracle [o] lists keys to visit
    first; the others follow.  Every order is obtained from some oracle ([range_order_any]). *)
Definition range_order {A} (o : list str) (m : gmap str A) : list str :=
  let ks := map fst (map_to_list m) in
  List.filter (fun k => bool_decide (k ∈ ks)) (remove_dups o) ++ List.filter (fun k => negb (bool_decide (k ∈ o))) ks.

(** One hexadecimal digit (net/url unhex, ishex). *)
Definition hex_val (c : ascii) : option N :=
  let n := N_of_ascii c in
  if ((48 <=? n) && (n <=? 57))%N then Some (n - 48)%N
  else if ((97 <=? n) && (n <=? 102))%N then Some (n - 87)%N
  else if ((65 <=? n) && (n <=? 70))%N then Some (n - 55)%N
  else None.
(** url.QueryUnescape: %XX is a byte, + a space; [None]: error. *)
Fixpoint unescape (s : str) : option str :=
  match s with
  | [] => Some []
  | "%"%char :: s1 =>
      match s1 with
      | a :: (b :: s2) =>
          match hex_val a, hex_val b, unescape s2 with
          | Some x, Some y, Some t => Some (ascii_of_N (16 * x + y) :: t)
          | _, _, _ => None
          end
      | _ => None
      end
  | c :: s1 => match unescape s1 with Some t => Some ((if bool_decide (c = "+"%char) then " "%char else c) :: t) | None => None end
  end.

(** One '&'-separated setting: [Some None] when empty (skipped), [None] on error. *)
Definition parse_setting (s : str) : option (option (str * str)) :=
  if contains ";"%char s then None
  else match s with
       | [] => Some None
       | _ =>
           let '(k, v) := match cut (B "=") s with Some p => p | None => (s, []) end in
           match unescape k, unescape v with
           | Some k', Some v' => Some (Some (k', v'))
           | _, _ => None
           end
       end.
Fixpoint parse_settings (l : list str) (m : gmap str (list str)) : option (gmap str (list str)) :=
  match l with
  | [] => Some m
  | s :: l =>
      match parse_setting s with
      | None => None
      | Some None => parse_settings l m
      | Some (Some (k, v)) => parse_settings l (<[k := default [] (m !! k) ++ [v]]> m)
      end
  end.
(** url.ParseQuery (Go 1.17 and later: a ';' is an error); [None]: a non-nil error, with which the
    callers here ignore the map. *)
Definition parse_query (q : str) : option (gmap str (list str)) := parse_settings (split "&"%char q) ∅.

Lemma range_order_spec {A} o (m : gmap str A) : NoDup (range_order o m) /\ forall k, k ∈ range_order o m <-> is_Some (m !! k).
Proof.
  unfold range_order. assert (forall k, k ∈ map fst (map_to_list m) <-> is_Some (m !! k)) as Hk.
  { intros k. rewrite elem_of_list_In, in_map_iff. split.
    - intros ([k' a] & <- & H). apply elem_of_list_In, elem_of_map_to_list in H. by exists a.
    - intros [a Ha]. exists (k, a). split; [done|]. by apply elem_of_list_In, elem_of_map_to_list. }
  assert (NoDup (map fst (map_to_list m))) as Hnd by apply NoDup_fst_map_to_list.
  set (ks := map fst (map_to_list m)) in *. clearbody ks.
  assert (forall (f : str -> bool) (l : list str) k, k ∈ List.filter f l <-> k ∈ l /\ f k = true) as Hf.
  { intros f l k. rewrite !elem_of_list_In. apply filter_In. }
  assert (forall (f : str -> bool) (l : list str), NoDup l -> NoDup (List.filter f l)) as Hnf.
  { intros f l. rewrite !NoDup_ListNoDup. apply List.NoDup_filter. }
  split.
  - apply NoDup_app. split_and!; [apply Hnf, NoDup_remove_dups| |by apply Hnf].
    intros k H1 H2. apply Hf in H1 as [H1 _]. apply Hf in H2 as [_ H2]. apply (proj1 (elem_of_remove_dups _ _)) in H1. apply negb_true_iff, bool_decide_eq_false in H2. by destruct (H2 H1).
  - intros k. rewrite elem_of_app, !Hf, elem_of_remove_dups, <- Hk. destruct (decide (k ∈ o)) as [Ho|Ho].
    + rewrite (bool_decide_eq_true_2 (k ∈ o)) by done. rewrite bool_decide_eq_true. cbn. tauto.
    + rewrite (bool_decide_eq_false_2 (k ∈ o)) by done. cbn. rewrite bool_decide_eq_true. tauto.
Qed.
Lemma range_order_any {A} (m : gmap str A) l : NoDup l -> (forall k, k ∈ l <-> is_Some (m !! k)) -> range_order l m = l.
Proof.
  intros Hnd Hl. unfold range_order.
  assert (forall k, k ∈ map fst (map_to_list m) <-> k ∈ l) as Hk.
  { intros k. rewrite Hl, elem_of_list_In, in_map_iff. split.
    - intros ([k' a] & <- & H). apply elem_of_list_In, elem_of_map_to_list in H. by exists a.
    - intros [a Ha]. exists (k, a). split; [done|]. by apply elem_of_list_In, elem_of_map_to_list. }
  set (ks := map fst (map_to_list m)) in *. clearbody ks. clear Hl.
  assert (List.filter (fun k => negb (bool_decide (k ∈ l))) ks = []) as ->.
  { destruct (List.filter _ ks) as [|x xs] eqn:E; [done|]. assert (In x (x :: xs)) as Hx by (by left). rewrite <- E in Hx.
    apply filter_In in Hx as [Hx Hb]. apply elem_of_list_In, Hk in Hx. apply negb_true_iff, bool_decide_eq_false in Hb. by destruct Hb. }
  rewrite app_nil_r. assert (remove_dups l = l) as ->.
  { clear Hk ks. induction l as [|x l IH]; [done|]. apply NoDup_cons in Hnd as [Hx Hnd]. cbn. destruct (decide_rel elem_of x l); [done|]. by rewrite IH. }
  assert (forall k, k ∈ l -> k ∈ ks) as Hin by (intros; by apply Hk). clear Hk Hnd. induction l as [|x l IH]; [done|]. cbn.
  rewrite bool_decide_eq_true_2 by (apply Hin; left). f_equal. apply IH. intros k H. apply Hin. by right.
Qed.
