(** * Properties C80 and C81: what a query says, and what placeholders can hold *)
From Verif Require Import TranslatorProofs Prop_Translator.

(** ** C80: specification *)
(** Hexadecimal digits. *)
Definition hex_digits : list (ascii * N) :=
  [("0", 0); ("1", 1); ("2", 2); ("3", 3); ("4", 4); ("5", 5); ("6", 6); ("7", 7); ("8", 8); ("9", 9);
   ("a", 10); ("b", 11); ("c", 12); ("d", 13); ("e", 14); ("f", 15);
   ("A", 10); ("B", 11); ("C", 12); ("D", 13); ("E", 14); ("F", 15)]%char%N.
(** [spells e d]: the text [e] is a way of writing [d] in a query. *)
Inductive spells : str -> str -> Prop :=
| sp_nil : spells [] []
| sp_plain c e d : c <> "%"%char -> c <> "+"%char -> spells e d -> spells (c :: e) (c :: d)
| sp_blank e d : spells e d -> spells ("+"%char :: e) (" "%char :: d)
| sp_byte a b x y e d : (a, x) ∈ hex_digits -> (b, y) ∈ hex_digits -> spells e d ->
    spells ("%"%char :: a :: b :: e) (ascii_of_N (16 * x + y) :: d).
(** One setting: nothing, or a key, or a key and a value. *)
Inductive setting : str -> list (str * str) -> Prop :=
| set_none : setting [] []
| set_key e k : e <> [] -> "="%char ∉ e -> spells e k -> setting e [(k, [])]
| set_pair e f k v : "="%char ∉ e -> spells e k -> spells f v -> setting (e ++ "="%char :: f) [(k, v)].
(** Settings separated by ampersands; semicolons are not allowed. *)
Inductive says : str -> list (str * str) -> Prop :=
| says_one s l : "&"%char ∉ s -> ";"%char ∉ s -> setting s l -> says s l
| says_more s q l l' : "&"%char ∉ s -> ";"%char ∉ s -> setting s l -> says q l' -> says (s ++ "&"%char :: q) (l ++ l').
(** The values of a key, in order. *)
Definition values_of (k : str) (l : list (str * str)) : list str := map snd (List.filter (fun kv => bool_decide (fst kv = k)) l).

(** ** Proofs *)
Definition hex_table (c : ascii) : bool :=
  match hex_val c with
  | Some x => bool_decide ((c, x) ∈ hex_digits)
  | None => forallb (fun cx => negb (Ascii.eqb (fst cx) c)) hex_digits
  end.
Lemma hex_all : forallb hex_table (map ascii_of_nat (seq 0 256)) = true.
Proof. vm_compute. reflexivity. Qed.
Lemma hex_unique : forallb (fun cx => bool_decide (hex_val (fst cx) = Some (snd cx))) hex_digits = true.
Proof. vm_compute. reflexivity. Qed.
Lemma hex_val_spec c x : hex_val c = Some x <-> (c, x) ∈ hex_digits.
Proof.
  split; intros H.
  - pose proof hex_all as Ha. rewrite forallb_forall in Ha. specialize (Ha c). rewrite in_map_iff in Ha.
    assert (hex_table c = true) as Ht.
    { apply Ha. exists (nat_of_ascii c). split; [apply ascii_nat_embedding|]. apply in_seq. pose proof (nat_ascii_bounded c). lia. }
    unfold hex_table in Ht. rewrite H in Ht. by apply bool_decide_eq_true in Ht.
  - pose proof hex_unique as Hu. rewrite forallb_forall in Hu. apply elem_of_list_In, Hu, bool_decide_eq_true in H. done.
Qed.
Lemma unescape_spec e d : unescape e = Some d <-> spells e d.
Proof.
  split.
  - revert d. induction e as [e IH] using (induction_ltof1 _ (@length ascii)); unfold ltof in IH. intros d H.
    destruct e as [|c e]; [by injection H as <-; constructor|].
    destruct (decide (c = "%"%char)) as [->|Hp].
    + cbn [unescape] in H. destruct e as [|a [|b e]]; [done|done|].
      destruct (hex_val a) as [x|] eqn:Ea; [|done]. destruct (hex_val b) as [y|] eqn:Eb; [|done].
      destruct (unescape e) as [t|] eqn:Et; [|done]. injection H as <-.
      apply hex_val_spec in Ea, Eb. constructor; [done|done|]. apply IH; [cbn; lia|done].
    + assert (match unescape e with Some t => Some ((if bool_decide (c = "+"%char) then " "%char else c) :: t) | None => None end = Some d) as H'.
      { revert H. cbn [unescape]. destruct c as [[] [] [] [] [] [] [] []]; intros H; first [exact H|by destruct Hp]. }
      clear H. destruct (unescape e) as [t|] eqn:Et; [|done]. injection H' as <-.
      assert (spells e t) as Hs by (apply IH; [cbn; lia|done]).
      destruct (decide (c = "+"%char)) as [->|Hc]; [by rewrite bool_decide_eq_true_2; [constructor|]|].
      rewrite bool_decide_eq_false_2 by done. by constructor.
  - intros H. induction H as [|c e d Hp Hc _ IH|e d _ IH|a b x y e d Ha Hb _ IH]; [done|..].
    + assert (unescape (c :: e) = match unescape e with Some t => Some ((if bool_decide (c = "+"%char) then " "%char else c) :: t) | None => None end) as ->.
      { cbn [unescape]. destruct c as [[] [] [] [] [] [] [] []]; first [reflexivity|by destruct Hp]. }
      rewrite IH, bool_decide_eq_false_2 by done. done.
    + cbn [unescape]. by rewrite IH.
    + cbn [unescape]. apply hex_val_spec in Ha, Hb. by rewrite Ha, Hb, IH.
Qed.
Definition opt_list {A} (o : option A) : list A := match o with Some x => [x] | None => [] end.
Lemma parse_setting_spec s l : (exists o, parse_setting s = Some o /\ opt_list o = l) <-> ";"%char ∉ s /\ setting s l.
Proof.
  unfold parse_setting. destruct (contains ";"%char s) eqn:Ec.
  { apply contains_spec in Ec. split; [by intros (o & ? & _)|]. by intros [? _]. }
  apply contains_false in Ec. split.
  - intros (o & H & <-). split; [done|]. destruct s as [|x s']; [by injection H as <-; constructor|]. set (s := x :: s') in *.
    destruct (cut (B "=") s) as [[k v]|] eqn:E.
    + destruct (unescape k) as [k'|] eqn:Ek; [|done]. destruct (unescape v) as [v'|] eqn:Ev; [|done]. injection H as <-. cbn [opt_list].
      apply cut_char_some in E as [-> Hk]. apply unescape_spec in Ek, Ev. by constructor.
    + destruct (unescape s) as [k'|] eqn:Ek; [|done]. cbn [unescape] in H. injection H as <-. cbn [opt_list].
      apply cut_char_none in E. apply unescape_spec in Ek. by constructor.
  - intros [_ H]. destruct H as [|e k Hne He Hs|e f k v He Hs Hf].
    + by exists None.
    + exists (Some (k, [])). split; [|done]. destruct e as [|x e']; [done|]. set (e := x :: e') in *.
      apply cut_char_none in He. change (B "=") with ["="%char]. rewrite He. apply unescape_spec in Hs. rewrite Hs. done.
    + exists (Some (k, v)). split; [|done]. assert (cut ["="%char] (e ++ "="%char :: f) = Some (e, f)) as Hcut by (by apply cut_char_some).
      change (B "=") with ["="%char]. rewrite Hcut. apply unescape_spec in Hs, Hf. rewrite Hs, Hf. destruct e; done.
Qed.
Lemma values_nil k l : values_of k l = [] <-> Forall (fun kv => fst kv <> k) l.
Proof.
  unfold values_of. induction l as [|kv l IH]; cbn [List.filter map]; [split; [constructor|done]|].
  case_bool_decide as Hk; cbn [map].
  - split; [done|]. intros H. inversion H; subst. done.
  - rewrite IH. split; [by constructor|]. by inversion 1.
Qed.
(** [m] holds the pairs [l]. *)
Definition holds (m : gmap str (list str)) (l : list (str * str)) : Prop :=
  forall k, m !! k = match values_of k l with [] => None | vs => Some vs end.
Lemma holds_unique m m' l : holds m l -> holds m' l -> m = m'.
Proof. intros H H'. apply map_eq. intros k. by rewrite H, H'. Qed.
Lemma values_app k l l' : values_of k (l ++ l') = values_of k l ++ values_of k l'.
Proof. unfold values_of. rewrite List.filter_app. apply map_app. Qed.
Lemma holds_add m l k v : holds m l -> holds (<[k := default [] (m !! k) ++ [v]]> m) (l ++ [(k, v)]).
Proof.
  intros H k'. rewrite values_app. unfold values_of at 2. cbn [List.filter fst]. case_bool_decide as Hk.
  - subst k'. rewrite lookup_insert, (H k). cbn [map snd]. destruct (values_of k l); done.
  - rewrite lookup_insert_ne by done. rewrite (H k'). cbn [map]. by rewrite app_nil_r.
Qed.
Lemma parse_settings_spec ss m l0 m' : holds m l0 -> 
  (parse_settings ss m = Some m' <-> exists ls, Forall2 (fun s l => ";"%char ∉ s /\ setting s l) ss ls /\ holds m' (l0 ++ concat ls)).
Proof.
  revert m l0. induction ss as [|s ss IH]; intros m l0 Hm; cbn [parse_settings].
  - split.
    + intros [= <-]. exists []. split; [constructor|]. cbn. by rewrite app_nil_r.
    + intros (ls & HF & H). inversion HF; subst. cbn in H. rewrite app_nil_r in H. f_equal. by eapply holds_unique.
  - destruct (parse_setting s) as [o|] eqn:Es.
    + destruct (proj1 (parse_setting_spec s (opt_list o)) (ex_intro _ o (conj Es eq_refl))) as [Hsemi Hset].
      assert (forall l, ";"%char ∉ s /\ setting s l <-> l = opt_list o) as Huniq.
      { intros l. rewrite <- parse_setting_spec. rewrite Es. split; [by intros (o' & [= <-] & <-)|]. intros ->. by exists o. }
      assert (exists m1, holds m1 (l0 ++ opt_list o) /\ (match o with None => parse_settings ss m | Some (k, v) => parse_settings ss (<[k := default [] (m !! k) ++ [v]]> m) end) = parse_settings ss m1) as (m1 & Hm1 & Heq).
      { destruct o as [[k v]|]; eexists; (split; [|reflexivity]); cbn [opt_list]; [by apply holds_add|by rewrite app_nil_r]. }
      rewrite Heq, (IH m1 _ Hm1). split.
      * intros (ls & HF & H). exists (opt_list o :: ls). split; [by constructor|]. cbn [concat]. by rewrite app_assoc.
      * intros (ls & HF & H). inversion HF as [|? l ? ls' Hl HF']; subst. apply Huniq in Hl as ->. exists ls'. split; [done|].
        cbn [concat] in H. by rewrite app_assoc in H.
    + split; [done|]. intros (ls & HF & H). inversion HF as [|? l ? ls' Hl HF']; subst. apply parse_setting_spec in Hl as (o & Ho & _). by rewrite Es in Ho.
Qed.
Lemma says_split q l : says q l <-> exists ls, Forall2 (fun s l => ";"%char ∉ s /\ setting s l) (split "&"%char q) ls /\ l = concat ls.
Proof.
  split.
  - intros H. induction H as [s l Ha Hs Hl|s q l l' Ha Hs Hl _ (ls & HF & ->)].
    + exists [l]. rewrite split_no by done. split; [by repeat constructor|]. cbn. by rewrite app_nil_r.
    + exists (l :: ls). rewrite split_app by done. split; [by constructor|done].
  - remember (split "&"%char q) as ss eqn:Ess. revert q l Ess. induction ss as [|s ss IH]; intros q l Ess (ls & HF & ->).
    { symmetry in Ess. by apply split_not_nil in Ess. }
    inversion HF as [|? l1 ? ls' [Hsemi Hset] HF']; subst. clear HF. cbn [concat].
    destruct (decide ("&"%char ∈ q)) as [Hin|Hnin].
    + assert (exists a b, q = a ++ "&"%char :: b /\ "&"%char ∉ a) as (a & b & -> & Ha).
      { destruct (cut ["&"%char] q) as [[a b]|] eqn:Ecut; [by apply cut_char_some in Ecut; eauto|]. by apply cut_char_none in Ecut. }
      rewrite split_app in Ess by done. injection Ess as -> ->. constructor; [done..|]. apply (IH b); [done|]. by exists ls'.
    + rewrite split_no in Ess by done. injection Ess as -> ->. inversion HF'; subst. cbn [concat]. rewrite app_nil_r. by constructor.
Qed.
(** url.ParseQuery returns exactly the decoded pairs, grouped by key in their order; anything that says
    nothing is an error. *)
Theorem C80_query_is_decoded_exactly q m : parse_query q = Some m <-> exists l, says q l /\ holds m l.
Proof.
  unfold parse_query. rewrite (parse_settings_spec _ ∅ []) by (intros k; by rewrite lookup_empty). cbn [app]. split.
  - intros (ls & HF & H). exists (concat ls). split; [|done]. apply says_split. by exists ls.
  - intros (l & Hl & H). apply says_split in Hl as (ls & HF & ->). by exists ls.
Qed.
Theorem C80_a_query_says_one_thing q l l' : says q l -> says q l' -> l = l'.
Proof.
  intros H H'. apply says_split in H as (ls & HF & ->), H' as (ls' & HF' & ->). f_equal.
  revert ls ls' HF HF'. induction (split "&"%char q) as [|s ss IH]; intros ls ls' HF HF'; inversion HF as [|? y1 ? ? Hl HF1]; inversion HF' as [|? y2 ? ? Hl' HF1']; subst; [done|].
  apply parse_setting_spec in Hl as (o & Ho & <-), Hl' as (o' & Ho' & <-). rewrite Ho in Ho'. injection Ho' as ->. f_equal. by apply IH.
Qed.
(** Two queries that give each key the same values, however spelled and ordered, are translated alike. *)
Theorem C80_spelling_has_no_influence U m o d meth path q q' l l' : says q l -> says q' l' -> (forall k, values_of k l = values_of k l') ->
  translate U m o d meth path q = translate U m o d meth path q'.
Proof.
  intros H H' Hv.
  assert (exists mq, holds mq l) as [mq Hmq].
  { clear. induction l as [|[k v] l IH] using rev_ind; [by exists ∅; intros k; rewrite lookup_empty|].
    destruct IH as [mq Hmq]. eexists. by apply holds_add. }
  assert (parse_query q = parse_query q') as Heq.
  { transitivity (Some mq); [apply C80_query_is_decoded_exactly; by exists l|]. symmetry. apply C80_query_is_decoded_exactly. exists l'. split; [done|].
    intros k. rewrite (Hmq k). by rewrite Hv. }
  unfold translate. destruct m as [m|]; [|done]. generalize 0%nat. induction (default [] (default None (m !! d))) as [|r rs IH]; intros i; [done|].
  cbn [translate_rules]. rewrite Heq, !IH. done.
Qed.

Example C80_nonvacuous :
  says (B "k=a%2fb+c&&x&k=%2525") [(B "k", B "a/b c"); (B "x", []); (B "k", B "%25")] /\
  option_map (fun m => m !! B "k") (parse_query (B "k=a%2fb+c&&x&k=%2525")) = Some (Some [B "a/b c"; B "%25"]) /\
  parse_query (B "a;b") = None /\ parse_query (B "a=%2g") = None /\ parse_query (B "a=%") = None /\
  parse_query (B "=") = Some {[ [] := [[]] ]}.
Proof.
  split_and!; [|vm_compute; reflexivity..].
  assert (parse_query (B "k=a%2fb+c&&x&k=%2525") = Some {[ B "k" := [B "a/b c"; B "%25"]; B "x" := [[]] ]}) as H.
  { refine (bool_decide_unpack _ _). vm_compute. exact I. }
  apply says_split. exists [[(B "k", B "a/b c")]; []; [(B "x", [])]; [(B "k", B "%25")]]. split; [|done].
  assert (split "&"%char (B "k=a%2fb+c&&x&k=%2525") = [B "k=a%2fb+c"; []; B "x"; B "k=%2525"]) as -> by (vm_compute; reflexivity).
  repeat (apply Forall2_cons; split); try apply Forall2_nil_2; apply parse_setting_spec; eexists; (split; [vm_compute; reflexivity|reflexivity]).
Qed.

(** ** C81 *)
Lemma prefix_segment n a b : "/"%char ∉ n -> has_prefix n (a ++ "/"%char :: b) = has_prefix n a.
Proof.
  revert a. induction n as [|x n IH]; intros a H; [done|]. apply not_elem_of_cons in H as [Hx H]. destruct a as [|y a]; cbn.
  - case_bool_decide; [by subst|done].
  - by rewrite IH.
Qed.
Lemma replace_segment n v a b : n <> [] -> "/"%char ∉ n -> forall k, (k <= length a)%nat ->
  replace_go n v k (a ++ "/"%char :: b) = replace_go n v k a ++ "/"%char :: replace_go n v 0 b.
Proof.
  intros Hn Hs. induction a as [|x a IH]; intros k Hk; cbn [length] in Hk.
  - assert (k = 0%nat) as -> by lia. cbn [app replace_go]. destruct n as [|y n]; [done|]. cbn [has_prefix].
    apply not_elem_of_cons in Hs as [Hy _]. rewrite bool_decide_eq_false_2 by done. done.
  - destruct k as [|k]; cbn [app replace_go]; [|apply IH; lia].
    change (x :: a ++ "/"%char :: b) with ((x :: a) ++ "/"%char :: b). rewrite prefix_segment by done. destruct (has_prefix n (x :: a)) eqn:E.
    + rewrite IH; [by rewrite <- app_assoc|]. apply has_prefix_spec in E as [t Ht]. apply (f_equal length) in Ht. rewrite app_length in Ht. cbn in Ht. lia.
    + cbn [app]. f_equal. apply IH. lia.
Qed.
Lemma replace_no_slash n v s : n <> [] -> "/"%char ∉ v -> "/"%char ∉ s -> "/"%char ∉ replace_all s n v.
Proof.
  intros Hn Hv. unfold replace_all. generalize 0%nat. induction s as [|x s IH]; intros k Hs; cbn [replace_go]; [done|].
  apply not_elem_of_cons in Hs as [Hx Hs]. destruct k as [|k]; [|by apply IH]. destruct (has_prefix n (x :: s)).
  - rewrite elem_of_app. intros [H|H]; [done|]. by apply IH in H.
  - rewrite elem_of_cons. intros [H|H]; [done|]. by apply IH in H.
Qed.
(** Replacing text without slashes acts on the segments one by one. *)
Lemma replace_segments n v s : n <> [] -> "/"%char ∉ n -> "/"%char ∉ v ->
  split "/"%char (replace_all s n v) = map (fun seg => replace_all seg n v) (split "/"%char s).
Proof.
  intros Hn Hs Hv. remember (split "/"%char s) as ss eqn:E. revert s E. induction ss as [|a ss IH]; intros s E; [symmetry in E; by apply split_not_nil in E|].
  destruct (decide ("/"%char ∈ s)) as [Hin|Hnin].
  - assert (exists a b, s = a ++ "/"%char :: b /\ "/"%char ∉ a) as (a' & b & -> & Ha).
    { destruct (cut ["/"%char] s) as [[a' b]|] eqn:Ecut; [by apply cut_char_some in Ecut; eauto|]. by apply cut_char_none in Ecut. }
    rewrite split_app in E by done. injection E as -> ->. unfold replace_all at 1. rewrite replace_segment by (done || lia).
    rewrite split_app by (by apply replace_no_slash). cbn [map]. f_equal. by apply IH.
  - rewrite split_no in E by done. injection E as -> ->. cbn [map]. rewrite split_no; [done|]. by apply replace_no_slash.
Qed.
(** The rule takes no value from the query. *)
Definition path_only (r : rule) : Prop := forall k n, r_query r !! k <> Some (Param n true).
(** A value from the path is one segment of the path. *)
Theorem C81_path_value_is_a_segment r path query n v : path_only r -> binds r path query n v -> v ∈ split "/"%char path /\ "/"%char ∉ v.
Proof.
  intros Hp [(i & Hv & _)|(k & rq & _ & _ & Hk)]; [|by apply Hp in Hk].
  assert (v ∈ split "/"%char path) as Hin by (by eapply elem_of_list_lookup_2). split; [done|].
  pose proof (split_no_sep "/"%char path) as HF. rewrite Forall_forall in HF. by apply HF.
Qed.
(** So, for rules without query placeholders, the translated resource has the segments of the template
    with the values put in: no request adds, removes or shifts a segment. *)
Theorem C81_values_stay_in_their_segment_partial U m o domain l l1 r0 r l2 meth path query : m !! domain = Some (Some l) -> l = l1 ++ r :: l2 ->
  Forall (fun r => ~ rule_matches U r meth path query) l1 -> rule_matches U r meth path query -> rule_ok r0 -> parsed r0 r -> path_only r ->
  exists (σ : gmap str str) (names : list str) res, (forall n v, σ !! n = Some v <-> binds r path query n v) /\
    translate U (Some m) o domain meth path query = Ok (r_action r, res) /\
    split "/"%char res = map (replace_placeholders σ names) (split "/"%char (r_resource r)).
Proof.
  intros Hm Hl Hn Hr Hok Hpa Hpo. pose proof (C58_names_distinct _ _ Hok Hpa) as Hd.
  destruct (C56_first_match U m o domain l l1 r l2 meth path query Hm Hl Hn Hr Hd) as (σ & names & Hσ & _ & Hnames & Heq).
  exists σ, names, (replace_placeholders σ names (r_resource r)). split_and!; [done..|].
  assert (Forall (fun n => n <> [] /\ "/"%char ∉ n /\ forall v, σ !! n = Some v -> "/"%char ∉ v) names) as HF.
  { apply Forall_forall. intros n Hin. cbn beta. apply Hnames in Hin as [v Hv]. assert (forall v, σ !! n = Some v -> "/"%char ∉ v) as Hvs by (intros v2 Hv2; apply Hσ in Hv2; by eapply C81_path_value_is_a_segment). apply Hσ in Hv. split_and!.
    - destruct Hv as [(i & _ & Hi)|(k & rq & _ & _ & Hk)]; [|by apply Hpo in Hk].
      destruct Hpa as (_ & _ & _ & _ & p & q & _ & Hs & _). rewrite Hs, list_lookup_fmap in Hi. destruct (split "/"%char p !! i) as [s|]; cbn in Hi; [|done].
      injection Hi as -> Hb. intros ->. by cbn in Hb.
    - destruct Hv as [(i & _ & Hi)|(k & rq & _ & _ & Hk)]; [|by apply Hpo in Hk].
      destruct Hpa as (_ & _ & _ & _ & p & q & _ & Hs & _). rewrite Hs, list_lookup_fmap in Hi. destruct (split "/"%char p !! i) as [s|] eqn:Es; cbn in Hi; [|done].
      injection Hi as -> Hb. pose proof (split_no_sep "/"%char p) as HF. rewrite Forall_forall in HF. apply HF. by eapply elem_of_list_lookup_2.
    - done. }
  clear -HF. unfold replace_placeholders. generalize (r_resource r) as res. induction names as [|n names IH]; intros res; cbn [fold_left]; [by rewrite map_id|].
  inversion HF as [|? ? (H1 & H2 & H3) HF']; subst. rewrite IH by done. rewrite replace_segments; [by rewrite map_map|done|done|]. destruct (σ !! n) as [v|] eqn:E; [by apply (H3 v)|apply not_elem_of_nil].
Qed.
#[local] Existing Instances param_eq rule_eq.
(** A value from the query may hold slashes and so add segments. *)
Theorem C81_values_stay_in_their_segment_refuted : exists m m' d meth path query o act res r,
  new_mapping_rules [] (fun _ _ => []) (Some m) = Ok m' /\ m' !! d = Some (Some [r]) /\
  translate U0 (Some m') o d meth path query = Ok (act, res) /\ act = r_action r /\
  length (split "/"%char res) <> length (split "/"%char (r_resource r)).
Proof.
  pose (r0 := Rule (B "get") (B "/get?user={u}") (B "read") (B "home/{u}/public") [] ∅).
  pose (r := Rule (B "get") (B "/get?user={u}") (B "read") (B "home/{u}/public") [Param [] false; Param (B "get") false] {[ B "user" := Param (B "{u}") true ]}).
  exists {[ B "dom" := Some [r0] ]}, {[ B "dom" := Some [r] ]}, (B "dom"), (B "get"), (B "/get"), (B "user=me/private%2Fkeys"), first_a, (B "read"), (B "home/me/private/keys/public"), r.
  split_and!.
  - assert (exists m, new_mapping_rules [] (fun _ _ => []) (Some {[ B "dom" := Some [r0] ]}) = Ok m /\ bool_decide (m = {[ B "dom" := Some [r] ]}) = true) as (m & -> & Hm).
    { eexists. split; [vm_compute; reflexivity|]. vm_compute. reflexivity. }
    apply bool_decide_eq_true in Hm. by rewrite Hm.
  - apply lookup_singleton.
  - vm_compute. reflexivity.
  - done.
  - vm_compute. discriminate.
Qed.
Example C81_nonvacuous :
  path_only read_ab /\
  translate U0 (Some read_rules) first_a (B "dom") (B "Get") (B "/%2F../b") [] = Ok (B "read", B "%2F..-b") /\
  split "/"%char (B "%2F..-b") = [B "%2F..-b"].
Proof. split_and!; [|vm_compute; reflexivity..]. intros k n. cbn [r_query read_ab]. by rewrite lookup_empty. Qed.

Print Assumptions C80_query_is_decoded_exactly.
Print Assumptions C80_a_query_says_one_thing.
Print Assumptions C80_spelling_has_no_influence.
Print Assumptions C81_path_value_is_a_segment.
Print Assumptions C81_values_stay_in_their_segment_partial.
Print Assumptions C81_values_stay_in_their_segment_refuted.
