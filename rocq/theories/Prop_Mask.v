(** * Property C60: log messages *)
From Verif Require Import Mask RoleProofs.

(** A log entry of authorize: the token part is the part of the token before its signature, or a fixed text; the
    key part depends on the rest of the request only; nothing panics. *)
Definition visible (m : mode) (tok shown : str) : Prop :=
  match m with
  | MRole =>
      (exists sig, tok = shown ++ B ";s=" ++ sig /\ shown <> [] /\ forall a b, tok = a ++ B ";s=" ++ b -> (length shown <= length a)%nat) \/
      shown = B "mask token error: invalid role token" /\ forall a b, tok = a ++ B ";s=" ++ b -> exists b', tok = B ";s=" ++ b'
  | MAccess =>
      (exists sig, tok = shown ++ "."%char :: sig /\ shown <> [] /\ "."%char ∉ sig) \/
      shown = B "mask token error: invalid access token" /\ forall a b, tok = a ++ "."%char :: b -> a = [] /\ "."%char ∉ b
  end.
Theorem C60_token_masked m tok : visible m tok (mask_token m tok).
Proof.
  destruct m; cbn [visible mask_token].
  - unfold index. destruct (cut (B ";s=") tok) as [[a b]|] eqn:E.
    + pose proof (cut_some _ _ _ _ E) as [-> Hmin]. destruct a as [|c a]; cbn [length].
      * right. split; [done|]. intros a' b' _. by exists b.
      * left. exists b. change (S (length a)) with (length (c :: a)). rewrite take_app. split_and!; done.
    + right. split; [done|]. intros a b ->. exfalso. by apply (proj1 (cut_none (B ";s=") _) E a b).
  - destruct (last_index "."%char tok) as [i|] eqn:E.
    + apply last_index_some in E as (a & b & -> & <- & Hb). destruct a as [|c a]; cbn [length].
      * right. split; [done|]. intros a' b' Heq. destruct a' as [|c' a']; [by injection Heq as <-|].
        exfalso. injection Heq as <- Heq. apply Hb. rewrite Heq. apply elem_of_app. right. left.
      * left. exists b. change (S (length a)) with (length (c :: a)). rewrite take_app. split_and!; done.
    + apply last_index_none in E. right. split; [done|]. intros a b ->. exfalso. apply E. apply elem_of_app. right. left.
Qed.
(** Same mode, certificate, action, resource and query: same key part, whatever the token. *)
Theorem C60_key_masked {O} (cf : @zconf O) q tok' : exists k, logged cf q = Ok (mask_token (q_mode q) (q_tok q), k) /\
  logged cf (Req (q_mode q) tok' (q_act q) (q_res q) (q_query q) (q_cert q)) = Ok (mask_token (q_mode q) tok', k).
Proof.
  assert (forall t r, mask_cache_key (t ++ r) t = Ok r) as Hm.
  { intros t r. unfold mask_cache_key. rewrite app_length. replace (length t <=? length t + length r)%nat with true; [by rewrite drop_app|].
    symmetry. apply Nat.leb_le. lia. }
  unfold logged, cache_key. cbn [q_tok q_mode q_act q_res q_query q_cert]. rewrite !Hm. cbn [obind]. by eexists.
Qed.
(** An accepted role token shows exactly its signed text; a three-part access token its first two parts. *)
Theorem C60_accepted_role_token tok t : parse_token tok = Ok t -> mask_token MRole tok = rt_unsigned t /\ exists sig, tok = rt_unsigned t ++ B ";s=" ++ sig.
Proof.
  intros H. unfold parse_token in H. destruct (split_n2 (B ";s=") tok) as [|u [|s [|]]] eqn:E; try discriminate H.
  unfold split_n2 in E. destruct (cut (B ";s=") tok) as [[a b]|] eqn:Ec; [|done]. injection E as -> ->.
  assert (rt_unsigned t = u) as ->.
  { clear Ec. revert H. generalize (split ";"%char u) as l. intros l.
    assert (forall l t0, set_pairs t0 l = Ok t -> rt_unsigned t = rt_unsigned t0) as Hgen.
    { clear l. induction l as [|p l IH]; intros t0 H; cbn [set_pairs] in H; [by injection H as <-|].
      destruct (split_n2 (B "=") p) as [|k [|v [|]]]; try discriminate H. destruct (set_params t0 k v) as [t1|e|] eqn:E1; try discriminate H.
      cbn [obind] in H. rewrite (IH _ H). unfold set_params in E1. repeat (case_match; try discriminate E1); by injection E1 as <-. }
    intros H. by rewrite (Hgen _ _ H). }
  pose proof (cut_some _ _ _ _ Ec) as [-> _]. split; [|by exists s]. cbn [mask_token]. unfold index. rewrite Ec. destruct u as [|c u].
  - exfalso. cbn in H. discriminate H.
  - cbn [length]. change (S (length u)) with (length (c :: u)). by rewrite take_app.
Qed.
Theorem C60_access_token tok p0 p1 p2 : split "."%char tok = [p0; p1; p2] -> mask_token MAccess tok = p0 ++ "."%char :: p1.
Proof.
  intros H. assert (tok = p0 ++ "."%char :: p1 ++ "."%char :: p2) as Ht.
  { rewrite <- (join_split "."%char tok), H. done. }
  assert ("."%char ∉ p2) as Hp. { assert (p2 ∈ split "."%char tok) as Hin by (rewrite H; right; right; left). exact (proj1 (Forall_forall _ _) (split_no_sep "."%char tok) _ Hin). }
  pose proof (C60_token_masked MAccess tok) as [(sig & Heq & _ & Hs)|[Heq Hno]].
  - rewrite Heq in Ht. clear H Heq. generalize dependent (mask_token MAccess tok). intros x Ht.
    assert (forall a b a' b' : str, "."%char ∉ b -> "."%char ∉ b' -> a ++ "."%char :: b = a' ++ "."%char :: b' -> a = a') as Hu.
    { clear. induction a as [|c a IH]; intros b [|c' a'] b' Hb Hb' Heq; cbn in Heq; [done|..].
      - injection Heq as <- Heq. exfalso. apply Hb. rewrite Heq. apply elem_of_app. right. left.
      - injection Heq as -> Heq. exfalso. apply Hb'. rewrite <- Heq. apply elem_of_app. right. left.
      - injection Heq as -> Heq. f_equal. exact (IH _ _ _ Hb Hb' Heq). }
    eapply Hu; [exact Hs|exact Hp|]. rewrite Ht. by rewrite <- app_assoc.
  - exfalso. rewrite Ht in Hno. destruct (Hno (p0 ++ "."%char :: p1) p2) as [Hc _]; [by rewrite <- app_assoc|]. by destruct p0.
Qed.

Example C60_nonvacuous : mask_token MRole (B "v=Z1;d=dom;r=a;s=SIGNATURE") = B "v=Z1;d=dom;r=a" /\
  visible MRole (B "v=Z1;d=dom;r=a;s=SIGNATURE") (B "v=Z1;d=dom;r=a") /\
  mask_token MAccess (B "aaa.bbb.ccc") = B "aaa.bbb" /\
  mask_token MAccess (B "opaque") = B "mask token error: invalid access token" /\
  (exists k, logged (ZConf (O:=unit) true None [] 0 true true (AConf false 0 0 false ∅)) (Req MRole (B "d=dom;s=SIGNATURE") (B "read") (B "res") [] None) = Ok (B "d=dom", k) /\
    k = B ":read:res").
Proof.
  split_and!; [vm_compute; reflexivity|exact (C60_token_masked MRole (B "v=Z1;d=dom;r=a;s=SIGNATURE"))|vm_compute; reflexivity..|].
  eexists. split; vm_compute; reflexivity.
Qed.

Print Assumptions C60_token_masked.
Print Assumptions C60_key_masked.
Print Assumptions C60_accepted_role_token.
Print Assumptions C60_access_token.
Print Assumptions C60_nonvacuous.
