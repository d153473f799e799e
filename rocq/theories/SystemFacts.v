(** * Invariants of the whole system *)
From Verif Require Export SystemSpec.
From Verif Require Import PubKeyFacts Prop_Jwk Prop_PubKey.

Section facts.
  Context (K : crypto) (X : jwt_ext) {O : Type} (U : unicode) (parse : str -> option (verifier K)).
  Context (cf : @sconf O).
  Notation ylabel := (@ylabel K O).
  Notation sys := (sys K).
  Notation now := (now K).
  Notation ystep := (ystep K X U parse cf).

  Lemma ystep_det l s s1 s2 : ystep l s s1 -> ystep l s s2 -> s1 = s2.
  Proof.
    intros H1 H2. destruct H1; inversion H2; subst; try congruence; try done; exfalso;
      match goal with
      | Ha : ustep U UFinish ?u = Some ?x, Hb : ustep U UFinish ?u' = Some ?y |- _ =>
          assert (x = y) by congruence; subst; tauto
      end.
  Qed.

  Section from.
  Context (s0 : sys).
  Notation yrun := (yrun K X U parse cf s0).
  Notation happened := (happened K X U parse cf s0).
  Notation passed := (passed K X U parse cf s0).
  Notation took := (took K X U parse cf s0).
  Notation published_by := (published_by K X U parse cf s0).
  Notation downloaded := (downloaded K X U parse cf s0).

  Lemma yrun_det ls s s' : yrun ls s -> yrun ls s' -> s = s'.
  Proof.
    intros H. revert s'. induction H as [|ls l s s1 H IH Hs]; intros s'.
    - inversion 1 as [|? ? ? ? ? ? Heq]; [done|]. by destruct ls.
    - inversion 1 as [Heq|ls' l' s2 s2' Hr Hs2 Heq]; [by destruct ls|]. apply app_inj_tail in Heq as [-> ->].
      apply IH in Hr as <-. by eapply ystep_det.
  Qed.
  Lemma yrun_snoc ls l s' : yrun (ls ++ [l]) s' -> exists s, yrun ls s /\ ystep l s s'.
  Proof.
    inversion 1 as [Heq|ls' l' s2 s2' Hr Hs2 Heq]; [by destruct ls|]. apply app_inj_tail in Heq as [-> ->]. eauto.
  Qed.
  Lemma yrun_split l1 l2 s : yrun (l1 ++ l2) s -> exists s1, yrun l1 s1.
  Proof.
    revert s. induction l2 as [|l l2 IH] using rev_ind; intros s; [rewrite app_nil_r; eauto|].
    rewrite app_assoc. intros (s1 & H & _)%yrun_snoc. eauto.
  Qed.
  Lemma yrun_at l1 l l2 s : yrun (l1 ++ l :: l2) s -> exists s1 s2, yrun l1 s1 /\ ystep l s1 s2 /\ yrun (l1 ++ [l]) s2.
  Proof.
    replace (l1 ++ l :: l2) with ((l1 ++ [l]) ++ l2) by (by rewrite <- app_assoc). intros [s2 H]%yrun_split.
    pose proof H as (s1 & H1 & H2)%yrun_snoc. eauto.
  Qed.

  Lemma happened_mono ls l' l l1 s1 : happened ls l l1 s1 -> happened (ls ++ l') l l1 s1.
  Proof. intros [[l2 ->] H]. split; [|done]. exists (l2 ++ l'). by rewrite <- app_assoc. Qed.
  Lemma happened_last ls l s : yrun ls s -> happened (ls ++ [l]) l ls s.
  Proof. intros H. split; [by exists []|done]. Qed.
  Lemma happened_snoc ls x l l1 s1 s : yrun ls s -> happened (ls ++ [x]) l l1 s1 ->
    happened ls l l1 s1 \/ (x = l /\ l1 = ls /\ s1 = s).
  Proof.
    intros Hr [[l2 Heq] H]. destruct l2 as [|y l2 _] using rev_ind.
    - apply app_inj_tail in Heq as [-> ->]. right. split_and!; try done. by eapply yrun_det.
    - left. rewrite app_comm_cons, app_assoc in Heq. apply app_inj_tail in Heq as [-> ->]. split; [by exists l2|done].
  Qed.
  Lemma passed_mono ls l' l1 s1 : passed ls l1 s1 -> passed (ls ++ l') l1 s1.
  Proof. intros [[l2 ->] H]. split; [|done]. exists (l2 ++ l'). by rewrite <- app_assoc. Qed.
  Lemma passed_last ls s : yrun ls s -> passed ls ls s.
  Proof. intros H. split; [exists []; by rewrite app_nil_r|done]. Qed.
  Lemma downloaded_mono ls l d sp : downloaded ls d sp -> downloaded (ls ++ l) d sp.
  Proof. intros (i & etag & l1 & s1 & H & ?). exists i, etag, l1, s1. split; [by apply happened_mono|done]. Qed.
  Lemma took_mono ls l n w exp doc t : took ls n w exp doc t -> took (ls ++ l) n w exp doc t.
  Proof. intros (c & sc & l1 & s1 & H & ?). exists c, sc, l1, s1. split; [by apply happened_mono|done]. Qed.
  Lemma published_mono ls l n o : published_by ls n o -> published_by (ls ++ l) n o.
  Proof. intros (l1 & s1 & s2 & H & ?). exists l1, s1, s2. split; [by apply happened_mono|done]. Qed.

  (** The clock does not go back. *)
  Lemma ystep_clock l s s' : ystep l s s' -> now s <= now s'.
  Proof.
    destruct 1; try done. cbn. clear H0. unfold now. cbn.
    destruct l as [t|? ?|?|? ?|? ?|? ?|?|?|]; cbn [zstep] in H; repeat (case_match; try done); injection H as <-; cbn; lia.
  Qed.
  Lemma yrun_clock l1 l2 s1 s : yrun l1 s1 -> yrun (l1 ++ l2) s -> now s1 <= now s.
  Proof.
    intros H1. revert s. induction l2 as [|l l2 IH] using rev_ind; intros s H.
    - rewrite app_nil_r in H. assert (s1 = s) as -> by (by eapply yrun_det). lia.
    - rewrite app_assoc in H. apply yrun_snoc in H as (s2 & H2 & Hs). apply IH in H2. apply ystep_clock in Hs. lia.
  Qed.
  Lemma passed_clock ls l1 s1 s : passed ls l1 s1 -> yrun ls s -> now s1 <= now s.
  Proof. intros [[l2 ->] H] Hr. by eapply yrun_clock. Qed.
  End from.

  (** ** From New *)
  Context (t0 : time) (n nk nj nu : nat) (calls : nat -> list bool).
  Notation s0 := (yinit K cf t0 n nk nj nu calls).
  Notation yrun := (yrun K X U parse cf s0).
  Notation happened := (happened K X U parse cf s0).
  Notation passed := (passed K X U parse cf s0).
  Notation took := (took K X U parse cf s0).
  Notation published_by := (published_by K X U parse cf s0).
  Notation untouched := (untouched K X U parse cf s0).
  Notation downloaded := (downloaded K X U parse cf s0).
  Notation key_published := (key_published K parse).
  Notation properly_signed := (properly_signed K parse).

  (** *** The parts do what their own machines do *)
  Definition auth_of (l : ylabel) : list (@zlabel K O) := match l with YAuth _ l => [l] | _ => [] end.
  Definition auths (ls : list ylabel) : list (@zlabel K O) := concat (map auth_of ls).
  Definition key_of_ (l : ylabel) : list plabel := match l with YKey _ l => [l] | _ => [] end.
  Definition keyls (ls : list ylabel) : list plabel := concat (map key_of_ ls).
  Definition jwk_of (l : ylabel) : list (@jlabel key) := match l with YJwk _ l => [l] | _ => [] end.
  Definition jwks (ls : list ylabel) : list (@jlabel key) := concat (map jwk_of ls).
  Lemma concat_snoc {A C} (f : A -> list C) ls l : concat (map f (ls ++ [l])) = concat (map f ls) ++ f l.
  Proof. rewrite map_app, concat_app. cbn. by rewrite app_nil_r. Qed.
  Lemma prun_snoc ls l (s : @pst (verifier K)) :
    prun parse (s_p cf) (ls ++ [l]) s = match prun parse (s_p cf) ls s with Some s' => pstep parse (s_p cf) l s' | None => None end.
  Proof.
    revert s. induction ls as [|x ls IH]; intros s; cbn [prun app].
    - by destruct (pstep parse (s_p cf) l s).
    - by destruct (pstep parse (s_p cf) x s).
  Qed.
  Lemma run_auth ls s : yrun ls s -> zrun K X (s_z cf) (auths ls) (zinit n t0) = Some (y_auth K s).
  Proof.
    intros H. induction H as [|ls l s s' H IH Hs]; [done|]. unfold auths. rewrite concat_snoc. fold (auths ls).
    destruct Hs; cbn [auth_of]; rewrite ?app_nil_r; try exact IH. apply zrun_snoc. eauto.
  Qed.
  Lemma run_keys ls s : yrun ls s -> prun parse (s_p cf) (keyls ls) (pinit nk) = Some (y_keys K s).
  Proof.
    intros H. induction H as [|ls l s s' H IH Hs]; [done|]. unfold keyls. rewrite concat_snoc. fold (keyls ls).
    destruct Hs; cbn [key_of_]; rewrite ?app_nil_r; try exact IH. by rewrite prun_snoc, IH.
  Qed.
  Lemma run_jwk ls s : yrun ls s -> jrun (s_j cf) (jwks ls) (jinit nj) = Some (y_jwk K s).
  Proof.
    intros H. induction H as [|ls l s s' H IH Hs]; [done|]. unfold jwks. rewrite concat_snoc. fold (jwks ls).
    destruct Hs; cbn [jwk_of]; rewrite ?app_nil_r; try exact IH. by rewrite jrun_snoc, IH.
  Qed.
  Lemma elem_of_keyls ls l : l ∈ keyls ls <-> YKey K l ∈ ls.
  Proof.
    unfold keyls. induction ls as [|x ls IH]; cbn [map concat]; [by rewrite !elem_of_nil|].
    rewrite elem_of_app, elem_of_cons, IH. destruct x; cbn [key_of_]; rewrite ?elem_of_list_singleton, ?elem_of_nil; naive_solver.
  Qed.
  (** An authorize step, seen in the whole system. *)
  Lemma auths_split ls l1 l l2 : auths ls = l1 ++ l :: l2 ->
    exists L1 L2, ls = L1 ++ YAuth K l :: L2 /\ auths L1 = l1.
  Proof.
    revert l1. induction ls as [|x ls IH]; intros l1 H; [by destruct l1|].
    unfold auths in H. cbn [map concat] in H. fold (auths ls) in H.
    assert (auth_of x = [] \/ exists y, x = YAuth K y) as [Hx|[y ->]] by (destruct x; eauto).
    - rewrite Hx in H. apply IH in H as (L1 & L2 & -> & <-). exists (x :: L1), L2. split; [done|].
      unfold auths. cbn [map concat]. by rewrite Hx.
    - cbn [auth_of app] in H. destruct l1 as [|z l1]; injection H as -> H.
      + by exists [], ls.
      + apply IH in H as (L1 & L2 & -> & <-). by exists (YAuth K z :: L1), L2.
  Qed.
  Lemma occurs_happened ls s l z : yrun ls s -> occurs (X:=X) (s_z cf) (zinit n t0) (auths ls) l z ->
    exists l1 s1, happened ls (YAuth K l) l1 s1 /\ y_auth K s1 = z.
  Proof.
    intros Hr (a1 & a2 & Heq & Hz). apply auths_split in Heq as (L1 & L2 & -> & <-).
    destruct (yrun_at _ _ _ _ _ Hr) as (s1 & s2 & H1 & _). exists L1, s1. split; [split; [by exists L2|done]|].
    apply run_auth in H1. rewrite Hz in H1. by injection H1.
  Qed.
  Lemma happened_step ls s l l1 s1 : yrun ls s -> happened ls l l1 s1 -> exists s2, ystep l s1 s2.
  Proof.
    intros Hr [[l2 ->] H1]. destruct (yrun_at _ _ _ _ _ Hr) as (s1' & s2 & H1' & Hs & _).
    assert (s1' = s1) as -> by (by eapply yrun_det). eauto.
  Qed.
  Lemma start_clock ls s : yrun ls s -> t0 <= now s.
  Proof. intros H. apply run_auth in H. by apply machine_inv in H as (? & _). Qed.

  (** *** Keys and policies *)
  Lemma known_key ls s z id v : yrun ls s -> get_pub_key (y_keys K s) (env_of z) id = Some v -> key_published ls z id v.
  Proof.
    intros H Hg. apply run_keys in H. eapply C30_keys_come_from_own_environment in Hg as (i & etag & kl & t & key & Hin & Hz & Hk & Hp); [|exact H].
    exists i, etag, kl, t, key. split_and!; try done. by apply elem_of_keyls.
  Qed.
  Lemma valid_signed ls s sp : yrun ls s -> valid_policy K (get_pub_key (y_keys K s)) (now s) sp -> properly_signed ls (now s) sp.
  Proof.
    intros H (d & e & v & m & v' & m' & H1 & H2 & H3 & H4 & H5 & H6 & H7 & H8 & H9). exists d, e, v, m, v', m'.
    split_and!; try done; [by apply (known_key _ _ true _ _ H)|by apply (known_key _ _ false _ _ H)].
  Qed.
  Lemma fetch_ok ls s : yrun ls s -> forall d f, y_fetch K s !! d = Some f ->
    exists fc, s_f cf !! d = Some fc /\ finv fc (downloaded ls d) f.
  Proof.
    intros H. induction H as [|ls l s s' H IH Hs]; intros d f Hf.
    - cbn in Hf. apply elem_of_list_lookup_2 in Hf as Hin. rewrite list_lookup_fmap in Hf.
      destruct (seq 0 (length (s_f cf)) !! d) as [d'|] eqn:E; [|done]. cbn in Hf. injection Hf as <-.
      apply lookup_seq in E as [-> Hlt]. destruct (lookup_lt_is_Some_2 _ _ Hlt) as [fc Hfc]. exists fc. split; [done|].
      eapply finv_mono; [|apply (finit_inv K)]. intros sp (? & ? & ? & ? & Hx & _). by apply elem_of_nil in Hx.
    - assert (forall d f, y_fetch K s !! d = Some f -> exists fc, s_f cf !! d = Some fc /\ finv fc (downloaded (ls ++ [l]) d) f) as IH'.
      { intros d' f' H'. destruct (IH _ _ H') as (fc & Hfc & Hi). exists fc. split; [done|]. eapply finv_mono; [|exact Hi].
        intros sp. apply downloaded_mono. }
      destruct Hs; try (by apply IH'); cbn [set_fetch y_fetch] in Hf; apply list_lookup_insert_Some in Hf as [(<- & <- & _)|[_ Hf]]; try (by apply IH');
        destruct (IH' _ _ H1) as (fc' & Hfc & Hi); assert (fc' = fc) as -> by congruence; exists fc; (split; [done|]);
        (eapply fstep_inv; [eassumption| |exact Hi]).
      + done.
      + intros i' etag t pkp sp Heq Hv. injection Heq as -> -> <- <-. exists i', etag, ls, s. split; [by apply happened_last|].
        by eapply valid_signed.
  Qed.
  Lemma fetched_content sp e exp doc : fetched_policy sp e = Ok (exp, doc) -> exists sp', sp = Some sp' /\ content sp' exp doc.
  Proof.
    unfold fetched_policy. destruct sp as [sp|]; [|by destruct e]. intros H. exists sp. split; [done|].
    destruct (sp_data sp) as [d|] eqn:Ed; [|done]. destruct (sd_policy d) as [p|] eqn:Ep; [|done]. destruct (sd_expires d) as [x|] eqn:Ex; [|done].
    destruct (policies_of (pd_policies p)) as [doc'|] eqn:Epo; [|done]. apply policies_of_written in Epo. injection H as <- <-. by exists d, p.
  Qed.
  Lemma answer_downloaded ls s d c exp doc : yrun ls s -> answer_of K s d c = Some (exp, doc) ->
    exists sp, downloaded ls d sp /\ content sp exp doc.
  Proof.
    intros H Ha. unfold answer_of in Ha. destruct (y_fetch K s !! d) as [f|] eqn:Ef; [|done].
    destruct (fs_calls f !! c) as [[| | |sp e|]|] eqn:Ec; try done. destruct (fetched_policy sp e) as [r| |] eqn:Er; [|done..].
    injection Ha as ->. apply fetched_content in Er as (sp' & -> & Hc). exists sp'. split; [|done].
    destruct (fetch_ok _ _ H _ _ Ef) as (fc & _ & _ & Hi). apply (Hi _ _ Ec).
  Qed.

  (** *** Where cached assertions come from *)
  Definition sourced (ls : list ylabel) (j : job) : Prop :=
    exists d sp doc, downloaded ls d sp /\ content sp (j_exp j) doc /\ script_of U doc (j_script j).
  Lemma sourced_mono ls l j : sourced ls j -> sourced (ls ++ l) j.
  Proof. intros (d & sp & doc & H & ?). exists d, sp, doc. split; [by apply downloaded_mono|done]. Qed.
  Definition oinv (ls : list ylabel) (c : cst) : Prop := binv U ∅ (fun _ => sourced ls) (fun _ _ => True) c /\ cdf c.
  Lemma binv_mono (F F' : nat -> job -> Prop) (T T' : nat -> time -> Prop) c : (forall i j, F i j -> F' i j) -> (forall i t, T i t -> T' i t) -> binv U ∅ F T c -> binv U ∅ F' T' c.
  Proof.
    intros HF HT [Hw Hg].
    assert (forall k a, src U ∅ F k a -> src U ∅ F' k a) as Hs.
    { intros k a [Ha|(i & j & r & H & ?)]; [by left|right]. exists i, j, r. split; [by apply HF|done]. }
    split.
    - intros i w H. specialize (Hw _ _ H). destruct w as [|j rest|j role asss rest|[j|] e]; cbn in *; try done.
      + destruct Hw. split; [by apply HF|done].
      + destruct Hw as (? & ? & Ha). split; [by apply HF|]. split; [done|]. intros a Hin. by apply Hs, Ha.
      + by apply HF.
    - intros k e H. destruct (Hg _ _ H) as [H1 H2]. split; [intros a Ha; by apply Hs, H1|].
      destruct H2 as [H2|(i & j & r & t & ? & ? & ? & ? & ?)]; [by left|right]. exists i, j, r, t. split_and!; auto.
  Qed.
  Lemma oinv_mono ls l c : oinv ls c -> oinv (ls ++ l) c.
  Proof. intros [H1 H2]. split; [|done]. eapply binv_mono; [| |exact H1]; [|done]. intros i j; apply sourced_mono. Qed.
  Lemma oinv_step ls l c c' : cstep U l c = Some c' -> (forall i j, l = CWork i (IFetch (Ok j)) -> sourced ls j) -> oinv ls c -> oinv ls c'.
  Proof.
    intros Hs Hl [H1 H2]. split; [|by eapply cstep_df]. eapply cstep_binv; [exact Hs| |exact H1].
    destruct l as [i [[j|e|]|t]|k]; try done. by eapply Hl.
  Qed.
  Lemma ustep_oinv ls l u u' : ustep U l u = Some u' -> (forall i j, l = UWork i (IFetch (Ok j)) -> sourced ls j) ->
    oinv ls (u_c u) -> oinv ls (u_c u').
  Proof.
    intros Hs Hl Hi. apply ustep_c in Hs. destruct l as [| |i inp|]; cbn [proj crun] in Hs; try (by injection Hs as <-).
    destruct (cstep U (CWork i inp) (u_c u)) as [c|] eqn:E; [|done]. injection Hs as <-.
    eapply oinv_step; [exact E| |exact Hi]. intros i' j Heq. injection Heq as -> ->. by eapply Hl.
  Qed.
  Lemma cinit_oinv ls k : oinv ls (cinit ∅ k).
  Proof. split; [apply cinit_binv|]. apply cinit_df. intros k' e He. by rewrite lookup_empty in He. Qed.
  Lemma caches_ok ls s : yrun ls s ->
    (forall m u, y_upd K s !! m = Some u -> oinv ls (u_c u)) /\ (forall o c, y_objs K s !! o = Some c -> oinv ls c).
  Proof.
    intros H. induction H as [|ls l s s' H [IHu IHo] Hs].
    - split.
      + intros m u Hm. cbn in Hm. apply lookup_replicate in Hm as [-> _]. apply cinit_oinv.
      + intros o c Ho. cbn in Ho. destruct o; [|done]. injection Ho as <-. apply (cinit_oinv _ 0).
    - assert (forall m u, y_upd K s !! m = Some u -> oinv (ls ++ [l]) (u_c u)) as Hu by (intros; eapply oinv_mono; eauto).
      assert (forall o c, y_objs K s !! o = Some c -> oinv (ls ++ [l]) c) as Ho by (intros; eapply oinv_mono; eauto).
      clear IHu IHo.
      assert (forall d c exp doc script t, answer_of K s d c = Some (exp, doc) -> script_of U doc script -> sourced (ls ++ [l]) (Job exp t script)) as Hsrc.
      { intros d c exp doc script t Ha Hsc. destruct (answer_downloaded _ _ _ _ _ _ H Ha) as (sp & Hd & Hc).
        apply sourced_mono. by exists d, sp, doc. }
      destruct Hs; try done; (split; [try done|try done]); cbn [set_upd set_obj publish y_upd y_objs].
      + intros m u0 Hm. apply list_lookup_insert_Some in Hm as [(<- & <- & _)|[_ Hm]]; [|by eapply Hu].
        eapply ustep_oinv; [exact H1| |by eapply Hu]. intros i j ->. by specialize (H2 _ _ eq_refl).
      + intros m u0 Hm. apply list_lookup_insert_Some in Hm as [(<- & <- & _)|[_ Hm]]; [|by eapply Hu].
        eapply ustep_oinv; [exact H3| |by eapply Hu]. intros i j Heq. injection Heq as <- <-. by eapply Hsrc.
      + intros m u0 Hm. apply list_lookup_insert_Some in Hm as [(<- & <- & _)|[_ Hm]]; [|by eapply Hu].
        eapply ustep_oinv; [exact H1| |by eapply Hu]. done.
      + intros o c Hc. apply lookup_app_Some in Hc as [Hc|[_ Hc]]; [by eapply Ho|].
        apply list_lookup_singleton_Some in Hc as [_ <-].
        assert (oinv (ls ++ [YUpd K n0 UFinish]) (u_c u')) as [[_ Hg] [Hdf _]].
        { eapply ustep_oinv; [exact H1| |by eapply Hu]. done. }
        assert (u_cur u' = c_g (u_c u')) as ->.
        { cbn [ustep] in H1. destruct (u_ret u); [done|]. case_decide; [|done]. destruct (forallb _ _); [|done].
          destruct (u_err u); injection H1 as <-; [done|]. done. }
        split; split; cbn; try done.
      + intros o c0 Hc. apply list_lookup_insert_Some in Hc as [(<- & <- & _)|[_ Hc]]; [|by eapply Ho].
        destruct (Ho _ _ H0) as [[Hw Hg] [Hdf Hdw]]. split; split; cbn; try done.
        * intros i w Hi. apply lookup_app_Some in Hi as [Hi|[_ Hi]]; [by apply Hw|]. apply list_lookup_singleton_Some in Hi as [_ <-]. done.
        * intros i j role asss rest Hi. apply lookup_app_Some in Hi as [Hi|[_ Hi]]; [by eapply Hdw|]. by apply list_lookup_singleton_Some in Hi as [_ ?].
      + intros o0 c0 Hc. apply list_lookup_insert_Some in Hc as [(<- & <- & _)|[_ Hc]]; [|by eapply Ho].
        eapply oinv_step; [exact H1| |by eapply Ho]. intros i j ->. by specialize (H2 _ _ eq_refl).
      + intros o0 c0 Hc. apply list_lookup_insert_Some in Hc as [(<- & <- & _)|[_ Hc]]; [|by eapply Ho].
        eapply oinv_step; [exact H3| |by eapply Ho]. intros i j Heq. injection Heq as <- <-. by eapply Hsrc.
  Qed.

  (** *** Checks in progress *)
  Definition view_of (ls : list ylabel) (o : nat) (c : cache) : Prop :=
    exists l1 s1 obj, passed ls l1 s1 /\ y_objs K s1 !! o = Some obj /\ c = g_view (now s1) (c_g obj).
  Lemma view_of_mono ls l o c : view_of ls o c -> view_of (ls ++ l) o c.
  Proof. intros (l1 & s1 & obj & H & ?). exists l1, s1, obj. split; [by apply passed_mono|done]. Qed.
  Definition past_check (t : ctask) : Prop := match t with CStore _ _ | CDone _ _ => True | _ => False end.
  (** The check reads only what its cache held at moments of the execution. *)
  Definition chk_view (ls : list ylabel) (k : chk) : Prop :=
    exists c0 kls, run U (k_dom k) (k_roles k) (k_act k) (k_res k) kls (start (k_roles k) c0 false) = Some (k_st k) /\
      forall c, version c0 kls c -> view_of ls (k_obj k) c.
  Lemma chk_view_mono ls l k : chk_view ls k -> chk_view (ls ++ l) k.
  Proof. intros (c0 & kls & H & Hv). exists c0, kls. split; [done|]. intros c Hc. by apply view_of_mono, Hv. Qed.
  Lemma chk_view_load ls s o c dom roles a r : yrun ls s -> y_objs K s !! o = Some c ->
    chk_view ls (Chk o dom roles a r (start roles (g_view (now s) (c_g c)) false)).
  Proof.
    intros H Hc. eexists _, []. split; [done|]. intros c' [->|(p' & [Hx|Hx])]; [|by apply elem_of_nil in Hx..].
    exists ls, s, c. split; [split; [by eexists; rewrite app_nil_r|done]|]. done.
  Qed.
  Lemma chk_view_step ls s l k c c' : yrun ls s -> check_label l = true -> y_objs K s !! k_obj k = Some c ->
    run U (k_dom k) (k_roles k) (k_act k) (k_res k) [EnvMutate 0%nat (g_view (now s) (c_g c)); l] (k_st k) = Some c' ->
    chk_view ls k -> chk_view ls (Chk (k_obj k) (k_dom k) (k_roles k) (k_act k) (k_res k) c').
  Proof.
    intros H Hl Hobj Hstep (c0 & kls & Hr & Hv).
    exists c0, (kls ++ [EnvMutate 0%nat (g_view (now s) (c_g c)); l]). cbn [k_dom k_roles k_act k_res k_st k_obj]. split; [by rewrite run_app, Hr|].
    intros c1 Hc1. assert (version c0 kls c1 \/ c1 = g_view (now s) (c_g c)) as [Hc1'| ->].
    { destruct Hc1 as [->|(p & Hp)]; [left; by left|]. rewrite !elem_of_app in Hp. rewrite !elem_of_cons, !elem_of_nil in Hp.
      destruct Hp as [[Hp|[Hp|[Hp|Hp]]]|[Hp|[Hp|[Hp|Hp]]]]; try done.
      - left. right. exists p. by left.
      - by rewrite <- Hp in Hl.
      - left. right. exists p. by right.
      - injection Hp as -> ->. by right.
      - by rewrite <- Hp in Hl. }
    - by apply Hv.
    - exists ls, s, c. split; [split; [by eexists; rewrite app_nil_r|done]|]. done.
  Qed.
  Definition chk_ok (ls : list ylabel) (s : sys) (i : nat) (k : chk) : Prop :=
    chk_view ls k /\
    exists t, z_tasks (y_auth K s) !! i = Some t /\
      (past_check t \/ exists q p, t = CCheck q p (k_act k) (k_res k) /\ pr_domain p = k_dom k /\ pr_roles p = k_roles k).
  Lemma checks_ok ls s : yrun ls s -> forall i k, y_chk K s !! i = Some (Some k) -> chk_ok ls s i k.
  Proof.
    intros H. induction H as [|ls l s s' H IH Hs]; intros i k Hk.
    - cbn in Hk. by apply lookup_replicate in Hk as [? _].
    - assert (forall i k, y_auth K s' = y_auth K s -> y_chk K s !! i = Some (Some k) -> chk_ok (ls ++ [l]) s' i k) as Hkeep.
      { intros i' k' Ha Hk'. destruct (IH _ _ Hk') as [(c0 & kls & Hr & Hv) Ht]. split; [|by rewrite Ha].
        exists c0, kls. split; [done|]. intros c Hc. by apply view_of_mono, Hv. }
      pose proof (Y_snoc _ _ _ _ _ _ _ _ _ _ H Hs) as Hr'.
      destruct Hs; try (by apply Hkeep).
      + (* authorize *)
        cbn in Hk. destruct (IH _ _ Hk) as [(c0 & kls & Hr & Hv) (t & Ht & Hpc)]. split.
        { exists c0, kls. split; [done|]. intros c Hc. by apply view_of_mono, Hv. }
        cbn [set_auth y_auth].
        assert (forall j u, z = set_task (y_auth K s) j u -> z_tasks (y_auth K s) !! j <> Some t \/ past_check u ->
          exists t, z_tasks z !! i = Some t /\ (past_check t \/ exists q p, t = CCheck q p (k_act k) (k_res k) /\ pr_domain p = k_dom k /\ pr_roles p = k_roles k)) as Hset.
        { intros j u -> Hu. cbn [set_task z_tasks]. destruct (decide (j = i)) as [->|Hne].
          - rewrite list_lookup_insert by (by eapply lookup_lt_Some). exists u. split; [done|]. destruct Hu; [done|by left].
          - rewrite list_lookup_insert_ne by done. eauto. }
        assert (z_tasks (y_auth K s) !! i = Some t -> forall j u, z_tasks (y_auth K s) !! j = Some u ->
           (past_check t \/ exists q p, t = CCheck q p (k_act k) (k_res k) /\ pr_domain p = k_dom k /\ pr_roles p = k_roles k) ->
           ~ (past_check u \/ exists q p a r, u = CCheck q p a r) -> z_tasks (y_auth K s) !! j <> Some t) as Hdiff.
        { intros _ j u Hj Hp Hn Heq. rewrite Hj in Heq. injection Heq as ->. apply Hn. destruct Hp as [?|(q & p & -> & _)]; [by left|right; eauto]. }
        clear H1 IH Hkeep Hr Hv Hr'. destruct l as [tt|j q|j|j ks|j o|j r|j|kk|]; cbn [zstep] in H0.
        * destruct (z_clock (y_auth K s) <=? tt); [|done]. injection H0 as <-. cbn. eauto.
        * destruct (z_tasks (y_auth K s) !! j) as [[]|] eqn:Ej; try done. injection H0 as H0. eapply Hset; [by symmetry|].
          left. eapply Hdiff; [done|exact Ej|done|]. intros [?|(? & ? & ? & ? & ?)]; done.
        * destruct (z_tasks (y_auth K s) !! j) as [[]|] eqn:Ej; try done. injection H0 as H0. eapply Hset; [by symmetry|].
          left. eapply Hdiff; [done|exact Ej|done|]. intros [?|(? & ? & ? & ? & ?)]; done.
        * destruct (z_tasks (y_auth K s) !! j) as [[]|] eqn:Ej; try done. injection H0 as H0. eapply Hset; [by symmetry|].
          left. eapply Hdiff; [done|exact Ej|done|]. intros [?|(? & ? & ? & ? & ?)]; done.
        * destruct (z_tasks (y_auth K s) !! j) as [[]|] eqn:Ej; try done. injection H0 as H0. eapply Hset; [by symmetry|].
          left. eapply Hdiff; [done|exact Ej|done|]. intros [?|(? & ? & ? & ? & ?)]; done.
        * destruct (z_tasks (y_auth K s) !! j) as [[]|] eqn:Ej; try done. injection H0 as H0. eapply Hset; [by symmetry|].
          right. by destruct r.
        * destruct (z_tasks (y_auth K s) !! j) as [[]|] eqn:Ej; try done. injection H0 as <-. cbn [z_tasks].
          destruct (decide (j = i)) as [->|Hne].
          -- rewrite list_lookup_insert by (by eapply lookup_lt_Some). eexists. split; [done|]. by left.
          -- rewrite list_lookup_insert_ne by done. eauto.
        * destruct (z_cache (y_auth K s) !! kk) as [e|]; [|done]. destruct (g_valid _ e); [done|]. injection H0 as <-. cbn. eauto.
        * injection H0 as <-. cbn. eauto.
      + (* load *)
        cbn [set_chk y_chk] in Hk. apply list_lookup_insert_Some in Hk as [(-> & Heq & _)|[_ Hk]]; [|by apply Hkeep].
        injection Heq as <-. split; [by apply chk_view_mono, chk_view_load|].
        cbn. exists (CCheck q p a r). split; [done|]. right. by exists q, p.
      + (* a step of the check *)
        cbn [set_chk y_chk] in Hk. apply list_lookup_insert_Some in Hk as [(-> & Heq & _)|[_ Hk]]; [|by apply Hkeep].
        injection Heq as <-. destruct (IH _ _ H0) as [Hv Ht]. split; [|done]. apply chk_view_mono. by eapply chk_view_step.
  Qed.

  (** *** What an Update took *)
  Definition upd_ok (ls : list ylabel) (s : sys) (m : nat) (u : ust) : Prop :=
    exists uls, urun U uls (uinit ∅ (length (s_f cf)) false) = Some u /\
      (forall w j, ufetched uls w j -> exists doc, took ls m w (j_exp j) doc (j_now j) /\ script_of U doc (j_script j)) /\
      (forall w exp doc t, took ls m w exp doc t -> exists script, ufetched uls w (Job exp t script) /\ script_of U doc script) /\
      (forall w t, uticked uls w t -> t <= now s /\ forall j, ufetched uls w j -> j_now j <= t) /\
      (forall w, c_work (u_c u) !! w = Some PolicySimplify.CIdle -> forall inp, UWork w inp ∉ uls).
  Lemma urun_app l1 l2 u : urun U (l1 ++ l2) u = match urun U l1 u with Some u' => urun U l2 u' | None => None end.
  Proof. revert u. induction l1 as [|l l1 IH]; intros u; [done|]. cbn. destruct (ustep U l u); [apply IH|done]. Qed.
  Lemma ustep_idle l u u' w : ustep U l u = Some u' -> c_work (u_c u') !! w = Some PolicySimplify.CIdle ->
    c_work (u_c u) !! w = Some PolicySimplify.CIdle /\ forall inp, l <> UWork w inp.
  Proof.
    intros Hs Hi. destruct l as [| |i inp|]; cbn [ustep] in Hs.
    - injection Hs as <-. done.
    - destruct (u_ret u); [done|]. case_decide; [|done]. destruct (u_cancel u); by injection Hs as <-.
    - case_decide; [|done]. destruct (cstep U (CWork i inp) (u_c u)) as [c|] eqn:E; [|done]. injection Hs as <-. cbn [u_c] in Hi.
      pose proof (cstep_ended _ _ _ _ _ E) as (K1 & _). destruct (decide (w = i)) as [->|Hne].
      + exfalso. cbn [cstep] in E. destruct (c_work (u_c u) !! i) as [w0|] eqn:Hw; [|done]. pose proof (lookup_lt_Some _ _ _ Hw).
        destruct w0 as [|? [|? ?]| |]; destruct inp as [[?|?|]|?]; try done;
          repeat match type of E with match ?x with _ => _ end = _ => destruct x; try done end;
          injection E as <-; cbn [c_work] in Hi; rewrite list_lookup_insert in Hi by done; done.
      + rewrite K1 in Hi by done. split; [done|]. intros inp' Heq. by injection Heq as -> ->.
    - destruct (u_ret u); [done|]. case_decide; [|done]. destruct (forallb _ _); [|done]. destruct (u_err u); by injection Hs as <-.
  Qed.
  Lemma took_snoc ls x m w exp doc t s : yrun ls s -> took (ls ++ [x]) m w exp doc t ->
    took ls m w exp doc t \/ exists c script, x = YTake K m w c script /\ answer_of K s w c = Some (exp, doc) /\ now s = t.
  Proof.
    intros Hr (c & script & l1 & s1 & Hh & Ha & Ht). destruct (happened_snoc _ _ _ _ _ _ _ Hr Hh) as [Hh'|(-> & -> & ->)].
    - left. by exists c, script, l1, s1.
    - right. by exists c, script.
  Qed.
  Lemma took_clock ls s m w exp doc t : yrun ls s -> took ls m w exp doc t -> t0 <= t <= now s.
  Proof.
    intros Hr (c & script & l1 & s1 & [[l2 ->] H1] & _ & <-). split; [by eapply start_clock|by eapply yrun_clock].
  Qed.
  (** One more step of an Update. *)
  Lemma upd_ok_step ls s x s' m u l u' : yrun ls s -> now s <= now s' -> upd_ok ls s m u -> ustep U l u = Some u' ->
    (forall w t, l = UWork w (ITime t) -> t = now s) ->
    (forall w j, l = UWork w (IFetch (Ok j)) ->
       exists doc, took (ls ++ [x]) m w (j_exp j) doc (j_now j) /\ script_of U doc (j_script j)) ->
    (forall w exp doc t, took (ls ++ [x]) m w exp doc t -> took ls m w exp doc t \/
       exists script, l = UWork w (IFetch (Ok (Job exp t script))) /\ script_of U doc script) ->
    upd_ok (ls ++ [x]) s' m u'.
  Proof.
    intros Hr Hc (uls & H1 & H2 & H3 & H4 & H5) Hs Ht Hf Hb. exists (uls ++ [l]). split_and!.
    - rewrite urun_app, H1. cbn. by rewrite Hs.
    - intros w j Hj. unfold ufetched in Hj. apply elem_of_app in Hj as [Hj|Hj].
      + destruct (H2 _ _ Hj) as (doc & Hd & ?). exists doc. split; [by apply took_mono|done].
      + apply elem_of_list_singleton in Hj. by apply Hf.
    - intros w exp doc t Htk. destruct (Hb _ _ _ _ Htk) as [Hd|(script & -> & ?)].
      + destruct (H3 _ _ _ _ Hd) as (script & Hx & ?). exists script. split; [|done]. apply elem_of_app. by left.
      + exists script. split; [|done]. apply elem_of_app. right. left.
    - assert (forall w j, ufetched uls w j -> j_now j <= now s) as Hnow.
      { intros w j Hj. destruct (H2 _ _ Hj) as (doc & Hd & _). by apply (took_clock _ _ _ _ _ _ _ Hr) in Hd as [_ ?]. }
      intros w t Htk. unfold uticked in Htk. apply elem_of_app in Htk as [Htk|Htk].
      + destruct (H4 _ _ Htk) as [H6 H7]. split; [lia|]. intros j Hj. unfold ufetched in Hj. apply elem_of_app in Hj as [Hj|Hj]; [by apply H7|].
        apply elem_of_list_singleton in Hj as <-. exfalso. apply (H5 w) with (ITime t); [|done].
        cbn [ustep] in Hs. case_decide; [|done]. destruct (cstep U _ (u_c u)) as [c|] eqn:E; [|done]. cbn [cstep] in E.
        destruct (c_work (u_c u) !! w) as [[|? [|? ?]| |]|]; try done.
      + apply elem_of_list_singleton in Htk as <-. specialize (Ht _ _ eq_refl) as ->. split; [done|]. intros j Hj. unfold ufetched in Hj.
        apply elem_of_app in Hj as [Hj|Hj]; [by eapply Hnow|]. by apply elem_of_list_singleton in Hj.
    - intros w Hw inp Hin. destruct (ustep_idle _ _ _ _ Hs Hw) as [Hw' Hne]. apply elem_of_app in Hin as [Hin|Hin]; [by eapply H5|].
      apply elem_of_list_singleton in Hin as <-. by eapply Hne.
  Qed.
  Lemma upd_ok_idle ls s x s' m u : yrun ls s -> now s <= now s' -> upd_ok ls s m u ->
    (forall w exp doc t, took (ls ++ [x]) m w exp doc t -> took ls m w exp doc t) -> upd_ok (ls ++ [x]) s' m u.
  Proof.
    intros Hr Hc (uls & H1 & H2 & H3 & H4 & H5) Hb. exists uls. split_and!; try done.
    - intros w j Hj. destruct (H2 _ _ Hj) as (doc & Hd & ?). exists doc. split; [by apply took_mono|done].
    - intros w exp doc t Ht. by apply H3, Hb.
    - intros w t Ht. destruct (H4 _ _ Ht). split; [lia|done].
  Qed.
  Lemma updates_ok ls s : yrun ls s -> forall m u, y_upd K s !! m = Some u -> upd_ok ls s m u.
  Proof.
    intros H. induction H as [|ls l s s' H IH Hs]; intros m u Hu.
    - cbn in Hu. apply lookup_replicate in Hu as [-> _]. exists []. split_and!; try done.
      + intros w j Hj. by apply elem_of_nil in Hj.
      + intros w exp doc t (c & sc & l1 & s1 & [[l2 Hl] _] & _). by destruct l1.
      + intros w t Ht. by apply elem_of_nil in Ht.
      + intros w _ inp Hx. by apply elem_of_nil in Hx.
    - pose proof (ystep_clock _ _ _ Hs) as Hc.
      assert (forall m, (forall w c sc, l <> YTake K m w c sc) -> forall w exp doc t, took (ls ++ [l]) m w exp doc t -> took ls m w exp doc t) as Hold.
      { intros m' Hne w exp doc t Ht. destruct (took_snoc _ _ _ _ _ _ _ _ H Ht) as [?|(c & sc & -> & _)]; [done|]. by exfalso; eapply Hne. }
      assert (forall m u, (forall w c sc, l <> YTake K m w c sc) -> y_upd K s !! m = Some u -> upd_ok (ls ++ [l]) s' m u) as Hidle.
      { intros m' u' Hne Hu'. eapply upd_ok_idle; [exact H|done|by apply IH|by apply Hold]. }
      destruct Hs; try (by apply Hidle); cbn [set_upd publish y_upd] in Hu; apply list_lookup_insert_Some in Hu as [(-> & -> & _)|[Hne Hu]].
      + eapply upd_ok_step; [exact H|done|by apply IH|exact H1|..].
        * intros w t ->. by apply (H2 _ _ eq_refl).
        * intros w j ->. by specialize (H2 _ _ eq_refl).
        * intros w exp doc t Ht. left. by eapply Hold.
      + by apply Hidle.
      + eapply upd_ok_step; [exact H|done|by apply IH|exact H3|..].
        * done.
        * intros w' j Heq. injection Heq as <- <-. cbn [j_exp j_now j_script]. exists doc. split; [|done].
          exists c, script, ls, s. split; [by apply happened_last|done].
        * intros w' exp' doc' t Ht. destruct (took_snoc _ _ _ _ _ _ _ _ H Ht) as [?|(c' & sc & Heq & Ha & <-)]; [by left|].
          injection Heq as <- <- <-. rewrite H1 in Ha. injection Ha as <- <-. right. by exists script.
      + apply Hidle; [|done]. intros w' c' sc Heq. by injection Heq as ->.
      + eapply upd_ok_step; [exact H|done|by apply IH|exact H1|..]; [done..|].
        intros w exp doc t Ht. left. by eapply Hold.
      + by apply Hidle.
  Qed.

  (** *** Published caches, without the expired hook *)
  Lemma objs_grow l s s' : ystep l s s' -> (length (y_objs K s) <= length (y_objs K s'))%nat.
  Proof. destruct 1; cbn [set_auth set_keys set_jwk set_fetch set_upd set_obj publish set_chk y_objs]; rewrite ?insert_length, ?app_length; lia. Qed.
  Lemma yrun_objs l1 l2 s1 s : yrun l1 s1 -> yrun (l1 ++ l2) s -> (length (y_objs K s1) <= length (y_objs K s))%nat.
  Proof.
    intros H1. revert s. induction l2 as [|l l2 IH] using rev_ind; intros s H.
    - rewrite app_nil_r in H. assert (s1 = s) as -> by (by eapply yrun_det). lia.
    - rewrite app_assoc in H. apply yrun_snoc in H as (s2 & H2 & Hs). apply IH in H2. apply objs_grow in Hs. lia.
  Qed.
  Lemma published_exists ls s m o : yrun ls s -> published_by ls m o -> (o < length (y_objs K s))%nat /\ (0 < o)%nat.
  Proof.
    intros Hr (l1 & s1 & s2 & [[l2 ->] H1] & Hs & Hn & Ho). split.
    - replace (l1 ++ YUpd K m UFinish :: l2) with ((l1 ++ [YUpd K m UFinish]) ++ l2) in Hr by (by rewrite <- app_assoc).
      assert (yrun (l1 ++ [YUpd K m UFinish]) s2) as H2 by (by econstructor).
      pose proof (yrun_objs _ _ _ _ H2 Hr). apply lookup_lt_is_Some in Ho. lia.
    - assert (0 < length (y_objs K s1))%nat as Hpos.
      { clear -H1. induction H1; [cbn; lia|]. apply objs_grow in H. lia. }
      apply lookup_ge_None in Hn. lia.
  Qed.
  Lemma ustep_returned l u u' : ustep U l u = Some u' -> u_ret u = Some (Ok tt) -> u_ret u' = Some (Ok tt) /\ u_cur u' = u_cur u.
  Proof.
    intros Hs Hr. destruct l as [| |i inp|]; cbn [ustep] in Hs; rewrite ?Hr in Hs; try done.
    - by injection Hs as <-.
    - case_decide; [|done]. destruct (cstep U (CWork i inp) (u_c u)); [|done]. by injection Hs as <-.
  Qed.
  Lemma view_delete t k (g : gache (list assertion)) : g_get t k g = None -> g_view t (delete k g) = g_view t g.
  Proof.
    intros H. apply map_eq. intros k'. rewrite !g_view_lookup. unfold g_get in *. destruct (decide (k = k')) as [<-|Hne].
    - by rewrite lookup_delete.
    - by rewrite lookup_delete_ne.
  Qed.
  Lemma get_later t t' k (g : gache (list assertion)) : t <= t' -> g_get t k g = None -> g_get t' k g = None.
  Proof.
    unfold g_get. intros Hle. destruct (g !! k) as [e|]; [|done]. unfold g_valid.
    destruct (Z.leb_spec (ge_exp e) 0), (Z.leb_spec t (ge_exp e)), (Z.leb_spec t' (ge_exp e)); cbn; try done. lia.
  Qed.
  Definition plain (s : sys) (m : nat) (c : cst) : Prop :=
    exists u, y_upd K s !! m = Some u /\ u_ret u = Some (Ok tt) /\ forall t, now s <= t -> g_view t (c_g c) = g_view t (u_cur u).
  Lemma published_snoc ls x m o s s' : yrun ls s -> ystep x s s' -> published_by (ls ++ [x]) m o ->
    published_by ls m o \/ (x = YUpd K m UFinish /\ y_objs K s !! o = None /\ is_Some (y_objs K s' !! o)).
  Proof.
    intros Hr Hs (l1 & s1 & s2 & Hh & H2 & Hn & Ho). destruct (happened_snoc _ _ _ _ _ _ _ Hr Hh) as [Hh'|(-> & -> & ->)].
    - left. by exists l1, s1, s2.
    - right. assert (s2 = s') as -> by (by eapply ystep_det). done.
  Qed.
  Lemma unhooked ls o : YHook K ∉ ls -> untouched ls o.
  Proof. intros H l1 s1 [[l2 ->] _]. exfalso. apply H. rewrite elem_of_app, elem_of_cons. auto. Qed.
  Lemma unhooked_checks ls i : YHook K ∉ ls -> check_untouched K X U parse cf s0 ls i.
  Proof. intros H x l2 s2 k [[l3 ->] _] _. apply unhooked. rewrite elem_of_app in H. tauto. Qed.
  Lemma untouched_prefix l1 l2 o : untouched (l1 ++ l2) o -> untouched l1 o.
  Proof. intros H a b [[c ->] Hb]. apply (H a b). split; [|done]. rewrite <- app_assoc. by eexists. Qed.
  Lemma untouched_last ls s o : yrun ls s -> untouched (ls ++ [YHook K]) o -> y_cur K s <> o.
  Proof. intros Hr H. apply (H ls s). split; [by eexists|done]. Qed.
  Lemma objects_ok ls s o : yrun ls s -> untouched ls o ->
    (forall c, y_objs K s !! o = Some c -> c_work c = []) /\
    (forall c m, y_objs K s !! o = Some c -> published_by ls m o -> plain s m c).
  Proof.
    intros H. induction H as [|ls l s s' H IH Hs]; intros Hh.
    - split; [intros c Ho; cbn in Ho; apply list_lookup_singleton_Some in Ho as [_ <-]; done|]. intros c m Ho (l1 & s1 & s2 & [[l2 Hl] _] & _). by destruct l1.
    - destruct IH as [IHw IHp]; [by eapply untouched_prefix|].
      assert (forall c m, y_objs K s !! o = Some c -> published_by (ls ++ [l]) m o -> plain s m c) as Hold.
      { intros c m Ho Hp. destruct (published_snoc _ _ _ _ _ _ H Hs Hp) as [Hp'|(_ & Hn & _)]; [by eapply IHp|congruence]. }
      assert (forall m c s', now s <= now s' -> y_upd K s' = y_upd K s -> plain s m c -> plain s' m c) as Hkeep.
      { intros m c s2 Hc Hu (u & H1 & H2 & H3). exists u. rewrite Hu. split_and!; try done. intros t Ht. apply H3. lia. }
      assert (forall m c k u u' l0, y_upd K s !! k = Some u -> ustep U l0 u = Some u' -> plain s m c -> plain (set_upd K k u' s) m c) as Hupd.
      { intros m c k u u' l0 Hk Hst (u0 & H1 & H2 & H3). destruct (decide (k = m)) as [->|Hne].
        - assert (u0 = u) as -> by congruence. destruct (ustep_returned _ _ _ Hst H2) as [Hr Hc]. exists u'. cbn.
          rewrite list_lookup_insert by (by eapply lookup_lt_Some). split_and!; try done. by rewrite Hc.
        - exists u0. cbn. rewrite list_lookup_insert_ne by done. done. }
      pose proof (ystep_clock _ _ _ Hs) as Hclk.
      destruct Hs; cbn [set_auth set_keys set_jwk set_fetch set_chk y_objs] in *;
        try (split; [exact IHw|]; intros c0 m' Ho Hp; (eapply Hkeep; [exact Hclk|done|by eapply Hold])).
      + split; [exact IHw|]. intros c m Ho Hp. eapply Hupd; [eassumption|eassumption|]. by eapply Hold.
      + split; [exact IHw|]. intros c0 m Ho Hp. eapply Hupd; [eassumption|eassumption|]. by eapply Hold.
      + split.
        * intros c Ho. cbn [publish y_objs set_upd] in Ho. apply lookup_app_Some in Ho as [Ho|[_ Ho]]; [by eapply IHw|].
          by apply list_lookup_singleton_Some in Ho as [_ <-].
        * intros c m Ho Hp. cbn [publish y_objs set_upd] in Ho. apply lookup_app_Some in Ho as [Ho|[Hge Ho]].
          -- pose proof (Hold _ _ Ho Hp) as Hpl. eapply Hupd in Hpl; [|exact H0|exact H1]. exact Hpl.
          -- apply list_lookup_singleton_Some in Ho as [Hz <-].
             destruct (published_snoc _ _ _ _ _ _ H (S_publish _ _ _ _ _ _ _ _ _ H0 H1 H2) Hp) as [Hp'|(Heq & _)].
             { apply (published_exists _ _ _ _ H) in Hp'. lia. }
             injection Heq as ->. exists u'. cbn [publish set_upd y_upd]. rewrite list_lookup_insert by (by eapply lookup_lt_Some). done.
      + pose proof (untouched_last _ _ _ H Hh) as Hne. split.
        * intros c0 Ho. cbn [set_obj y_objs] in Ho. rewrite list_lookup_insert_ne in Ho by done. by eapply IHw.
        * intros c0 m Ho Hp. cbn [set_obj y_objs] in Ho. rewrite list_lookup_insert_ne in Ho by done. eapply Hkeep; [exact Hclk|done|by eapply Hold].
      + split.
        * intros c0 Ho. apply list_lookup_insert_Some in Ho as [(-> & <- & _)|[_ Ho]]; [|by eapply IHw].
          destruct l as [i inp|k]; cbn [cstep] in H1; [by rewrite (IHw _ H0) in H1|]. injection H1 as <-. cbn [c_work]. by eapply IHw.
        * intros c0 m Ho Hp. apply list_lookup_insert_Some in Ho as [(-> & <- & _)|[_ Ho]].
          2:{ eapply Hkeep; [exact Hclk|done|by eapply Hold]. }
          destruct l as [i inp|k]; cbn [cstep] in H1; [by rewrite (IHw _ H0) in H1|]. injection H1 as <-.
          destruct (Hold _ _ H0 Hp) as (u & Hu1 & Hu2 & Hu3). exists u. split_and!; try done. cbn. intros t Ht.
          rewrite <- (Hu3 t Ht). apply view_delete. eapply get_later; [exact Ht|]. by apply H3.
      + split.
        * intros c0 Ho. apply list_lookup_insert_Some in Ho as [(-> & <- & _)|[_ Ho]]; [|by eapply IHw].
          cbn [cstep] in H3. by rewrite (IHw _ H0) in H3.
        * intros c0 m Ho Hp. apply list_lookup_insert_Some in Ho as [(-> & <- & _)|[_ Ho]].
          -- cbn [cstep] in H3. by rewrite (IHw _ H0) in H3.
          -- eapply Hkeep; [exact Hclk|done|by eapply Hold].
  Qed.

  (** A document an Update took denies the role in what it cached. *)
  Lemma update_denies uls u w j doc t domain action resource role : 
    urun U uls (uinit ∅ (length (s_f cf)) false) = Some u -> u_ret u = Some (Ok tt) ->
    disjoint_jobs (ufetched uls) -> timely (ufetched uls) (uticked uls) -> ufetched uls w j -> alive j t ->
    no_commas doc -> faithful_script U doc (j_script j) -> doc_denies U domain action resource doc role ->
    role_denies U domain action resource (g_view t (u_cur u)) role.
  Proof.
    intros H Hr Hdis Htime HF Hal Hnc Hfs Hd.
    assert (has_role j (key_of domain role)) as Hrole.
    { destruct Hd as (pol & r & Hp & Hrp & [Hrk _] & _).
      destruct (script_complete _ _ _ (faithful_script_of _ _ _ Hfs) pol r Hp Hrp) as (r' & Hr' & Hkm).
      destruct (script_sound _ _ _ (faithful_script_of _ _ _ Hfs) r' Hr') as (pol' & Hp' & Hrp').
      pose proof (Hnc _ _ Hp Hrp) as [? ?]. pose proof (Hnc _ _ Hp' Hrp') as [? ?].
      exists r'. split; [done|]. unfold key_of. rewrite <- Hrk. by apply km_inj. }
    destruct (update_entry _ _ _ _ _ _ t _ w j H Hr Hdis Htime HF Hrole Hal) as [Hokl Hget].
    apply (entry_meaning U domain action resource doc (j_script j)); try done.
    intros a. unfold holds_assertion. rewrite g_view_lookup, Hget. split.
    - intros (l & [= <-] & Ha). by apply elem_of_rlist.
    - intros Ha. eexists. split; [done|]. by apply elem_of_rlist.
  Qed.
  Lemma passed_published ls l1 s1 s m o : yrun ls s -> passed ls l1 s1 -> is_Some (y_objs K s1 !! o) -> published_by ls m o -> published_by l1 m o.
  Proof.
    intros Hr [[l2 ->] H1] Ho (a1 & b1 & b2 & [[a2 Heq] Ha] & Hs & Hn & Hsome).
    assert (exists x, l1 = a1 ++ YUpd K m UFinish :: x) as [x ->].
    { apply app_eq_inv in Heq as [(k & -> & Hk)|(k & -> & Hk)].
      - exists (tail k). destruct k as [|y k]; cbn in Hk.
        + exfalso. rewrite app_nil_r in H1. assert (b1 = s1) as -> by (by eapply yrun_det). rewrite Hn in Ho. by destruct Ho.
        + by injection Hk as -> _.
      - exfalso. assert (length (y_objs K s1) <= length (y_objs K b1))%nat as Hle by (by eapply yrun_objs).
        apply lookup_lt_is_Some in Ho. apply lookup_ge_None in Hn. lia. }
    exists a1, b1, b2. split; [split; [by exists x|done]|done].
  Qed.

  (** An Update that returned takes nothing more. *)
  Lemma returned_stays l1 l2 s1 s m u : yrun l1 s1 -> yrun (l1 ++ l2) s -> y_upd K s1 !! m = Some u -> u_ret u = Some (Ok tt) ->
    exists u', y_upd K s !! m = Some u' /\ u_ret u' = Some (Ok tt).
  Proof.
    intros H1. revert s. induction l2 as [|l l2 IH] using rev_ind; intros s H Hu Hr.
    - rewrite app_nil_r in H. assert (s1 = s) as -> by (by eapply yrun_det). eauto.
    - rewrite app_assoc in H. apply yrun_snoc in H as (s2 & H2 & Hs). destruct (IH _ H2 Hu Hr) as (u1 & Hu1 & Hr1).
      destruct Hs; try (by exists u1); cbn [set_upd publish y_upd]; (destruct (decide (n0 = m)) as [->|Hne];
        [rewrite list_lookup_insert by (by eapply lookup_lt_Some); eexists; split; [done|];
         match goal with Ha : ustep U _ ?x = Some ?y |- _ => assert (x = u1) as -> by congruence; by destruct (ustep_returned _ _ _ Ha Hr1) end
        |rewrite list_lookup_insert_ne by done; eauto]).
  Qed.
  Lemma took_before l1 l2 s1 s m u w exp doc t : yrun l1 s1 -> yrun (l1 ++ l2) s -> y_upd K s1 !! m = Some u -> u_ret u = Some (Ok tt) ->
    took (l1 ++ l2) m w exp doc t -> took l1 m w exp doc t.
  Proof.
    intros H1. revert s. induction l2 as [|l l2 IH] using rev_ind; intros s H Hu Hr Ht; [by rewrite app_nil_r in Ht|].
    rewrite app_assoc in H, Ht. pose proof H as (s2 & H2 & Hs)%yrun_snoc.
    destruct (took_snoc _ _ _ _ _ _ _ _ H2 Ht) as [Ht'|(c & script & -> & _)]; [by eapply IH|]. exfalso.
    destruct (returned_stays _ _ _ _ _ _ H1 H2 Hu Hr) as (u1 & Hu1 & Hr1).
    inversion Hs; subst. assert (u0 = u1) as -> by congruence.
    destruct (updates_ok _ _ H2 _ _ Hu1) as (uls & G1 & _).
    pose proof (urun_inv _ _ _ _ _ _ G1 (uinit_inv _ ∅ false)) as (_ & _ & _ & _ & _ & G6). destruct (G6 Hr1) as [_ Hall].
    match goal with Ha : ustep U (UWork w _) u1 = Some _ |- _ => cbn [ustep] in Ha; case_decide; [|done];
      destruct (cstep U (CWork w _) (u_c u1)) as [c0|] eqn:E; [|done] end.
    cbn [cstep] in E. destruct (c_work (u_c u1) !! w) as [x|] eqn:Hw; [|done]. destruct (Hall _ _ Hw) as [j ->]. done.
  Qed.

  (** *** The two halves for one check *)
  Lemma view_allows ls k acc : chk_view ls k -> returned (k_st k) (Ok acc) ->
    acc <> [] /\ forall role, role ∈ acc -> role ∈ k_roles k /\
      exists d sp exp doc, downloaded ls d sp /\ content sp exp doc /\ doc_allows U (k_dom k) (k_act k) (k_res k) doc role.
  Proof.
    intros (c0 & kls & Hrun & Hv) Hret.
    destruct (success_refresh _ _ _ _ _ _ _ _ _ _ Hrun Hret) as [Hne Hall]. split; [done|]. intros role Hin.
    destruct (Hall _ Hin) as [Hin' (cc & Hcc & a & (l & Hl & Ha) & Hhit & Hal)]. split; [done|].
    destruct (Hv _ Hcc) as (l1 & s1 & obj & [[l2 ->] Hp] & Hobj & ->). rewrite g_view_lookup in Hl. apply g_get_Some in Hl as [e He].
    destruct (caches_ok _ _ Hp) as [_ Ho]. destruct (Ho _ _ Hobj) as [[_ Hg] _]. destruct (Hg _ _ He) as [Hsrc _].
    destruct (Hsrc a Ha) as [(e' & He' & _)|(w & j & r & (d & sp & doc & Hd & Hc & Hs) & Hr' & Hk' & Hconv)]; [by rewrite lookup_empty in He'|].
    exists d, sp, (j_exp j), doc. split; [by apply downloaded_mono|]. split; [done|].
    destruct (script_sound _ _ _ Hs r Hr') as (pol & Hpol & Hrp). exists pol, r. split_and!; [done..| |].
    - by apply (conv_hits U _ _ _ r a).
    - intros Hx. apply (conv_effect U r a Hconv) in Hx. by apply Hx.
  Qed.
  Lemma view_denies ls s k acc m : yrun ls s -> 0 < t0 -> chk_view ls k -> returned (k_st k) (Ok acc) ->
    untouched ls (k_obj k) -> published_by ls m (k_obj k) ->
    (forall w exp doc t, took ls m w exp doc t -> no_commas doc /\ no_cross_conflict U doc /\
       (exp <= t \/ now s <= exp /\ 2 * exp <= max_int64)) ->
    (forall w w' exp exp' doc doc' t t' pol pol' r r', took ls m w exp doc t -> took ls m w' exp' doc' t' ->
       pol ∈ doc -> r ∈ pol -> pol' ∈ doc' -> r' ∈ pol' -> r_role r = r_role r' -> w = w') ->
    forall w exp doc t role, took ls m w exp doc t -> role ∈ k_roles k -> ~ doc_denies U (k_dom k) (k_act k) (k_res k) doc role.
  Proof.
    intros Hr Ht0 (c0 & kls & Hrun & Hv) Hret Hh Hpub Hwf Hdisj w exp doc t role Htk Hrole Hden.
    destruct (deny_never_ok _ _ _ _ _ _ _ _ _ _ role Hrun Hret Hrole) as [e He]; [|done]. intros cc Hcc.
    destruct (Hv _ Hcc) as (l1 & s1 & obj & Hpass & Hobj & ->).
    pose proof (passed_published _ _ _ _ _ _ Hr Hpass ltac:(by eexists) Hpub) as Hpub1.
    pose proof (passed_clock _ _ _ _ _ Hpass Hr) as Hclk. pose proof Hpass as [[l2 ->] Hr1].
    pose proof (untouched_prefix _ _ _ Hh) as Hh1.
    destruct (objects_ok _ _ _ Hr1 Hh1) as [_ Hplain]. destruct (Hplain _ _ Hobj Hpub1) as (u & Hu & Hret1 & Hview).
    destruct (updates_ok _ _ Hr1 _ _ Hu) as (uls & H1 & H2 & H3 & H4 & _). rewrite Hview by done.
    split.
    { apply view_deny_first. pose proof (urun_inv _ _ _ _ _ _ H1 (uinit_inv _ ∅ false)) as (_ & _ & _ & _ & _ & H6).
      destruct (H6 Hret1) as [-> _]. destruct (caches_ok _ _ Hr1) as [Hcu _]. by destruct (Hcu _ _ Hu) as [_ [? _]]. }
    assert (forall w exp doc t, took l1 m w exp doc t -> took (l1 ++ l2) m w exp doc t) as Hmono by (intros; by apply took_mono).
    (* the document was taken before the Update returned *)
    assert (exists j, ufetched uls w j /\ j_exp j = exp /\ j_now j = t /\ script_of U doc (j_script j)) as (j & HF & <- & <- & Hs).
    { pose proof (took_before _ _ _ _ _ _ _ _ _ _ Hr1 Hr Hu Hret1 Htk) as Htk1.
      destruct (H3 _ _ _ _ Htk1) as (script & HF & Hs). by exists (Job exp t script). }
    destruct (Hwf _ _ _ _ Htk) as (Hnc & Hncc & Hfr). eapply update_denies; try done.
    - intros w1 w2 j1 j2 k' HF1 HF2 (r1 & Hr1' & Hk1) (r2 & Hr2 & Hk2).
      destruct (H2 _ _ HF1) as (doc1 & Htk1 & Hs1). destruct (H2 _ _ HF2) as (doc2 & Htk2 & Hs2).
      destruct (script_sound _ _ _ Hs1 _ Hr1') as (pol1 & ? & ?). destruct (script_sound _ _ _ Hs2 _ Hr2) as (pol2 & ? & ?).
      eapply (Hdisj w1 w2); [by apply Hmono|by apply Hmono|done..|congruence].
    - intros w1 j1 t1 HF1 HT1. destruct (H2 _ _ HF1) as (doc1 & Htk1 & _). destruct (H4 _ _ HT1) as [Hle Hj].
      specialize (Hj _ HF1). destruct (took_clock _ _ _ _ _ _ _ Hr1 Htk1) as [? _].
      destruct (Hwf _ _ _ _ (Hmono _ _ _ _ Htk1)) as (_ & _ & [?|[? ?]]); [by left|right]. lia.
    - destruct Hfr as [?|[? ?]]; [by left|right; lia].
    - destruct Hs as (sls & ss & ? & ? & ?). exists sls, ss. split_and!; try done. by left.
  Qed.
  (** A check that accepts without hooks went by a published cache, of a successful Update that took
      a signed document for every domain. *)
  Lemma object_origin ls s o c : yrun ls s -> untouched ls o -> y_objs K s !! o = Some c ->
    (o = 0%nat /\ c_g c = ∅) \/ exists m, published_by ls m o.
  Proof.
    intros H. revert o c. induction H as [|ls l s s' H IH Hs]; intros o c Hh Ho.
    - left. cbn in Ho. apply list_lookup_singleton_Some in Ho as [-> <-]. done.
    - pose proof (untouched_prefix _ _ _ Hh) as Hh1.
      destruct (y_objs K s !! o) as [c1|] eqn:Eo.
      + destruct (IH o c1) as [[-> Hc]|[m Hm]]; [done|done| |right; exists m; by apply published_mono]. left. split; [done|].
        assert (c_work c1 = []) as Hw by (eapply objects_ok; [exact H|exact Hh1|exact Eo]).
        destruct Hs; cbn [set_auth set_keys set_jwk set_fetch set_upd set_obj publish set_chk y_objs] in Ho; try congruence.
        * apply lookup_app_Some in Ho as [Ho|[Hge Ho]]; [congruence|]. apply lookup_lt_Some in Eo. lia.
        * rewrite list_lookup_insert_ne in Ho by (by eapply untouched_last). congruence.
        * apply list_lookup_insert_Some in Ho as [(-> & <- & _)|[_ Ho]]; [|congruence]. assert (c0 = c1) as -> by congruence.
          destruct l as [i inp|k]; cbn [cstep] in H1; [by rewrite Hw in H1|]. injection H1 as <-. cbn. rewrite Hc. apply delete_empty.
        * apply list_lookup_insert_Some in Ho as [(-> & <- & _)|[_ Ho]]; [|congruence]. assert (c0 = c1) as -> by congruence.
          cbn [cstep] in H3. by rewrite Hw in H3.
      + right. destruct Hs; cbn [set_auth set_keys set_jwk set_fetch set_upd set_obj publish set_chk y_objs] in Ho; try congruence.
        * exists n0. eexists ls, s, _. split; [by apply happened_last|]. split; [by eapply S_publish|]. split; [done|]. cbn. by eexists.
        * rewrite list_lookup_insert_ne in Ho by (by eapply untouched_last). congruence.
        * apply list_lookup_insert_Some in Ho as [(-> & <- & _)|[_ Ho]]; congruence.
        * apply list_lookup_insert_Some in Ho as [(-> & <- & _)|[_ Ho]]; congruence.
  Qed.
  Lemma took_downloaded ls m w exp doc t : took ls m w exp doc t -> exists sp, downloaded ls w sp /\ content sp exp doc.
  Proof.
    intros (c & script & l1 & s1 & [[l2 ->] H1] & Ha & _). destruct (answer_downloaded _ _ _ _ _ _ H1 Ha) as (sp & Hd & Hc).
    exists sp. split; [by apply downloaded_mono|done].
  Qed.
  Lemma view_cache ls s k acc : yrun ls s -> chk_view ls k -> returned (k_st k) (Ok acc) -> untouched ls (k_obj k) ->
    exists m, published_by ls m (k_obj k) /\
      forall w, (w < length (s_f cf))%nat -> exists exp doc t sp, took ls m w exp doc t /\ downloaded ls w sp /\ content sp exp doc.
  Proof.
    intros Hr (c0 & kls & Hrun & Hv) Hret Hh.
    destruct (success_refresh _ _ _ _ _ _ _ _ _ _ Hrun Hret) as [Hne Hall].
    destruct acc as [|role acc]; [done|]. destruct (Hall role ltac:(left)) as [_ (cc & Hcc & a & (l & Hl & Ha) & _)].
    destruct (Hv _ Hcc) as (l1 & s1 & obj & [[l2 ->] Hr1] & Hobj & ->). rewrite g_view_lookup in Hl. apply g_get_Some in Hl as [e He].
    pose proof (untouched_prefix _ _ _ Hh) as Hh1.
    destruct (object_origin _ _ _ _ Hr1 Hh1 Hobj) as [[_ Hem]|[m Hm]]; [by rewrite Hem, lookup_empty in He|].
    exists m. split; [by apply published_mono|]. intros w Hw.
    destruct (objects_ok _ _ _ Hr1 Hh1) as [_ Hplain]. destruct (Hplain _ _ Hobj Hm) as (u & Hu & Hret1 & _).
    destruct (updates_ok _ _ Hr1 _ _ Hu) as (uls & H1 & H2 & _).
    destruct (update_all_or_nothing _ _ _ _ _ _ H1) as [_ Hok]. destruct (Hok Hret1) as [Hf _]. destruct (Hf w Hw) as [j Hj].
    destruct (H2 _ _ Hj) as (doc & Htk & _). destruct (took_downloaded _ _ _ _ _ _ Htk) as (sp & Hd & Hc).
    exists (j_exp j), doc, (j_now j), sp. split; [by apply took_mono|]. split; [by apply downloaded_mono|done].
  Qed.
  (** The same for the check of an authorize call. *)
  Lemma check_allows ls s i k acc : yrun ls s -> y_chk K s !! i = Some (Some k) -> returned (k_st k) (Ok acc) ->
    acc <> [] /\ forall role, role ∈ acc -> role ∈ k_roles k /\
      exists d sp exp doc, downloaded ls d sp /\ content sp exp doc /\ doc_allows U (k_dom k) (k_act k) (k_res k) doc role.
  Proof. intros Hr Hk. destruct (checks_ok _ _ Hr _ _ Hk) as [Hv _]. by apply view_allows. Qed.
  Lemma check_denies ls s i k acc m : yrun ls s -> 0 < t0 -> y_chk K s !! i = Some (Some k) -> returned (k_st k) (Ok acc) ->
    untouched ls (k_obj k) -> published_by ls m (k_obj k) ->
    (forall w exp doc t, took ls m w exp doc t -> no_commas doc /\ no_cross_conflict U doc /\
       (exp <= t \/ now s <= exp /\ 2 * exp <= max_int64)) ->
    (forall w w' exp exp' doc doc' t t' pol pol' r r', took ls m w exp doc t -> took ls m w' exp' doc' t' ->
       pol ∈ doc -> r ∈ pol -> pol' ∈ doc' -> r' ∈ pol' -> r_role r = r_role r' -> w = w') ->
    forall w exp doc t role, took ls m w exp doc t -> role ∈ k_roles k -> ~ doc_denies U (k_dom k) (k_act k) (k_res k) doc role.
  Proof. intros Hr Ht0 Hk. destruct (checks_ok _ _ Hr _ _ Hk) as [Hv _]. by apply (view_denies ls s k acc m). Qed.
  Lemma check_cache ls s i k acc : yrun ls s -> y_chk K s !! i = Some (Some k) -> returned (k_st k) (Ok acc) -> untouched ls (k_obj k) ->
    exists m, published_by ls m (k_obj k) /\
      forall w, (w < length (s_f cf))%nat -> exists exp doc t sp, took ls m w exp doc t /\ downloaded ls w sp /\ content sp exp doc.
  Proof. intros Hr Hk. destruct (checks_ok _ _ Hr _ _ Hk) as [Hv _]. by apply (view_cache ls s k acc). Qed.
End facts.
