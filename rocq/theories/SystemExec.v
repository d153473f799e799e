(** * Running the whole system
    An executable scheduler for [ystep], used by the examples: a command names the part that goes
    on, the rest of the label is computed from the state. *)
From Verif Require Import SystemFacts.
From Verif Require Import GoStrings.

Section exec.
  Context (K : crypto) (X : jwt_ext) {O : Type} (U : unicode) (parse : str -> option (verifier K)).
  Context (cf : @sconf O).
  Notation ylabel := (@ylabel K O).
  Notation sys := (sys K).
  Notation ystep := (ystep K X U parse cf).

  Inductive cmd :=
  | DTick (t : time) | DCall (i : nat) (q : request) | DLook (i : nat) | DParse (i : nat) | DTrans (i : nat) (o : O)
  | DPolicy (i : nat) | DStore (i : nat)
  | DKey (l : plabel) | DJwk (l : @jlabel key) | DSend (d i : nat) | DReply (d i : nat) (r : response signed_policy)
  | DSpawn (n : nat) | DTake (n w c : nat) | DWork (n w : nat) | DFinish (n : nat)
  | DHook | DObjTake (o w d c : nat) (back : bool) | DObjWork (o w : nat)
  | DLoad (i : nat) | DChk (i : nat) (l : PolicyCheck.label).

  (** Phase 1 without interleaving: one policy after the other. *)
  Fixpoint phase1 (ls : list slabel) (fuel i : nat) (s : sst) : list slabel * sst :=
    match fuel with
    | 0%nat => (ls, s)
    | S fuel =>
        match ss_work s !! i with
        | Some (SDone _) => phase1 ls fuel (S i) s
        | _ => match sstep U (SWork i) s with Some s' => phase1 (ls ++ [SWork i]) fuel i s' | None => (ls, s) end
        end
    end.
  Definition all_done (s : sst) : bool := forallb (fun w => match w with SDone None => true | _ => false end) (ss_work s).
  Definition script (doc : document) : option (list raw) :=
    let s := snd (phase1 [] 1000 0 (sinit doc false)) in
    if all_done s then Some ((map_to_list (ss_map s)).*2) else None.

  Definition zexec (l : @zlabel K O) (s : sys) : option (ylabel * sys) :=
    match zstep K X (s_z cf) l (y_auth K s) with Some z => Some (YAuth K l, set_auth K z s) | None => None end.

  Definition yexec (c : cmd) (s : sys) : option (ylabel * sys) :=
    match c with
    | DTick t => zexec (ZTick K t) s
    | DCall i q => zexec (ZCall K i q) s
    | DLook i => zexec (ZLook K i) s
    | DParse i => zexec (ZParse K i (keys_now K cf s)) s
    | DTrans i o => zexec (ZTrans K i o) s
    | DStore i => zexec (ZStore K i) s
    | DPolicy i =>
        match y_chk K s !! i with
        | Some (Some k) => match s_main (k_st k) with MDone r => zexec (ZPolicy K i r) s | _ => None end
        | _ => None
        end
    | DKey l =>
        match pstep parse (s_p cf) l (y_keys K s) with
        | Some k => if bool_decide (key_time l = None \/ key_time l = Some (now K s)) then Some (YKey K l, set_keys K k s) else None
        | None => None
        end
    | DJwk l => match jstep (s_j cf) l (y_jwk K s) with Some j => Some (YJwk K l, set_jwk K j s) | None => None end
    | DSend d i =>
        match s_f cf !! d, y_fetch K s !! d with
        | Some fc, Some f => match fstep K fc (FBegin i (now K s)) f with Some f' => Some (YSend K d i, set_fetch K d f' s) | None => None end
        | _, _ => None
        end
    | DReply d i r =>
        match s_f cf !! d, y_fetch K s !! d with
        | Some fc, Some f =>
            match fstep K fc (FResp i r (now K s) (get_pub_key (y_keys K s))) f with Some f' => Some (YReply K d i r, set_fetch K d f' s) | None => None end
        | _, _ => None
        end
    | DSpawn n =>
        match y_upd K s !! n with
        | Some u => match ustep U USpawn u with Some u' => Some (YUpd K n USpawn, set_upd K n u' s) | None => None end
        | None => None
        end
    | DTake n w c =>
        match y_upd K s !! n, answer_of K s w c with
        | Some u, Some (exp, doc) =>
            match script doc with
            | Some sc =>
                match ustep U (UWork w (IFetch (Ok (Job exp (now K s) sc)))) u with
                | Some u' => Some (YTake K n w c sc, set_upd K n u' s)
                | None => None
                end
            | None => None
            end
        | _, _ => None
        end
    | DWork n w =>
        match y_upd K s !! n with
        | Some u => match ustep U (UWork w (ITime (now K s))) u with Some u' => Some (YUpd K n (UWork w (ITime (now K s))), set_upd K n u' s) | None => None end
        | None => None
        end
    | DFinish n =>
        match y_upd K s !! n with
        | Some u =>
            match ustep U UFinish u with
            | Some u' => match u_ret u' with Some (Ok _) => Some (YUpd K n UFinish, publish K (CSt (u_cur u') []) (set_upd K n u' s)) | _ => None end
            | None => None
            end
        | None => None
        end
    | DHook =>
        match y_objs K s !! y_cur K s with
        | Some c => Some (YHook K, set_obj K (y_cur K s) (CSt (c_g c) (c_work c ++ [PolicySimplify.CIdle])) s)
        | None => None
        end
    | DObjTake o w d c rv =>
        match y_objs K s !! o, answer_of K s d c with
        | Some ob, Some (exp, doc) =>
            match script doc with
            | Some sc0 => let sc := if rv then rev sc0 else sc0 in
                match cstep U (CWork w (IFetch (Ok (Job exp (now K s) sc)))) ob with
                | Some ob' => Some (YObjTake K o w d c sc, set_obj K o ob' s)
                | None => None
                end
            | None => None
            end
        | _, _ => None
        end
    | DObjWork o w =>
        match y_objs K s !! o with
        | Some ob => match cstep U (CWork w (ITime (now K s))) ob with Some ob' => Some (YObj K o (CWork w (ITime (now K s))), set_obj K o ob' s) | None => None end
        | None => None
        end
    | DLoad i =>
        match z_tasks (y_auth K s) !! i, y_chk K s !! i, y_objs K s !! y_cur K s with
        | Some (CCheck q p a r), Some None, Some c =>
            Some (YLoad K i, set_chk K i (Chk (y_cur K s) (pr_domain p) (pr_roles p) a r (start (pr_roles p) (g_view (now K s) (c_g c)) false)) s)
        | _, _, _ => None
        end
    | DChk i l =>
        match y_chk K s !! i with
        | Some (Some k) =>
            match y_objs K s !! k_obj k with
            | Some c =>
                if check_label l then
                  match run U (k_dom k) (k_roles k) (k_act k) (k_res k) [EnvMutate 0%nat (g_view (now K s) (c_g c)); l] (k_st k) with
                  | Some c' => Some (YChk K i l, set_chk K i (Chk (k_obj k) (k_dom k) (k_roles k) (k_act k) (k_res k) c') s)
                  | None => None
                  end
                else None
            | None => None
            end
        | _ => None
        end
    end.

  Lemma srun_app l1 l2 s : srun U (l1 ++ l2) s = match srun U l1 s with Some s' => srun U l2 s' | None => None end.
  Proof. revert s. induction l1 as [|l l1 IH]; intros s; cbn [srun app]; [done|]. destruct (sstep U l s); [apply IH|done]. Qed.
  Lemma phase1_sound doc fuel ls i s ls' s' : srun U ls (sinit doc false) = Some s -> phase1 ls fuel i s = (ls', s') ->
    srun U ls' (sinit doc false) = Some s'.
  Proof.
    revert ls i s. induction fuel as [|fuel IH]; intros ls i s H; cbn [phase1]; [by intros [= <- <-]|].
    assert (forall l s1, sstep U l s = Some s1 -> srun U (ls ++ [l]) (sinit doc false) = Some s1) as Happ.
    { intros l s1 Hs. rewrite srun_app, H. cbn [srun]. by rewrite Hs. }
    destruct (ss_work s !! i) as [[| |]|]; try (destruct (sstep U (SWork i) s) as [s1|] eqn:E; [apply IH; by apply Happ|by intros [= <- <-]]).
    by apply IH.
  Qed.
  Lemma script_sound doc sc : script doc = Some sc -> script_of U doc sc.
  Proof.
    unfold script. destruct (phase1 [] 1000 0 (sinit doc false)) as [ls s] eqn:E. cbn [snd].
    destruct (all_done s) eqn:Ed; [|done]. intros [= <-]. exists ls, s. split; [by apply (phase1_sound doc 1000 [] 0 (sinit doc false))|]. split; [|done].
    unfold all_done in Ed. rewrite forallb_forall in Ed. apply Forall_forall. intros w Hw%elem_of_list_In. specialize (Ed _ Hw).
    by destruct w as [| |[|]].
  Qed.
  Lemma script_rev doc sc : script_of U doc sc -> script_of U doc (rev sc).
  Proof. intros (ls & s & H1 & H2 & H3). exists ls, s. split; [done|]. split; [done|]. by rewrite <- Permutation_rev. Qed.

  Theorem yexec_sound c s l s' : yexec c s = Some (l, s') -> ystep l s s'.
  Proof.
    assert (forall zl, auth_ok K cf s zl -> zexec zl s = Some (l, s') -> ystep l s s') as Hz.
    { intros zl Hok. unfold zexec. destruct (zstep _ _ _ _ _) as [z|] eqn:E; [|done]. intros [= <- <-]. by apply S_auth. }
    destruct c; cbn [yexec]; intros H; try (by eapply Hz; [|exact H]).
    - destruct (y_chk K s !! i) as [[k|]|] eqn:E; try done. destruct (s_main (k_st k)) as [| |r] eqn:Em; try done.
      apply (Hz (ZPolicy K i r)); [|done]. by exists k.
    - destruct (pstep _ _ _ _) as [k|] eqn:E; [|done]. case_bool_decide as Ht; [|done]. injection H as <- <-. apply S_key; [done|].
      intros t Hk. destruct Ht as [Ht|Ht]; congruence.
    - destruct (jstep _ _ _) as [j|] eqn:E; [|done]. injection H as <- <-. by apply S_jwk.
    - destruct (s_f cf !! d) as [fc|] eqn:E1; [|done]. destruct (y_fetch K s !! d) as [f|] eqn:E2; [|done].
      destruct (fstep _ _ _ _) as [f'|] eqn:E; [|done]. injection H as <- <-. by eapply S_send.
    - destruct (s_f cf !! d) as [fc|] eqn:E1; [|done]. destruct (y_fetch K s !! d) as [f|] eqn:E2; [|done].
      destruct (fstep _ _ _ _) as [f'|] eqn:E; [|done]. injection H as <- <-. by eapply S_reply.
    - destruct (y_upd K s !! n) as [u|] eqn:E1; [|done]. destruct (ustep _ _ _) as [u'|] eqn:E; [|done]. injection H as <- <-. by eapply S_upd.
    - destruct (y_upd K s !! n) as [u|] eqn:E1; [|done]. destruct (answer_of K s w c) as [[exp doc]|] eqn:E2; [|done].
      destruct (script doc) as [sc|] eqn:E3; [|done]. destruct (ustep _ _ _) as [u'|] eqn:E; [|done]. injection H as <- <-.
      eapply S_take; [done|done|by apply script_sound|done].
    - destruct (y_upd K s !! n) as [u|] eqn:E1; [|done]. destruct (ustep _ _ _) as [u'|] eqn:E; [|done]. injection H as <- <-.
      eapply S_upd; [done|done| |done]. by intros ? ? [= <- <-].
    - destruct (y_upd K s !! n) as [u|] eqn:E1; [|done]. destruct (ustep _ _ _) as [u'|] eqn:E; [|done].
      destruct (u_ret u') as [[[]| |]|] eqn:Er; try done. injection H as <- <-. by eapply S_publish.
    - destruct (y_objs K s !! y_cur K s) as [c|] eqn:E1; [|done]. injection H as <- <-. by apply S_hook.
    - destruct (y_objs K s !! o) as [u|] eqn:E1; [|done]. destruct (answer_of K s d c) as [[exp doc]|] eqn:E2; [|done].
      destruct (script doc) as [sc|] eqn:E3; [|done]. destruct (cstep _ _ _) as [u'|] eqn:E; [|done]. injection H as <- <-.
      eapply S_objtake; [done|done| |done]. apply script_sound in E3. destruct back; [by apply script_rev|done].
    - destruct (y_objs K s !! o) as [u|] eqn:E1; [|done]. destruct (cstep _ _ _) as [u'|] eqn:E; [|done]. injection H as <- <-.
      eapply S_obj; [done|done| |done]. by intros ? ? [= <- <-].
    - destruct (z_tasks (y_auth K s) !! i) as [[]|] eqn:E1; try done. destruct (y_chk K s !! i) as [[]|] eqn:E2; try done.
      destruct (y_objs K s !! y_cur K s) as [c|] eqn:E3; [|done]. injection H as <- <-. by eapply S_load.
    - destruct (y_chk K s !! i) as [[k|]|] eqn:E2; try done. destruct (y_objs K s !! k_obj k) as [c|] eqn:E3; [|done].
      destruct (check_label l0) eqn:E4; [|done]. destruct (run _ _ _ _ _ _ _) as [c'|] eqn:E; [|done]. injection H as <- <-. by eapply S_chk.
  Qed.

  (** Running commands, keeping each label with the state it was taken in, newest first. *)
  Fixpoint drive (cs : list cmd) (acc : list (ylabel * sys)) (s : sys) : option (list (ylabel * sys) * sys) :=
    match cs with
    | [] => Some (acc, s)
    | c :: cs => match yexec c s with Some (l, s') => drive cs ((l, s) :: acc) s' | None => None end
    end.
  Context (s0 : sys).
  Notation yrun := (yrun K X U parse cf s0).
  (** [tr] is the trace of the run. *)
  Definition traced (tr : list (ylabel * sys)) (s : sys) : Prop :=
    yrun (rev tr.*1) s /\ forall l l1 s1, happened K X U parse cf s0 (rev tr.*1) l l1 s1 -> (l, s1) ∈ tr.
  Lemma drive_traced cs tr tr' s s' : drive cs tr s = Some (tr', s') -> traced tr s -> traced tr' s'.
  Proof.
    revert tr s. induction cs as [|c cs IH]; intros tr s; cbn [drive]; [by intros [= <- <-]|].
    destruct (yexec c s) as [[l s1]|] eqn:E; [|done]. intros H [H1 H2]. apply (IH _ _ H). split.
    - cbn [fmap list_fmap rev fst]. apply (Y_snoc _ _ _ _ _ _ _ _ _ _ H1). by apply (yexec_sound c).
    - cbn [fmap list_fmap rev fst]. intros l' l1 s2 Hh. destruct (happened_snoc K X U parse cf s0 _ _ _ _ _ _ H1 Hh) as [Hh1|(-> & -> & ->)].
      + right. by eapply H2.
      + left.
  Qed.
  Lemma drive_run cs tr s : drive cs [] s0 = Some (tr, s) -> traced tr s.
  Proof.
    intros H. apply (drive_traced _ _ _ _ _ H). split; [apply Y_nil|]. intros l l1 s1 [[l2 Hl] _]. by destruct l1.
  Qed.

  (** The documents the Updates took. *)
  Definition takes (tr : list (ylabel * sys)) : list (nat * nat * time * document * time) :=
    omap (fun '(l, s) => match l with
      | YTake _ n w c _ => match answer_of K s w c with Some (exp, doc) => Some (n, w, exp, doc, now K s) | None => None end
      | _ => None end) tr.
  Lemma took_in tr s n w exp doc t : traced tr s -> took K X U parse cf s0 (rev tr.*1) n w exp doc t -> (n, w, exp, doc, t) ∈ takes tr.
  Proof.
    intros [_ H] (c & sc & l1 & s1 & Hh & Ha & <-). apply elem_of_list_omap. exists (YTake K n w c sc, s1). split; [by apply H with l1|].
    cbn. by rewrite Ha.
  Qed.
  Definition hooks (tr : list (ylabel * sys)) : bool := existsb (fun '(l, _) => match l with YHook _ => true | _ => false end) tr.
  Lemma hooks_none tr : hooks tr = false -> YHook K ∉ rev tr.*1.
  Proof.
    intros H Hin. rewrite elem_of_list_In, <- in_rev, <- elem_of_list_In in Hin. apply elem_of_list_fmap in Hin as ([l s] & Hl & Hin). cbn in Hl. subst l.
    apply not_true_iff_false in H. apply H. apply existsb_exists. exists (YHook K, s). split; [by apply elem_of_list_In|done].
  Qed.
End exec.
