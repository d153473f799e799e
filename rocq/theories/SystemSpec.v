(** * What an execution of the whole system shows *)
From Verif Require Export System FetcherFacts AuthorizerFacts PolicySimplifySpec RoleSpec.

Section spec.
  Context (K : crypto) (X : jwt_ext) {O : Type} (U : unicode) (parse : str -> option (verifier K)).
  Context (cf : @sconf O) (s0 : sys K).
  Notation ylabel := (@ylabel K O).
  Notation yrun := (yrun K X U parse cf s0).

  (** The execution [ls] passed through state [s1], after [l1]. *)
  Definition passed (ls l1 : list ylabel) (s1 : sys K) : Prop := (exists l2, ls = l1 ++ l2) /\ yrun l1 s1.
  (** Step [l] was taken in state [s1], after [l1]. *)
  Definition happened (ls : list ylabel) (l : ylabel) (l1 : list ylabel) (s1 : sys K) : Prop :=
    (exists l2, ls = l1 ++ l :: l2) /\ yrun l1 s1.

  (** The ZTS ([z = true]) or ZMS key list served to the daemon had key [id] with verifier [v]. *)
  Definition key_published (ls : list ylabel) (z : bool) (id : str) (v : verifier K) : Prop :=
    exists i etag kl t key, YKey K (PResp i (Response 200 etag (Doc kl)) t) ∈ ls /\ Nat.even i = z /\
      Some (id, key) ∈ kl /\ parse key = Some v.
  (** A policy unexpired at [t], with good signatures under published keys of ZTS and ZMS. *)
  Definition properly_signed (ls : list ylabel) (t : time) (sp : signed_policy) : Prop :=
    exists d e v m v' m',
      sp_data sp = Some d /\ sd_expires d = Some e /\ t < e /\
      key_published ls true (sp_key sp) v /\ marshal_spd K d = Some m /\ vfy K v m (sp_sig sp) = true /\
      key_published ls false (sd_zms_key d) v' /\ marshal_pd K (sd_policy d) = Some m' /\
      vfy K v' m' (sd_zms_sig d) = true.
  (** [sp] was downloaded by the fetcher of domain [d] and was properly signed at that moment. *)
  Definition downloaded (ls : list ylabel) (d : nat) (sp : signed_policy) : Prop :=
    exists i etag l1 s1, happened ls (YReply K d i (Response 200 etag (Doc sp))) l1 s1 /\ properly_signed l1 (now K s1) sp.
  (** The assertions of [sp] by policy, and its expiry. *)
  Definition content (sp : signed_policy) (exp : time) (doc : document) : Prop :=
    exists d p, sp_data sp = Some d /\ sd_expires d = Some exp /\ sd_policy d = Some p /\ pd_policies p = written doc.
  (** Update [n] got document [doc], expiring at [exp], for domain [w] at time [t]. *)
  Definition took (ls : list ylabel) (n w : nat) (exp : time) (doc : document) (t : time) : Prop :=
    exists c script l1 s1, happened ls (YTake K n w c script) l1 s1 /\ answer_of K s1 w c = Some (exp, doc) /\ now K s1 = t.
  (** The cache with index [o] is the one Update [n] published. *)
  Definition published_by (ls : list ylabel) (n o : nat) : Prop :=
    exists l1 s1 s2, happened ls (YUpd K n UFinish) l1 s1 /\ ystep K X U parse cf (YUpd K n UFinish) s1 s2 /\
      y_objs K s1 !! o = None /\ is_Some (y_objs K s2 !! o).
  (** No hook was started while the cache with index [o] was the one in use: nothing was filled into it
      after it was published. *)
  Definition untouched (ls : list ylabel) (o : nat) : Prop :=
    forall l1 s1, happened ls (YHook K) l1 s1 -> y_cur K s1 <> o.
  (** The policy check of call [i], when it answered, had gone by a cache that no hook was started on. *)
  Definition check_untouched (ls : list ylabel) (i : nat) : Prop :=
    forall x l2 s2 k, happened ls (YAuth K (ZPolicy K i x)) l2 s2 -> y_chk K s2 !! i = Some (Some k) -> untouched l2 (k_obj k).
  (** Every policy check that accepted a call went by a cache that no hook had been started on. *)
  Definition grants_untouched (ls : list ylabel) : Prop :=
    forall j acc l2 s2 k, happened ls (YAuth K (ZPolicy K j (Ok acc))) l2 s2 -> y_chk K s2 !! j = Some (Some k) -> untouched l2 (k_obj k).
End spec.
