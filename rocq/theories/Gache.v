(** * kpango/gache v1.2.8, the cache library (third party; semantics trusted)

    An entry stores a value and an expiry in nanoseconds since the Unix epoch.
    An entry is valid iff its expiry is <= 0 ("no expiry") or not in the past.
    SetWithExpire with a positive duration stores now + duration, otherwise it
    stores the (non-positive) duration itself. *)
From Verif Require Export Base.

Record gentry (V : Type) := GEntry { ge_val : V; ge_exp : Z }.
Arguments GEntry {V} _ _.
Arguments ge_val {V} _.
Arguments ge_exp {V} _.
Notation gache V := (gmap str (gentry V)).

Definition g_valid {V} (now : time) (e : gentry V) : bool := (ge_exp e <=? 0) || (now <=? ge_exp e).

(** Get: only valid entries are returned (an expired one is deleted, which no
    later Get can observe because the clock does not go back). *)
Definition g_get {V} (now : time) (k : str) (g : gache V) : option V :=
  match g !! k with
  | Some e => if g_valid now e then Some (ge_val e) else None
  | None => None
  end.

(** SetWithExpire *)
Definition g_set {V} (now : time) (k : str) (v : V) (d : duration) (g : gache V) : gache V :=
  <[k := GEntry v (if 0 <? d then wrap64 (now + d) else d)]> g.

(** What readers see at time [now] (ToRawMap, or Get on every key). *)
Definition g_view {V} (now : time) (g : gache V) : gmap str V :=
  omap (fun e => if g_valid now e then Some (ge_val e) else None) g.

Lemma g_view_lookup {V} now (g : gache V) k : g_view now g !! k = g_get now k g.
Proof. unfold g_view, g_get. rewrite lookup_omap. by destruct (g !! k). Qed.

Lemma g_get_set_eq {V} now t k (v : V) d g :
  g_get t k (g_set now k v d g) = if g_valid t (GEntry v (if 0 <? d then wrap64 (now + d) else d)) then Some v else None.
Proof. unfold g_get, g_set. by rewrite lookup_insert. Qed.
Lemma g_get_set_ne {V} now t k k' (v : V) d g : k <> k' -> g_get t k' (g_set now k v d g) = g_get t k' g.
Proof. intros H. unfold g_get, g_set. by rewrite lookup_insert_ne. Qed.

(** The mathematical value fits an int64. *)
Definition i64 (z : Z) : Prop := min_int64 <= z <= max_int64.

(** An unexpired entry set with a positive duration is readable immediately. *)
Lemma g_get_set_now {V} now k (v : V) d g : d <= 0 \/ i64 (now + d) ->
  0 <= now -> g_get now k (g_set now k v d g) = Some v.
Proof.
  intros Hd Hn. rewrite g_get_set_eq. unfold g_valid. cbn [ge_exp].
  destruct (Z.ltb_spec 0 d) as [H|H].
  - destruct Hd as [?|Hd]; [lia|]. rewrite wrap64_id by done.
    destruct (Z.leb_spec now (now + d)); [|lia]. by rewrite orb_true_r.
  - destruct (Z.leb_spec d 0); [done|lia].
Qed.
(** A non-positive duration means the entry never expires. *)
Lemma g_set_forever {V} now t k (v : V) d g : d <= 0 -> g_get t k (g_set now k v d g) = Some v.
Proof.
  intros Hd. rewrite g_get_set_eq. unfold g_valid. cbn [ge_exp].
  destruct (Z.ltb_spec 0 d); [lia|]. by destruct (Z.leb_spec d 0); [|lia].
Qed.
(** A positive duration bounds the life time. *)
Lemma g_set_expires {V} now t k (v : V) d g : 0 < d -> 0 < now + d -> i64 (now + d) -> now + d < t ->
  g_get t k (g_set now k v d g) = None.
Proof.
  intros Hd Hp Hi Ht. rewrite g_get_set_eq. unfold g_valid. cbn [ge_exp].
  destruct (Z.ltb_spec 0 d); [|lia]. rewrite wrap64_id by done.
  destruct (Z.leb_spec (now + d) 0); [lia|]. by destruct (Z.leb_spec t (now + d)); [lia|].
Qed.
