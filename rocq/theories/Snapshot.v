(** * GetPolicyCache
    authorizerd.go:557-563, policy/daemon.go:293-297, running beside the whole system of System.v.

    ToRawMap of gache v1.2.8 (third party; semantics trusted) ranges over a concurrent map: it visits
    every key that is there when it begins, in any order, and possibly keys that come later, each at
    most once; a valid entry is copied into the result, an expired one is deleted.  It stops early
    when its context ends.  Simplification: the 256 shards are visited like one. *)
From Verif Require Export System.

(** A call of GetPolicyCache.  [v_obj]: the cache whose pointer it loaded; [v_must]: the keys there
    were; [v_done]: the keys visited; [v_map]: the result so far; [v_ret]: it has returned. *)
Record reader := Reader { v_obj : option nat; v_must : gset str; v_done : gset str; v_map : gmap str (list assertion); v_ret : bool }.

Section snapshot.
  Context (K : crypto) (X : jwt_ext) {O : Type} (U : unicode) (parse : str -> option (verifier K)) (cf : @sconf O).
  Record vst := VSt { v_sys : sys K; v_calls : list reader }.
  Inductive vlabel :=
  | VSys (l : @ylabel K O)       (* anything else *)
  | VCall (i : nat)              (* call [i] begins and loads the pointer, policy/daemon.go:294-295 *)
  | VVisit (i : nat) (k : str)   (* it comes to a valid entry *)
  | VExpired (i o : nat) (k : str) (* it comes to an expired entry of cache [o], and deletes it *)
  | VSkip (i : nat) (k : str)    (* it comes to a key whose entry is gone *)
  | VReturn (i : nat)            (* it returns *)
  | VStop (i : nat).             (* it returns because its context ended *)
  (** Call [i] is at work on cache [o], whose state is [c]. *)
  Definition reading (s : vst) (i : nat) (r : reader) (o : nat) (c : cst) : Prop :=
    v_calls s !! i = Some r /\ v_obj r = Some o /\ v_ret r = false /\ y_objs K (v_sys s) !! o = Some c.
  Definition set_call (i : nat) (r : reader) (s : vst) : vst := VSt (v_sys s) (<[i := r]> (v_calls s)).
  Inductive vstep : vlabel -> vst -> vst -> Prop :=
  | V_sys s l y : ystep K X U parse cf l (v_sys s) y -> vstep (VSys l) s (VSt y (v_calls s))
  | V_call s i r c : z_policy (s_z cf) = true -> v_calls s !! i = Some r -> v_obj r = None -> v_ret r = false ->
      y_objs K (v_sys s) !! y_cur K (v_sys s) = Some c ->
      vstep (VCall i) s (set_call i (Reader (Some (y_cur K (v_sys s))) (dom (c_g c)) ∅ ∅ false) s)
  | V_disabled s i r : z_policy (s_z cf) = false -> v_calls s !! i = Some r -> v_obj r = None -> v_ret r = false ->
      vstep (VReturn i) s (set_call i (Reader None ∅ ∅ ∅ true) s)
  | V_visit s i k r o c e : reading s i r o c -> k ∉ v_done r -> c_g c !! k = Some e -> g_valid (now K (v_sys s)) e = true ->
      vstep (VVisit i k) s (set_call i (Reader (Some o) (v_must r) ({[k]} ∪ v_done r) (<[k := ge_val e]> (v_map r)) false) s)
  | V_expired s i k r o c e y : reading s i r o c -> k ∉ v_done r -> c_g c !! k = Some e -> g_valid (now K (v_sys s)) e = false ->
      ystep K X U parse cf (YObj K o (CDrop k)) (v_sys s) y ->
      vstep (VExpired i o k) s (VSt y (<[i := Reader (Some o) (v_must r) ({[k]} ∪ v_done r) (v_map r) false]> (v_calls s)))
  | V_skip s i k r o c : reading s i r o c -> k ∉ v_done r -> c_g c !! k = None ->
      vstep (VSkip i k) s (set_call i (Reader (Some o) (v_must r) ({[k]} ∪ v_done r) (v_map r) false) s)
  | V_return s i r o c : reading s i r o c -> v_must r ⊆ v_done r ->
      vstep (VReturn i) s (set_call i (Reader (Some o) (v_must r) (v_done r) (v_map r) true) s)
  | V_stop s i r o c : reading s i r o c ->
      vstep (VStop i) s (set_call i (Reader (Some o) (v_must r) (v_done r) (v_map r) true) s).
  (** Labels so far, oldest first. *)
  Inductive vrun (s0 : vst) : list vlabel -> vst -> Prop :=
  | VR_nil : vrun s0 [] s0
  | VR_snoc ls l s s' : vrun s0 ls s -> vstep l s s' -> vrun s0 (ls ++ [l]) s'.
  (** The system with any number of calls to come. *)
  Definition vinit (y : sys K) (n : nat) : vst := VSt y (replicate n (Reader None ∅ ∅ ∅ false)).
  (** What the system did: a deleted entry is a step it may take by itself. *)
  Definition vsys (ls : list vlabel) : list (@ylabel K O) :=
    omap (fun l => match l with VSys l => Some l | VExpired _ o k => Some (YObj K o (CDrop k)) | _ => None end) ls.
End snapshot.
