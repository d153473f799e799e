(** * Turning signed policies into the role cache (policy/daemon.go:156-211, 299-389) *)
From Verif Require Export Assertion Gache.

(** util.Assertion (policy/signed_policy.go, yahoo athenz-utils): one assertion of
    a policy document.  Policies are lists of pointers; a document here is one without
    nil among them (see [policies_of] in Fetcher.v). *)
Record raw := Raw { r_role : str; r_action : str; r_resource : str; r_effect : str }.
Notation policy := (list raw).
Notation document := (list (list raw)).

(** strings.EqualFold("deny", ass.Effect), policy/daemon.go:341, policy/assertion.go:63 *)
Definition raw_denyb (U : unicode) (a : raw) : bool := equal_fold U (B "deny") (r_effect a).

(** km := fmt.Sprintf("%s,%s,%s", ass.Role, ass.Action, ass.Resource), policy/daemon.go:336 *)
Definition km (a : raw) : str := r_role a ++ B "," ++ r_action a ++ B "," ++ r_resource a.

(** ** Phase 1: one goroutine per policy, a shared sync.Map (policy/daemon.go:324-354) *)
Inductive sw :=
| SLoop (rest : list raw)                      (* loop head with the remaining assertions, :331-332 *)
| SStore (a : raw) (found : bool) (rest : list raw) (* after assm.Load, before the Store, :337-343 *)
| SDone (e : option error).                    (* returned, :334 :348 *)

(** Shared state of phase 1. *)
Record sst := SSt { ss_map : gmap str raw; ss_cancel : bool; ss_work : list sw }.

Inductive slabel := SWork (i : nat) | SCancel.

(** State at the start of simplifyAndCachePolicy, policy/daemon.go:324-330 *)
Definition sinit (doc : document) (cancelled : bool) : sst := SSt ∅ cancelled (map SLoop doc).

(** One atomic step: sync.Map Load and Store are each atomic, the pair is not. *)
Definition sstep (U : unicode) (l : slabel) (s : sst) : option sst :=
  match l with
  | SCancel => Some (SSt (ss_map s) true (ss_work s))
  | SWork i =>
      match ss_work s !! i with
      | Some (SLoop []) => Some (SSt (ss_map s) (ss_cancel s) (<[i := SDone None]> (ss_work s)))
      | Some (SLoop (a :: rest)) =>
          if ss_cancel s
          then Some (SSt (ss_map s) (ss_cancel s) (<[i := SDone (Some ErrCanceled)]> (ss_work s)))
          else
            let found := match ss_map s !! km a with Some _ => true | None => false end in
            Some (SSt (ss_map s) (ss_cancel s) (<[i := SStore a found rest]> (ss_work s)))
      | Some (SStore a found rest) =>
          let m := if negb found || raw_denyb U a then <[km a := a]> (ss_map s) else ss_map s in
          Some (SSt m (ss_cancel s) (<[i := SLoop rest]> (ss_work s)))
      | Some (SDone _) | None => None
      end
  end.

Fixpoint srun (U : unicode) (ls : list slabel) (s : sst) : option sst :=
  match ls with
  | [] => Some s
  | l :: ls => match sstep U l s with Some s' => srun U ls s' | None => None end
  end.

(** eg.Wait returned nil, policy/daemon.go:352 *)
Definition simplified (s : sst) : Prop := Forall (fun w => w = SDone None) (ss_work s).

(** assm.Range visits the values in some order, policy/daemon.go:359: [script] is a
    possible order after some execution of phase 1 on [doc]. *)
Definition script_of (U : unicode) (doc : document) (script : list raw) : Prop :=
  exists ls s, srun U ls (sinit doc false) = Some s /\ simplified s /\
    script ≡ₚ (map_to_list (ss_map s)).*2.

(** ** Phase 2: filling the role cache (policy/daemon.go:356-388)
    Several goroutines (one per domain in Update :163-180, one per expired key in
    the hook :189-192) share a cache; gache.Get and SetWithExpire are atomic. *)

(** What one goroutine caches: the document's expiry, the clock read at :358, and
    the values of assm in Range order. *)
Record job := Job { j_exp : time; j_now : time; j_script : list raw }.

(** policy/daemon.go:368-378 *)
Definition add_assertion (a : assertion) (cur : option (list assertion)) : list assertion :=
  match cur with
  | Some l => match a_effect a with None => l ++ [a] | Some _ => a :: l end
  | None => [a]
  end.

Inductive cw :=
| CIdle                                               (* before FetchWithRetry returns, :300 *)
| CCache (j : job) (rest : list raw)                  (* next Range callback, :359 *)
| CSet (j : job) (role : str) (asss : list assertion) (rest : list raw) (* before SetWithExpire, :379 *)
| CEnd (j : option job) (e : option error).           (* returned *)

(** A cache being filled and the goroutines filling it. *)
Record cst := CSt { c_g : gache (list assertion); c_work : list cw }.

(** Inputs of a goroutine step: the outcome of fetching and simplifying (phase 1),
    or the clock of the cache library. *)
Inductive cinput := IFetch (r : outcome job) | ITime (t : time).
Inductive clabel :=
| CWork (i : nat) (inp : cinput)
| CDrop (key : str).                                  (* an expired entry is deleted by gache *)

Definition cstep (U : unicode) (l : clabel) (s : cst) : option cst :=
  match l with
  | CDrop key => Some (CSt (delete key (c_g s)) (c_work s))
  | CWork i inp =>
      match c_work s !! i, inp with
      | Some CIdle, IFetch (Ok j) => Some (CSt (c_g s) (<[i := CCache j (j_script j)]> (c_work s)))
      | Some CIdle, IFetch (Err e) => Some (CSt (c_g s) (<[i := CEnd None (Some e)]> (c_work s)))
      | Some (CCache j []), ITime _ => Some (CSt (c_g s) (<[i := CEnd (Some j) None]> (c_work s)))
      | Some (CCache j (r :: rest)), ITime t =>
          match new_assertion U (r_action r) (r_resource r) (r_effect r) with
          | Ok a =>
              let asss := add_assertion a (g_get t (r_role r) (c_g s)) in
              Some (CSt (c_g s) (<[i := CSet j (r_role r) asss rest]> (c_work s)))
          | Err e => Some (CSt (c_g s) (<[i := CEnd (Some j) (Some e)]> (c_work s)))
          | Panic => None
          end
      | Some (CSet j role asss rest), ITime t =>
          Some (CSt (g_set t role asss (time_sub (j_exp j) (j_now j)) (c_g s)) (<[i := CCache j rest]> (c_work s)))
      | _, _ => None
      end
  end.

Fixpoint crun (U : unicode) (ls : list clabel) (s : cst) : option cst :=
  match ls with
  | [] => Some s
  | l :: ls => match cstep U l s with Some s' => crun U ls s' | None => None end
  end.

(** [n] goroutines about to fill the cache [g] (n = 1: simplifyAndCachePolicy alone). *)
Definition cinit (g : gache (list assertion)) (n : nat) : cst := CSt g (replicate n CIdle).

(** ** Update (policy/daemon.go:156-211)
    The caller's loop over the fetchers, the goroutines, and the pointer swap. *)
Record ust := USt {
  u_c : cst;                          (* rp and the goroutines, :161 *)
  u_spawned : nat;                    (* fetchers handed to eg.Go so far, :163-170 *)
  u_cancel : bool;                    (* ctx is done *)
  u_cur : gache (list assertion);     (* what p.rolePolicies points to *)
  u_err : option error;               (* first error recorded by the errgroup *)
  u_ret : option (outcome unit)       (* Update has returned *)
}.

Inductive ulabel := UCancel | USpawn | UWork (i : nat) (inp : cinput) | UFinish.

Definition uinit (cur : gache (list assertion)) (n : nat) (cancelled : bool) : ust :=
  USt (cinit ∅ n) 0 cancelled cur None None.

(** Error with which goroutine [i] has just finished. *)
Definition end_error (s : cst) (i : nat) : option error :=
  match c_work s !! i with Some (CEnd _ e) => e | _ => None end.
Definition ended (w : cw) : bool := match w with CEnd _ _ => true | _ => false end.

Definition ustep (U : unicode) (l : ulabel) (s : ust) : option ust :=
  match l with
  | UCancel => Some (USt (u_c s) (u_spawned s) true (u_cur s) (u_err s) (u_ret s))
  | USpawn =>
      match u_ret s with
      | Some _ => None
      | None =>
          if decide (u_spawned s < length (c_work (u_c s)))%nat then
            if u_cancel s
            then Some (USt (u_c s) (u_spawned s) (u_cancel s) (u_cur s) (u_err s) (Some (Err ErrCanceled)))
            else Some (USt (u_c s) (S (u_spawned s)) (u_cancel s) (u_cur s) (u_err s) None)
          else None
      end
  | UWork i inp =>
      if decide (i < u_spawned s)%nat then
        match cstep U (CWork i inp) (u_c s) with
        | Some c =>
            let e := match u_err s with Some e => Some e | None => end_error c i end in
            Some (USt c (u_spawned s) (u_cancel s) (u_cur s) e (u_ret s))
        | None => None
        end
      else None
  | UFinish =>
      match u_ret s with
      | Some _ => None
      | None =>
          if decide (u_spawned s = length (c_work (u_c s))) then
            if forallb ended (c_work (u_c s)) then
              match u_err s with
              | Some e => Some (USt (u_c s) (u_spawned s) (u_cancel s) (u_cur s) (u_err s) (Some (Err e)))
              | None => Some (USt (u_c s) (u_spawned s) (u_cancel s) (c_g (u_c s)) (u_err s) (Some (Ok tt)))
              end
            else None
          else None
      end
  end.

Fixpoint urun (U : unicode) (ls : list ulabel) (s : ust) : option ust :=
  match ls with
  | [] => Some s
  | l :: ls => match ustep U l s with Some s' => urun U ls s' | None => None end
  end.
