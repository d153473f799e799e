(** * The authorizer with two clocks and a cache that may lose entries
    authorizerd.go:367-474, as in Authorizer.v, except:
    - role tokens (role/token.go:88) and the result cache (authorizerd.go:393,471, gache) read a copy of the system clock
      (fastime), which lags by at most [dl]; access tokens are judged by the jwt library, which reads the system clock
      itself (access/claim.go:33);
    - the cache may lose any entry at any time (C111: gache may delete a fresh entry). *)
From Verif Require Export Authorizer.

Section rough.
  Context (K : crypto) (X : jwt_ext) {O : Type}.
  (** [r_z]: the state of Authorizer.v, whose clock is the copy; [r_true]: the system clock. *)
  Record rst := RSt { r_z : zst; r_true : time }.
  (** [RPass T r]: the system clock now reads [T], the copy [r]; [RLose]: an entry is lost. *)
  Inductive rlabel := RStep (l : @zlabel K O) | RPass (T r : time) | RParse (i : nat) (ks : keys K) | RLose (k : str).
  (** The clock that judges the token of [q]. *)
  Definition clock_for (s : rst) (q : request) : time :=
    match q_mode q with MRole => z_clock (r_z s) | MAccess => r_true s end.
  Definition rstep (cf : @zconf O) (dl : duration) (l : rlabel) (s : rst) : option rst :=
    match l with
    | RStep (ZTick _ _) | RStep (ZParse _ _ _) => None
    | RStep l => option_map (fun z => RSt z (r_true s)) (zstep K X cf l (r_z s))
    | RPass T r =>
        if (r_true s <=? T) && (z_clock (r_z s) <=? r) && (r <=? T) && (T <=? r + dl)
        then Some (RSt (ZSt (z_cache (r_z s)) r (z_tasks (r_z s))) T) else None
    | RParse i ks =>
        match z_tasks (r_z s) !! i with
        | Some (CParse q) =>
            Some (RSt (set_task (r_z s) i
              match process K X cf ks (clock_for s q) q with
              | Ok p => if z_policy cf then CTrans q p else CStore q p
              | Err e => CDone q (Err e)
              | Panic => CDone q Panic
              end) (r_true s))
        | _ => None
        end
    | RLose k => Some (RSt (ZSt (delete k (z_cache (r_z s))) (z_clock (r_z s)) (z_tasks (r_z s))) (r_true s))
    end.
  Fixpoint rrun (cf : @zconf O) (dl : duration) (ls : list rlabel) (s : rst) : option rst :=
    match ls with
    | [] => Some s
    | l :: ls => match rstep cf dl l s with Some s' => rrun cf dl ls s' | None => None end
    end.
  Definition rinit (n : nat) (t0 : time) : rst := RSt (zinit n t0) t0.
End rough.
