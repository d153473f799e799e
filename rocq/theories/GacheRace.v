(** * gache v1.2.8 with the look-up and the deletion of an expired entry as two steps (third party; semantics trusted)

    Gache.v takes Get (and the sweep, DeleteExpired) to be one step: look up, and delete if expired.  In gache these are
    two operations on a sync.Map: the entry is loaded and found expired, then the key is deleted, whatever is stored
    under it by then.  Used at policy/daemon.go:187-192,248,369 and authorizerd.go:303,393,471. *)
From Verif Require Export Gache.

Section race.
  Context {V : Type}.
  (** A goroutine: idle; has found [k] expired and is about to delete it; has finished with this answer. *)
  Inductive gtask := TIdle | TSaw (k : str) | TDone (k : str) (r : option V).
  Record grst := GRSt { gr_map : gache V; gr_now : time; gr_tasks : list gtask }.
  Inductive grlabel :=
  | RTick (t : time)
  | RGet (i : nat) (k : str)                        (* load: an unexpired entry is returned *)
  | RDelete (i : nat)                               (* delete what was found expired *)
  | RSet (k : str) (v : V) (d : duration).          (* SetWithExpire, by anybody *)
  Definition grstep (l : grlabel) (s : grst) : option grst :=
    match l with
    | RTick t => if gr_now s <=? t then Some (GRSt (gr_map s) t (gr_tasks s)) else None
    | RGet i k =>
        match gr_tasks s !! i with
        | Some TIdle =>
            Some (GRSt (gr_map s) (gr_now s) (<[i :=
              match gr_map s !! k with
              | None => TDone k None
              | Some e => if g_valid (gr_now s) e then TDone k (Some (ge_val e)) else TSaw k
              end]> (gr_tasks s)))
        | _ => None
        end
    | RDelete i =>
        match gr_tasks s !! i with
        | Some (TSaw k) => Some (GRSt (delete k (gr_map s)) (gr_now s) (<[i := TDone k None]> (gr_tasks s)))
        | _ => None
        end
    | RSet k v d => Some (GRSt (g_set (gr_now s) k v d (gr_map s)) (gr_now s) (gr_tasks s))
    end.
  Fixpoint grrun (ls : list grlabel) (s : grst) : option grst :=
    match ls with
    | [] => Some s
    | l :: ls => match grstep l s with Some s' => grrun ls s' | None => None end
    end.
  Definition grinit (n : nat) (t0 : time) : grst := GRSt ∅ t0 (replicate n TIdle).
End race.
Arguments gtask : clear implicits.
Arguments grst : clear implicits.
Arguments grlabel : clear implicits.
