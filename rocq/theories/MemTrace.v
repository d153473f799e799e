(** * The memory operations of the policy daemon
    policy/daemon.go and policy/fetcher.go: which words of memory shared by goroutines are read and
    written, in which order, and how.

    Simplifications: what is read and written inside gache, sync.Map, net/http and the logger is not
    here, but for the content of a new cache, which is one location for each fetcher that fills it
    (written before the cache is published; what the expired hook adds later is synchronised by gache).
    The values are the identities of the objects; everything else (answers, contents, time) may be anything. *)
From Verif Require Export GoMem.

(** [LCopy d]: policyCache of the fetcher of domain d, fetcher.go:60; [LTag n]: the taggedPolicy number n;
    [LCur]: rolePolicies, daemon.go:59; [LCell c]: the variable rp of Update number c (an interface) or,
    for 0, the g of New, daemon.go:77; [LEntry c d]: what the goroutine for domain d writes into cache c. *)
Inductive loc := LCopy (d : nat) | LTag (n : nat) | LCur | LCell (c : nat) | LEntry (c d : nat).
(** What a goroutine runs: [RMain]: New, Init, Start and other code that starts goroutines; [RUpd]: calls
    of Update one after the other; [RFetch c d]: the goroutine of Update c for domain d, daemon.go:170-178;
    [RCheck]: the first goroutine of CheckPolicyRoles, :230, or GetPolicyCache; [RMatch c]: the
    goroutine of a role, :241; [RHook]: the expiry goroutine of a cache, :187-192. *)
Inductive role := RMain | RUpd | RFetch (c d : nat) | RCheck | RMatch (c : nat) | RHook.
Notation macc := (acc loc role).
(** How a call ends. *)
Inductive fend := FOk | FErr | FPanic.

(** New, daemon.go:77-79, :89-103: the first cache is there and empty, the fetchers have no copy. *)
Definition ini (x : loc) : val := match x with LCur | LCell 0 => VObj 0 | _ => VNil end.

(** A new copy is kept, fetcher.go:141-148. *)
Definition keep (d n : nat) : list macc := [AWrite Plain (LTag n) (VObj n); AWrite Sync (LCopy d) (VObj n)].
(** The test for nil, the load and the fields, fetcher.go:91-93 and :171-174. *)
Definition held (d m k : nat) (v : val) : list macc := [ARead Plain (LCopy d) (VObj m); ARead Sync (LCopy d) (VObj k); ARead Plain (LTag k) v].
Definition held_nil (d m : nat) : list macc := [ARead Plain (LCopy d) (VObj m); ARead Sync (LCopy d) VNil].
(** Fetch, fetcher.go:78-151. *)
Inductive fetch_tr (d : nat) : list macc -> fend -> Prop :=
| F_none en : en <> FOk -> fetch_tr d [ARead Plain (LCopy d) VNil] en (* an error; or the 304 of C23 *)
| F_first n : fetch_tr d (ARead Plain (LCopy d) VNil :: keep d n) FOk
| F_nil m : fetch_tr d (held_nil d m) FPanic                         (* tp.eTag with tp nil, :93 *)
| F_held m k v en : en <> FPanic -> fetch_tr d (held d m k v) en     (* an error or 304 *)
| F_next m k v n : fetch_tr d (held d m k v ++ keep d n) FOk.
(** FetchWithRetry, fetcher.go:154-175, for any number of attempts. *)
Inductive retry_tr (d : nat) : list macc -> fend -> Prop :=
| R_end t en : fetch_tr d t en -> en <> FErr -> retry_tr d t en
| R_again t t' en : fetch_tr d t FErr -> retry_tr d t' en -> retry_tr d (t ++ t') en
| R_none : retry_tr d [ARead Plain (LCopy d) VNil] FErr
| R_nil m : retry_tr d (held_nil d m) FPanic
| R_held m k v : retry_tr d (held d m k v) FOk.
(** The goroutine of Update, daemon.go:170-178, :299-323: cancelled, or the fetch and the entries. *)
Inductive work_tr (c d : nat) : list macc -> fend -> Prop :=
| W_cancelled : work_tr c d [] FErr
| W_fail t en : retry_tr d t en -> en <> FOk -> work_tr c d t en
| W_fill t : retry_tr d t FOk -> work_tr c d (t ++ [AWrite Plain (LEntry c d) (VObj c)]) FOk
| W_part t : retry_tr d t FOk -> work_tr c d (t ++ [AWrite Plain (LEntry c d) (VObj c)]) FErr
| W_skip t : retry_tr d t FOk -> work_tr c d t FErr.

Section doms.
  Context (doms : list nat).
  Definition gos (c : nat) (ws : list (nat * nat)) : list macc := map (fun w => AGo w.1 (RFetch c w.2)) ws.
  Definition joins (bs : list bool) (ws : list (nat * nat)) : list macc := zip_with (fun w b => AJoin w.1 b) ws bs.
  (** The debug log, daemon.go:195-197 and :201-203, if it is on (it reads twice the same). *)
  Inductive log_tr : list macc -> Prop :=
  | D_off : log_tr []
  | D_on o v : log_tr [ARead Plain LCur (VObj o); ARead Plain (LCell o) v].
  (** Update number c, daemon.go:156-211: cancelled between two fetchers; an error of a fetch; published. *)
  Inductive update_tr (c : nat) : list macc -> Prop :=
  | U_cancel ws : NoDup ws.*2 -> update_tr c (AWrite Plain (LCell c) (VObj c) :: gos c ws ++ [AQuit])
  | U_fail ws bs : NoDup ws.*2 -> length bs = length ws ->
      update_tr c (AWrite Plain (LCell c) (VObj c) :: gos c ws ++ joins bs ws)
  | U_ok ws h l1 l2 o v : NoDup ws.*2 -> ws.*2 ≡ₚ doms -> log_tr l1 -> log_tr l2 ->
      update_tr c (AWrite Plain (LCell c) (VObj c) :: gos c ws ++ joins (replicate (length ws) true) ws ++
        AGo h RHook :: l1 ++ ASwap LCur (VObj o) (VObj c) :: l2 ++ [ARead Plain (LCell o) v]).
  (** One Update after the other; each has a new variable rp. *)
  Inductive updates_tr : list nat -> list macc -> Prop :=
  | Us_nil : updates_tr [] []
  | Us_cons c cs u t : update_tr c u -> updates_tr cs t -> c ∉ cs -> updates_tr (c :: cs) (u ++ t).
  (** CheckPolicyRoles, daemon.go:236-262: the cache is loaded, then the goroutines of the roles read its
      entries; GetPolicyCache, :293-297: the entries are read at once. *)
  Definition entry_reads (c : nat) (t : list macc) : Prop := Forall (fun a => exists d v, a = ARead Plain (LEntry c d) v) t.
  Inductive check_tr : list macc -> Prop :=
  | K_go o c gs : check_tr ([ARead Sync LCur (VObj o); ARead Plain (LCell o) (VObj c)] ++ map (fun g => AGo g (RMatch c)) gs)
  | K_get o c t : entry_reads c t -> check_tr ([ARead Sync LCur (VObj o); ARead Plain (LCell o) (VObj c)] ++ t)
  | K_nil o : check_tr [ARead Sync LCur (VObj o); ARead Plain (LCell o) VNil]. (* rp nil: panic in rp.Get *)
  (** The expired hook, daemon.go:189-192, run any number of times: an ordinary read of rolePolicies, the
      interface there, the fetch; with a nil interface a panic at the use of the cache. *)
  Inductive hooks_tr : list macc -> Prop :=
  | H_nil : hooks_tr []
  | H_panic : hooks_tr [ARead Plain LCur VNil]
  | H_run o v d t en ts : retry_tr d t en -> (en = FPanic \/ (v = VNil /\ en = FOk) -> ts = []) -> hooks_tr ts ->
      hooks_tr ([ARead Plain LCur (VObj o); ARead Plain (LCell o) v] ++ t ++ ts).
  (** New goroutines: Init and Start, and the callers. *)
  Definition main_op (a : macc) : Prop :=
    match a with AGo _ RUpd | AGo _ RCheck | AGo _ RMain | AJoin _ _ => True | _ => False end.
  Inductive trace : role -> list macc -> Prop :=
  | T_main t : Forall main_op t -> trace RMain t
  | T_upd cs t : updates_tr cs t -> trace RUpd t
  | T_fetch c d t en : work_tr c d t en -> trace (RFetch c d) t
  | T_check t : check_tr t -> trace RCheck t
  | T_match c t : entry_reads c t -> trace (RMatch c) t
  | T_hook t : hooks_tr t -> trace RHook t.

  (** ** Executions of the daemon up to some moment *)
  Notation mexec := (exec loc role).
  (** Goroutine 0 is main; the others are started by a go statement. *)
  Definition runs (e : mexec) (g : nat) (r : role) : Prop := (g = 0%nat /\ r = RMain) \/ exists i g', ev_at e i g' (AGo g r).
  Record daemon_execution (e : mexec) : Prop := {
    de_mem : go_execution ini e;
    (** Requirement 1: each goroutine runs its code, with the values it reads. *)
    de_trace g r : runs e g r -> exists t, trace r t /\ proj g e `prefix_of` t;
    de_role i g a : ev_at e i g a -> exists r, runs e g r;
    (** Goroutine numbers are used once. *)
    de_once i j g g' h r r' : ev_at e i g (AGo h r) -> ev_at e j g' (AGo h r') -> i = j;
    de_main i g r : ~ ev_at e i g (AGo 0%nat r);
    (** Wait: the goroutine has returned, without an error if Wait says so. *)
    de_wait i g h ok c d : ev_at e i g (AJoin h ok) -> runs e h (RFetch c d) ->
      exists en, work_tr c d (proj h e) en /\ (if ok then en = FOk else en = FErr);
    (** Memory that is allocated is new. *)
    de_fresh i j x v u : writes_at e i x v -> writes_at e j x u -> match x with LTag _ | LCell _ => i = j | _ => True end;
    de_first i v : ~ writes_at e i (LCell 0) v
  }.
End doms.
