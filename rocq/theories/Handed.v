(** * What users do with the map that GetPolicyCache returns
    GetPolicyCache (authorizerd.go:556-563, policy/daemon.go:292-297) returns a new map, but its values are the slices
    of the cache, and their elements the pointers the checks follow (policy/daemon.go:238-270); the fields of Assertion
    are exported (policy/assertion.go:26-36).  Here the arrays and the assertions are explicit.

    Simplifications: one goroutine fills the cache at a time (several: C76); expiry is an arbitrary removal; the cache
    that is filled is the one that is shown, as when an expired role is fetched again (policy/daemon.go:187-192);
    reading or writing a cell is atomic. *)
From Verif Require Export Assertion.

(** A slice: the array, the offset and the length. *)
Record hsl := HSl { l_arr : nat; l_off : nat; l_len : nat }.
(** Arrays of pointers, all their cells; None is a nil pointer. *)
Notation arrays := (list (list (option nat))).
Definition arr_at (h : arrays) (id : nat) : list (option nat) := default [] (h !! id).
Definition ptrs (h : arrays) (z : hsl) : list (option nat) := take (l_len z) (drop (l_off z) (arr_at h (l_arr z))).
(** cap(z) *)
Definition room_of (h : arrays) (z : hsl) : nat := length (arr_at h (l_arr z)) - l_off z.
(** A new array for [l] with [extra] cells to spare; a slice of all of [l]. *)
Definition new_array (l : list (option nat)) (extra : nat) (h : arrays) : arrays * hsl := (h ++ [l ++ replicate extra None], HSl (length h) 0 (length l)).
Definition put (id n : nat) (p : option nat) (h : arrays) : arrays := <[id := <[n := p]> (arr_at h id)]> h.
(** append(z, p): in place if there is room. *)
Definition append_ptr (extra : nat) (p : option nat) (z : hsl) (h : arrays) : arrays * hsl :=
  if (l_len z <? room_of h z)%nat then (put (l_arr z) (l_off z + l_len z) p h, HSl (l_arr z) (l_off z) (S (l_len z)))
  else new_array (ptrs h z ++ [p]) extra h.

(** [g_objs]: the assertions; [g_maps]: the maps users got. *)
Record gst := GSt { g_heap : arrays; g_objs : list assertion; g_cache : gmap str hsl; g_maps : list (gmap str hsl) }.
Inductive glabel :=
| GAdd (k : str) (a : assertion) (extra : nat)       (* an assertion is added to a role, policy/daemon.go:361-379 *)
| GDrop (k : str)                                    (* the role's entry expires *)
| GShow                                              (* a user calls GetPolicyCache *)
| GDel (n : nat) (k : str)                           (* delete(m, k) on the n-th map *)
| GSet (n : nat) (k : str) (n' : nat) (k' : str)     (* m[k] = m'[k'] *)
| GSub (n : nat) (k : str) (a b : nat)               (* m[k] = m[k][a:b] *)
| GWrite (n : nat) (k : str) (i : nat) (a : assertion)  (* m[k][i] = &a *)
| GAppend (n : nat) (k : str) (a : assertion) (extra : nat) (* m[k] = append(m[k], &a) *)
| GField (n : nat) (k : str) (i : nat) (a : assertion).  (* *m[k][i] = a *)
Definition held (s : gst) (n : nat) (k : str) : option hsl := match g_maps s !! n with Some m => m !! k | None => None end.
Definition set_map (n : nat) (k : str) (z : hsl) (s : gst) : list (gmap str hsl) :=
  match g_maps s !! n with Some m => <[n := <[k := z]> m]> (g_maps s) | None => g_maps s end.
Definition gstep (l : glabel) (s : gst) : option gst :=
  let new := Some (length (g_objs s)) in
  match l with
  | GAdd k a extra =>
      let '(h, z) := match g_cache s !! k with
                     | Some z => match a_effect a with
                                 | None => append_ptr extra new z (g_heap s)
                                 | Some _ => new_array (new :: ptrs (g_heap s) z) extra (g_heap s)
                                 end
                     | None => new_array [new] 0 (g_heap s)
                     end in
      Some (GSt h (g_objs s ++ [a]) (<[k := z]> (g_cache s)) (g_maps s))
  | GDrop k => Some (GSt (g_heap s) (g_objs s) (delete k (g_cache s)) (g_maps s))
  | GShow => Some (GSt (g_heap s) (g_objs s) (g_cache s) (g_maps s ++ [g_cache s]))
  | GDel n k => match g_maps s !! n with
                | Some m => Some (GSt (g_heap s) (g_objs s) (g_cache s) (<[n := delete k m]> (g_maps s)))
                | None => None
                end
  | GSet n k n' k' => match held s n' k' with
                      | Some z => Some (GSt (g_heap s) (g_objs s) (g_cache s) (set_map n k z s))
                      | None => None
                      end
  | GSub n k a b =>
      match held s n k with
      | Some z => if (a <=? b)%nat && (b <=? room_of (g_heap s) z)%nat
                  then Some (GSt (g_heap s) (g_objs s) (g_cache s) (set_map n k (HSl (l_arr z) (l_off z + a) (b - a)) s)) else None
      | None => None
      end
  | GWrite n k i a =>
      match held s n k with
      | Some z => if (i <? l_len z)%nat then Some (GSt (put (l_arr z) (l_off z + i) new (g_heap s)) (g_objs s ++ [a]) (g_cache s) (g_maps s)) else None
      | None => None
      end
  | GAppend n k a extra =>
      match held s n k with
      | Some z => let '(h, z') := append_ptr extra new z (g_heap s) in Some (GSt h (g_objs s ++ [a]) (g_cache s) (set_map n k z' s))
      | None => None
      end
  | GField n k i a =>
      match held s n k with
      | Some z => match ptrs (g_heap s) z !! i with
                  | Some (Some p) => Some (GSt (g_heap s) (<[p := a]> (g_objs s)) (g_cache s) (g_maps s))
                  | _ => None  (* out of range or nil: panics in the user's goroutine *)
                  end
      | None => None
      end
  end.
Fixpoint grun (ls : list glabel) (s : gst) : option gst :=
  match ls with
  | [] => Some s
  | l :: ls => match gstep l s with Some s' => grun ls s' | None => None end
  end.
Definition ginit : gst := GSt [] [] ∅ [].
(** What a check reads (policy/daemon.go:248-254). *)
Definition deref (objs : list assertion) (p : option nat) : option assertion := match p with Some p => objs !! p | None => None end.
Definition in_cache (s : gst) : cache := (fun z => omap (deref (g_objs s)) (ptrs (g_heap s) z)) <$> g_cache s.
