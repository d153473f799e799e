(** * What callers do with results
    A principal is stored in the result cache by pointer (authorizerd.go:471) and handed to every
    later caller with the same key (:393-398); its getters return the slices it holds
    (principal.go:54-56, 74-76).  Here the arrays behind those slices are explicit.

    Simplifications: expiry is an arbitrary removal; reading or writing a cell is atomic. *)
From Verif Require Export Authorizer GoStrings.

(** An array of strings with all its cells; a slice: the array, the offset and the length. *)
Record sl := Sl { s_arr : nat; s_off : nat; s_len : nat }.
Notation heap := (list (list str)).
Definition arr_of (h : heap) (id : nat) : list str := default [] (h !! id).
Definition elems (h : heap) (s : sl) : list str := take (s_len s) (drop (s_off s) (arr_of h (s_arr s))).
(** cap(s) *)
Definition space (h : heap) (s : sl) : nat := length (arr_of h (s_arr s)) - s_off s.
(** A new array for [l] with [extra] cells to spare; a slice of all of [l]. *)
Definition alloc (l : list str) (extra : nat) (h : heap) : heap * sl := (h ++ [l ++ replicate extra []], Sl (length h) 0 (length l)).
Definition poke (id n : nat) (v : str) (h : heap) : heap := <[id := <[n := v]> (arr_of h id)]> h.

(** *principal and *oAuthAccessToken as stored, principal.go:34-46; the lists of [o_p] are not used. *)
Record object := Object { o_p : principal; o_roles : sl; o_auth : sl }.
(** [x_held]: the slices callers got or made; [x_cache]: the keys and what they point to. *)
Record xst := XSt { x_heap : heap; x_objs : list object; x_cache : gmap str nat; x_held : list sl }.
Inductive xlabel :=
| XAccept (key : str) (p : principal) (extra1 extra2 : nat)  (* authorize accepts and stores [p] *)
| XDrop (key : str)                                          (* an entry is removed *)
| XRoles (o : nat)                                           (* a caller calls Roles() *)
| XAuth (o : nat)                                            (* a caller calls AuthorizedRoles() *)
| XWrite (n i : nat) (v : str)                               (* s[i] = v on held slice [n] *)
| XAppend (n : nat) (v : str) (extra : nat)                  (* append(s, v) *)
| XSub (n a b : nat)                                         (* s[a:b] *)
| XCopy (n extra : nat).                                     (* append([]string(nil), s...) *)
Definition xstep (l : xlabel) (s : xst) : option xst :=
  match l with
  | XAccept key p e1 e2 =>
      let '(h1, r) := alloc (pr_roles p) e1 (x_heap s) in
      let '(h2, a) := alloc (pr_auth p) e2 h1 in
      Some (XSt h2 (x_objs s ++ [Object p r a]) (<[key := length (x_objs s)]> (x_cache s)) (x_held s))
  | XDrop key => Some (XSt (x_heap s) (x_objs s) (delete key (x_cache s)) (x_held s))
  | XRoles o => match x_objs s !! o with Some ob => Some (XSt (x_heap s) (x_objs s) (x_cache s) (x_held s ++ [o_roles ob])) | None => None end
  | XAuth o => match x_objs s !! o with Some ob => Some (XSt (x_heap s) (x_objs s) (x_cache s) (x_held s ++ [o_auth ob])) | None => None end
  | XWrite n i v =>
      match x_held s !! n with
      | Some z => if (i <? s_len z)%nat then Some (XSt (poke (s_arr z) (s_off z + i) v (x_heap s)) (x_objs s) (x_cache s) (x_held s)) else None
      | None => None
      end
  | XAppend n v extra =>
      match x_held s !! n with
      | Some z =>
          if (s_len z <? space (x_heap s) z)%nat
          then Some (XSt (poke (s_arr z) (s_off z + s_len z) v (x_heap s)) (x_objs s) (x_cache s) (x_held s ++ [Sl (s_arr z) (s_off z) (S (s_len z))]))
          else let '(h, z') := alloc (elems (x_heap s) z ++ [v]) extra (x_heap s) in Some (XSt h (x_objs s) (x_cache s) (x_held s ++ [z']))
      | None => None
      end
  | XSub n a b =>
      match x_held s !! n with
      | Some z => if (a <=? b)%nat && (b <=? space (x_heap s) z)%nat
                  then Some (XSt (x_heap s) (x_objs s) (x_cache s) (x_held s ++ [Sl (s_arr z) (s_off z + a) (b - a)])) else None
      | None => None
      end
  | XCopy n extra =>
      match x_held s !! n with
      | Some z => let '(h, z') := alloc (elems (x_heap s) z) extra (x_heap s) in Some (XSt h (x_objs s) (x_cache s) (x_held s ++ [z']))
      | None => None
      end
  end.
Fixpoint xrun (ls : list xlabel) (s : xst) : option xst :=
  match ls with
  | [] => Some s
  | l :: ls => match xstep l s with Some s' => xrun ls s' | None => None end
  end.
Definition xinit : xst := XSt [] [] ∅ [].
(** What the getters of object [o] say: Name, Roles, Domain, IssueTime, ExpiryTime,
    AuthorizedRoles, ClientID (principal.go:48-81). *)
Definition says_now (s : xst) (o : nat) : option principal :=
  match x_objs s !! o with
  | Some ob => let p := o_p ob in
      Some (Principal (pr_name p) (elems (x_heap s) (o_roles ob)) (pr_domain p) (pr_issue p) (pr_expiry p) (elems (x_heap s) (o_auth ob)) (pr_client p))
  | None => None
  end.
(** What a call that hits the cache returns. *)
Definition hit (s : xst) (key : str) : option principal := match x_cache s !! key with Some o => says_now s o | None => None end.
