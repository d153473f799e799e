(** * The JWK daemon (jwk/daemon.go) *)
From Verif Require Export Base.

(** jwk.Set of lestrrat-go/jwx: its keys with their ids, in order.  [None]: Raw fails
    on that key.  LookupKeyID returns the first key with the id. *)
Notation jwk_set J := (list (str * option J)).

Section jwk.
  Context {J : Type}.

  (** LookupKeyID, then Raw (jwk/daemon.go:173-184). *)
  Fixpoint lookup_kid (set : jwk_set J) (kid : str) : option J :=
    match set with
    | [] => None
    | (k, raw) :: set => if bool_decide (k = kid) then raw else lookup_kid set kid
    end.

  (** [j_urls] is what WithURLs was given (jwk/option.go), [j_athenz] the Athenz JWKS URL. *)
  Record jconf := JConf { j_athenz : str; j_urls : list str }.

  (** isContain, jwk/daemon.go:187-194 *)
  Fixpoint is_contain (targets : list str) (key : str) : bool :=
    match targets with
    | [] => false
    | t :: targets => if bool_decide (t = key) then true else is_contain targets key
    end.
  (** The URLs an Update visits, jwk/daemon.go:123-128 *)
  Definition targets (cf : jconf) : list str :=
    if is_contain (j_urls cf) (j_athenz cf) then j_urls cf else j_athenz cf :: j_urls cf.

  (** Any number of Update calls (jwk/daemon.go:120-149) over the shared sync.Map.
      [JRun todo failed]: at the loop head. *)
  Inductive jtask :=
  | JIdle
  | JRun (todo failed : list str)
  | JRet (failed : list str).
  Record jst := JSt { j_keys : gmap str (jwk_set J); j_tasks : list jtask }.
  (** [JFetch i u r]: jwk.Fetch of [u] by call [i] returns the set or fails. *)
  Inductive jlabel :=
  | JBegin (i : nat)
  | JFetch (i : nat) (u : str) (r : option (jwk_set J))
  | JEnd (i : nat).
  Definition jstep (cf : jconf) (l : jlabel) (s : jst) : option jst :=
    match l with
    | JBegin i =>
        match j_tasks s !! i with
        | Some JIdle => Some (JSt (j_keys s) (<[i := JRun (targets cf) []]> (j_tasks s)))
        | _ => None
        end
    | JFetch i u r =>
        match j_tasks s !! i with
        | Some (JRun (t :: todo) failed) =>
            if bool_decide (t = u) then
              match r with
              | Some set => Some (JSt (<[t := set]> (j_keys s)) (<[i := JRun todo failed]> (j_tasks s)))
              | None => Some (JSt (j_keys s) (<[i := JRun todo (failed ++ [t])]> (j_tasks s)))
              end
            else None
        | _ => None
        end
    | JEnd i =>
        match j_tasks s !! i with
        | Some (JRun [] failed) => Some (JSt (j_keys s) (<[i := JRet failed]> (j_tasks s)))
        | _ => None
        end
    end.
  Fixpoint jrun (cf : jconf) (ls : list jlabel) (s : jst) : option jst :=
    match ls with
    | [] => Some s
    | l :: ls => match jstep cf l s with Some s' => jrun cf ls s' | None => None end
    end.
  Definition jinit (n : nat) : jst := JSt ∅ (replicate n JIdle).

  (** Result of an Update call: an error iff some download failed (jwk/daemon.go:143-148). *)
  Definition jresult (t : jtask) : option (outcome unit) :=
    match t with
    | JRet [] => Some (Ok tt)
    | JRet _ => Some (Err (ErrMsg "Failed to fetch the JWK Set from these URLs"))
    | _ => None
    end.

  (** getKey, jwk/daemon.go:155-185 (GetProvider returns it, :151-153).  [None] is the nil interface. *)
  Definition get_key (cf : jconf) (s : jst) (kid jku : str) : option J :=
    match kid with
    | [] => None
    | _ =>
        match j_keys s !! (match jku with [] => j_athenz cf | _ => jku end) with
        | None => None
        | Some set => lookup_kid set kid
        end
    end.
End jwk.
