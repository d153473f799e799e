(** * What happens to the bodies of HTTP responses
    (pubkey/daemon.go:231-292 fetchPubKeyEntries, policy/fetcher.go:76-151 Fetch and :187-198
    flushAndClose).  The functions of PubKey.v and Fetcher.v again, now noting each use of the body;
    [pk_traced_erases] and [pol_traced_erases] (Prop_Body.v) say that nothing else changed. *)
From Verif Require Export Fetcher PubKey GoStrings.

(** Decoding reads a part of the body; [BDrain ok]: io.Copy to the end, with or without an error. *)
Inductive bev := BDecode | BDrain (ok : bool) | BClose.

(** flushAndClose, policy/fetcher.go:187-198; net/http makes the body of a response never nil.
    [drains]: io.Copy succeeds. *)
Definition flush_and_close (drains : bool) : list bev :=
  if drains then [BDrain true; BClose] else [BDrain false].

(** fetchPubKeyEntries from the response on, pubkey/daemon.go:250-292 ([respond] of PubKey.v).  The
    error of io.Copy is only logged (:276-278). *)
Definition respond_traced {V} (parse : str -> option V) (drains : bool) (t : option conf_cache) (r : response key_list) :
    list bev * (@ptask V * option conf_cache) :=
  match r with
  | Failed e => ([], (PDone (Some e), None))
  | Response status etag b =>
      if status =? 304 then ([], (match t with Some _ => PDone None | None => PPanic end, None))
      else if negb (status =? 200) then ([], (PDone (Some ErrFetchAthenzPubkey), None))
      else match b with
      | BadBody => ([BDecode], (PDone (Some (ErrMsg "json format not correct")), None))
      | NullBody => ([BDecode; BDrain drains; BClose], (PPanic, if bool_decide (etag = []) then None else Some (etag, None)))
      | Doc l =>
          ([BDecode; BDrain drains; BClose],
           (match decode_keys parse l ∅ with
            | Ok cm => PStore cm cm
            | Err e => PDone (Some e)
            | Panic => PPanic
            end, if bool_decide (etag = []) then None else Some (etag, Some l)))
      end
  end.

(** Fetch from the response on, policy/fetcher.go:99-150 ([fetch_response] of Fetcher.v).  The
    deferred call (:105-109) runs on every way out, a panic included. *)
Definition fetch_traced (K : crypto) (drains : bool) (cf : fconf) (tp : option tagged) (pkp : provider K) (now : time)
    (r : response signed_policy) : list bev * (outcome signed_policy * option tagged) :=
  let deferred := flush_and_close drains in
  match r with
  | Failed e => ([], (Err e, None))
  | Response status etag b =>
      if status =? 304 then
        match tp with Some tp => (deferred, (Ok (t_sp tp), None)) | None => (deferred, (Panic, None)) end
      else if negb (status =? 200) then (deferred, (Err ErrFetchPolicy, None))
      else
        match b with
        | BadBody => (BDecode :: deferred, (Err (ErrMsg "policy decode fail"), None))
        | NullBody => (BDecode :: deferred, (match sp_verify K pkp now None with Err e => Err e | _ => Panic end, None))
        | Doc sp =>
            match sp_verify K pkp now (Some sp) with
            | Err e => (BDecode :: deferred, (Err e, None))
            | Panic => (BDecode :: deferred, (Panic, None))
            | Ok tt =>
                match sp_data sp with
                | Some d =>
                    match sd_expires d with
                    | Some e => (BDecode :: deferred, (Ok sp, Some (Tagged etag (time_add e (- f_margin cf)) sp)))
                    | None => (BDecode :: deferred, (Panic, None))
                    end
                | None => (BDecode :: deferred, (Panic, None))
                end
            end
        end
  end.

(** ** Whole histories: one trace per response that came with a body *)
Definition has_body {A} (r : response A) : bool := match r with Failed _ => false | Response _ _ _ => true end.

(** [drains n]: io.Copy succeeds on the [n]-th response. *)
Fixpoint prun_traced {V} (parse : str -> option V) (cf : pconf) (drains : nat -> bool) (ls : list plabel) (s : @pst V) (log : list (list bev)) :
    option (@pst V * list (list bev)) :=
  match ls with
  | [] => Some (s, log)
  | l :: ls =>
      let log' :=
        match l with
        | PResp i r now =>
            match p_tasks s !! i with
            | Some (PSent t) => if has_body r then log ++ [fst (respond_traced parse (drains (length log)) t r)] else log
            | _ => log
            end
        | _ => log
        end in
      match pstep parse cf l s with Some s' => prun_traced parse cf drains ls s' log' | None => None end
  end.
Fixpoint frun_traced (K : crypto) (cf : fconf) (drains : nat -> bool) (ls : list (flabel K)) (s : fst_) (log : list (list bev)) :
    option (fst_ * list (list bev)) :=
  match ls with
  | [] => Some (s, log)
  | l :: ls =>
      let log' :=
        match l with
        | FResp i r now pkp =>
            match fs_calls s !! i with
            | Some (FSent _ tp _ _) => if has_body r then log ++ [fst (fetch_traced K (drains (length log)) cf tp pkp now r)] else log
            | _ => log
            end
        | _ => log
        end in
      match fstep K cf l s with Some s' => frun_traced K cf drains ls s' log' | None => None end
  end.
