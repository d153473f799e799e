(** * Masking of tokens in log messages (mask.go) *)
From Verif Require Export Authorizer GoStrings GoStringsFacts.

(** maskCacheKey, mask.go:21-23: key[len(tok):] panics when the key is shorter than the token. *)
Definition mask_cache_key (key tok : str) : outcome str :=
  if (length tok <=? length key)%nat then Ok (drop (length tok) key) else Panic.
(** maskToken, mask.go:25-43; the mode argument of authorize is one of the two. *)
Definition mask_token (m : mode) (tok : str) : str :=
  match m with
  | MRole =>
      match index (B ";s=") tok with
      | Some (S i) => take (S i) tok
      | _ => B "mask token error: invalid role token"
      end
  | MAccess =>
      match last_index "."%char tok with
      | Some (S i) => take (S i) tok
      | _ => B "mask token error: invalid access token"
      end
  end.
(** What the two debug messages of authorize show of the token and the key (authorizerd.go:396, 469). *)
Definition logged {O} (cf : @zconf O) (q : request) : outcome (str * str) :=
  let! k := mask_cache_key (cache_key cf q) (q_tok q) in
  Ok (mask_token (q_mode q) (q_tok q), k).
