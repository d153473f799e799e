(** * Mapping rules (translator.go) *)
From Verif Require Export Unicode Query GoStrings GoStringsFacts.

(** param, translator.go:37-40 *)
Record param := Param { p_name : str; p_ph : bool }.
(** Rule, translator.go:43-50.  The unexported fields are the zero value ([ [] ], [∅]) in a rule
    built outside the package; a rule already validated keeps them. *)
Record rule := Rule {
  r_method : str; r_path : str; r_action : str; r_resource : str;
  r_split : list param; r_query : gmap str param }.
(** The rules map: a domain's value may be a nil slice ([None]). *)
Notation rules := (gmap str (option (list rule))) (only parsing).

(** The text test of isPlaceholder, translator.go:195 *)
Definition looks_ph (s : str) : bool := has_prefix (B "{") s && has_suffix (B "}") s.
(** isPlaceholder, translator.go:190-213: [Err] for an error, [Ok b] for (b, nil).  [sp], [qm]: the
    fields as they are at the call (a nil slice and map iterate as empty ones). *)
Definition is_placeholder (sp : list param) (qm : gmap str param) (s : str) : outcome bool :=
  if bool_decide (s = B "{}") then Err (ErrMsg "placeholder is empty")
  else if looks_ph s then
    if existsb (fun p => p_ph p && bool_decide (p_name p = s)) sp then Err (ErrMsg "placeholder is duplicated")
    else if existsb (fun kp => p_ph (snd kp) && bool_decide (p_name (snd kp) = s)) (map_to_list qm) then Err (ErrMsg "placeholder is duplicated")
    else Ok true
  else Ok false.

(** The path loop, translator.go:92-102.  [done]: the parameters filled in so far; the rest of the
    slice is still zero and is no placeholder. *)
Fixpoint validate_path (qm : gmap str param) (done : list param) (segs : list str) : outcome (list param) :=
  match segs with
  | [] => Ok done
  | s :: segs =>
      let! b := is_placeholder done qm s in
      validate_path qm (done ++ [Param s b]) segs
  end.
(** The query loop, translator.go:115-127; [keys]: the order of the iteration over the values. *)
Fixpoint validate_query (sp : list param) (values : gmap str (list str)) (qm : gmap str param) (keys : list str) : outcome (gmap str param) :=
  match keys with
  | [] => Ok qm
  | k :: keys =>
      match default [] (values !! k) with
      | [v] =>
          let! b := is_placeholder sp qm v in
          validate_query sp values (<[k := Param v b]> qm) keys
      | _ => Err (ErrMsg "query multiple values is not allowed")
      end
  end.
(** One rule, translator.go:80-127: the checks and the two unexported fields.  [o]: the iteration
    order of the query values. *)
Definition validate_rule (o : list str) (r : rule) : outcome rule :=
  if bool_decide (r_method r = []) || bool_decide (r_action r = []) || bool_decide (r_resource r = []) then Err (ErrMsg "rule is empty")
  else if negb (bool_decide (r_path r = [])) && negb (has_prefix (B "/") (r_path r)) then Err (ErrMsg "path doesn't start with slash")
  else
    let '(path, query) := match cut (B "?") (r_path r) with Some (p, q) => (p, Some q) | None => (r_path r, None) end in
    let! sp := validate_path (r_query r) [] (split "/"%char path) in
    match query with
    | None => Ok (Rule (r_method r) (r_path r) (r_action r) (r_resource r) sp ∅)
    | Some q =>
        match parse_query q with
        | None => Err (ErrMsg "invalid query")
        | Some values =>
            let! qm := validate_query sp values ∅ (range_order o values) in
            Ok (Rule (r_method r) (r_path r) (r_action r) (r_resource r) sp qm)
        end
    end.
(** The rules of a domain in order, translator.go:79-128; [o i]: the order for the i-th rule. *)
Fixpoint validate_list (o : nat -> list str) (l : list rule) : outcome (list rule) :=
  match l with
  | [] => Ok []
  | r :: l =>
      let! r' := validate_rule (o 0%nat) r in
      let! l' := validate_list (fun i => o (S i)) l in
      Ok (r' :: l')
  end.
(** One domain, translator.go:72-77 *)
Definition validate_domain (o : nat -> list str) (d : str) (v : option (list rule)) : outcome (list rule) :=
  if bool_decide (d = []) then Err (ErrMsg "domain is empty")
  else match v with None => Err (ErrMsg "rules is nil") | Some l => validate_list o l end.
(** validate, translator.go:70-131; [ds]: the domains in iteration order, [o d i]: the order for the
    i-th rule of [d].  The validated rules replace the given ones in place. *)
Fixpoint validate (o : str -> nat -> list str) (ds : list str) (m : rules) : outcome rules :=
  match ds with
  | [] => Ok m
  | d :: ds =>
      let! l := validate_domain (o d) d (default None (m !! d)) in
      validate o ds (<[d := Some l]> m)
  end.
(** NewMappingRules, translator.go:58-67 ([None]: a nil map); [od]: iteration order of the domains. *)
Definition new_mapping_rules (od : list str) (o : str -> nat -> list str) (m : option rules) : outcome rules :=
  match m with
  | None => Err (ErrMsg "rules is nil")
  | Some m => validate o (range_order od m) m
  end.

(** The loop over the path segments, translator.go:156-162 (equal lengths). *)
Fixpoint match_path (segs : list str) (sp : list param) (ph : gmap str str) : option (gmap str str) :=
  match segs, sp with
  | s :: segs, p :: sp =>
      if p_ph p then match_path segs sp (<[p_name p := s]> ph)
      else if bool_decide (s = p_name p) then match_path segs sp ph else None
  | _, _ => Some ph
  end.
(** The loop over the query, translator.go:164-178; [keys]: its iteration order. *)
Fixpoint match_query (rq : gmap str (list str)) (qm : gmap str param) (keys : list str) (ph : gmap str str) : option (gmap str str) :=
  match keys with
  | [] => Some ph
  | k :: keys =>
      match default [] (rq !! k) with
      | [v] =>
          match qm !! k with
          | Some p =>
              if p_ph p then match_query rq qm keys (<[p_name p := v]> ph)
              else if bool_decide (v = p_name p) then match_query rq qm keys ph else None
          | None => None
          end
      | _ => None
      end
  end.
(** The replacement loop, translator.go:180-183; [keys]: its iteration order. *)
Definition replace_placeholders (ph : gmap str str) (keys : list str) (res : str) : str :=
  fold_left (fun r k => replace_all r k (match ph !! k with Some v => v | None => [] end)) keys res.

(** Orders chosen by the run time: of the query of the i-th rule, of the placeholders. *)
Record orders := Orders { o_query : nat -> list str; o_ph : list str }.
(** The loop over the rules, translator.go:139-187; [i]: number of rules passed. *)
Fixpoint translate_rules (U : unicode) (o : orders) (i : nat) (l : list rule) (meth path query : str) : outcome (str * str) :=
  match l with
  | [] => Ok (meth, path)
  | r :: l =>
      if bool_decide (to_lower U (r_method r) = to_lower U meth) then
        let segs := split "/"%char path in
        if negb (length segs =? length (r_split r))%nat then translate_rules U o (S i) l meth path query
        else
          match parse_query query with
          | None => Err (ErrMsg "invalid query")
          | Some rq =>
              if negb (map_size rq =? map_size (r_query r))%nat then translate_rules U o (S i) l meth path query
              else
                match match_path segs (r_split r) ∅ with
                | None => translate_rules U o (S i) l meth path query
                | Some ph =>
                    match match_query rq (r_query r) (range_order (o_query o i) rq) ph with
                    | None => translate_rules U o (S i) l meth path query
                    | Some ph' => Ok (r_action r, replace_placeholders ph' (range_order (o_ph o) ph') (r_resource r))
                    end
                end
          end
      else translate_rules U o (S i) l meth path query
  end.
(** Translate, translator.go:134-188 ([None]: a nil rules map). *)
Definition translate (U : unicode) (m : option rules) (o : orders) (domain meth path query : str) : outcome (str * str) :=
  match m with
  | None => Ok (meth, path)
  | Some m => translate_rules U o 0 (default [] (default None (m !! domain))) meth path query
  end.
