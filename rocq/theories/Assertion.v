(** * policy/assertion.go *)
From Verif Require Export Regex.

(** isRegexMetaCharacter, policy/assertion.go:75-91: ^ $ . | [ + \ ( ) { *)
Definition is_meta (c : rune) : bool :=
  (c =? 94) || (c =? 36) || (c =? 46) || (c =? 124) || (c =? 91) || (c =? 43)
  || (c =? 92) || (c =? 40) || (c =? 41) || (c =? 123).

(** Body of the loop of patternFromGlob, policy/assertion.go:96-107. *)
Definition glob_rune (c : rune) : str :=
  if c =? 42 then B ".*"
  else if c =? 63 then B "."
  else (if is_meta c then B "\" else []) ++ encode_rune c.

(** patternFromGlob, policy/assertion.go:93-110 *)
Definition pattern_from_glob (glob : str) : str :=
  B "^" ++ concat (map glob_rune (runes glob)) ++ B "$".

(** type Assertion, policy/assertion.go:27-37 (the two printable regexp strings are
    left out).  [a_effect] is the field Effect: nil or an error. *)
Record assertion := Assertion {
  a_dom : str;
  a_act_re : regex;
  a_res_re : regex;
  a_effect : option error;
  a_action : str;
  a_resource : str }.

(** NewAssertion, policy/assertion.go:40-73 *)
Definition new_assertion (U : unicode) (action resource effect : str) : outcome assertion :=
  match split_n2 (B ":") resource with
  | [dom; res] =>
      match compile (pattern_from_glob (to_lower U action)) with
      | None => Err (ErrMsg "regexp")
      | Some ar =>
          match compile (pattern_from_glob (to_lower U res)) with
          | None => Err (ErrMsg "regexp")
          | Some rr =>
              Ok {| a_dom := dom; a_act_re := ar; a_res_re := rr;
                    a_effect := if equal_fold U (B "deny") effect then Some ErrDenyByPolicy else None;
                    a_action := action; a_resource := res |}
          end
      end
  | _ => Err ErrInvalidPolicyResource
  end.

(** The condition under which an assertion is applied to a request,
    policy/daemon.go:261-263. *)
Definition a_matches (U : unicode) (a : assertion) (domain action resource : str) : bool :=
  equal_fold U (a_dom a) domain
  && match_string (a_act_re a) (to_lower U action)
  && match_string (a_res_re a) (to_lower U resource).

(** Contents of a policy cache: cached role key to []*Assertion. *)
Notation cache := (gmap str (list assertion)).
