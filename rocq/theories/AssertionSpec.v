(** * What an assertion means, written without regular expressions. *)
From Verif Require Export Unicode.

(** Glob matching over characters: '*' any run of non-newline characters, '?' one
    non-newline character, anything else itself. *)
Inductive glob_matches : list rune -> list rune -> Prop :=
| gm_nil : glob_matches [] []
| gm_star run p w :
    Forall (fun x => x <> 10) run -> glob_matches p w -> glob_matches (42 :: p) (run ++ w)
| gm_quest x p w : x <> 10 -> glob_matches p w -> glob_matches (63 :: p) (x :: w)
| gm_char c p w : c <> 42 -> c <> 63 -> glob_matches p w -> glob_matches (c :: p) (c :: w).

(** Characters of the lower-cased text. *)
Definition lower_runes (U : unicode) (s : str) : list rune := map (rune_lower U) (runes s).

(** The assertion with resource text [adom ++ ":" ++ ares] and action [aact] applies to the request. *)
Definition applies (U : unicode) (aact ares_full : str) (domain action resource : str) : Prop :=
  exists adom ares,
    ares_full = adom ++ B ":" ++ ares /\ ":"%char ∉ adom /\
    equal_fold U adom domain = true /\
    glob_matches (lower_runes U aact) (lower_runes U action) /\
    glob_matches (lower_runes U ares) (lower_runes U resource).
