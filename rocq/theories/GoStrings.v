(** * The part of Go's [strings] and [strconv] packages the repository uses.

    Models of standard library functions (trusted base: these are the documented
    semantics of Go 1.18's package strings / strconv). Byte level; the functions
    that work on runes are in [Unicode.v]. *)
From Verif Require Export Base.

(** [strings.HasPrefix(s, p)] *)
Fixpoint has_prefix (p s : str) : bool :=
  match p, s with
  | [], _ => true
  | a :: p', b :: s' => bool_decide (a = b) && has_prefix p' s'
  | _ :: _, [] => false
  end.

(** [strings.HasSuffix(s, p)] *)
Definition has_suffix (p s : str) : bool := has_prefix (rev p) (rev s).

(** [strings.TrimPrefix(s, p)] *)
Definition trim_prefix (p s : str) : str :=
  if has_prefix p s then drop (length p) s else s.

(** [strings.Cut(s, sep)]: around the first occurrence of [sep]; [None] when absent. *)
Fixpoint cut (sep s : str) : option (str * str) :=
  if has_prefix sep s then Some ([], drop (length sep) s)
  else match s with
       | [] => None
       | c :: s' => match cut sep s' with
                    | Some (a, b) => Some (c :: a, b)
                    | None => None
                    end
       end.

(** [strings.SplitN(s, sep, 2)] *)
Definition split_n2 (sep s : str) : list str :=
  match cut sep s with Some (a, b) => [a; b] | None => [s] end.

(** [strings.Index(s, sep)] for the uses [i > 0]; [None] is -1. *)
Definition index (sep s : str) : option nat :=
  match cut sep s with Some (a, _) => Some (length a) | None => None end.

(** [strings.Split(s, c)] for a one-byte separator; never empty. *)
Fixpoint split (c : ascii) (s : str) : list str :=
  match s with
  | [] => [[]]
  | x :: s' =>
      if bool_decide (x = c) then [] :: split c s'
      else match split c s' with
           | p :: ps => (x :: p) :: ps
           | [] => [[x]]
           end
  end.

(** [strings.Join(l, sep)] *)
Fixpoint join (sep : str) (l : list str) : str :=
  match l with
  | [] => []
  | [x] => x
  | x :: l' => x ++ sep ++ join sep l'
  end.

(** [strings.LastIndex(s, c)] for a one-byte separator. *)
Fixpoint last_index (c : ascii) (s : str) : option nat :=
  match s with
  | [] => None
  | x :: s' => match last_index c s' with
               | Some i => Some (S i)
               | None => if bool_decide (x = c) then Some O else None
               end
  end.

(** [strings.ReplaceAll(s, old, new)] for non-empty [old]: left to right,
    non-overlapping. [skip] counts bytes of the current occurrence still to drop. *)
Fixpoint replace_go (old new : str) (skip : nat) (s : str) : str :=
  match s with
  | [] => []
  | c :: s' =>
      match skip with
      | S k => replace_go old new k s'
      | O => if has_prefix old s then new ++ replace_go old new (length old - 1) s'
             else c :: replace_go old new O s'
      end
  end.
Definition replace_all (s old new : str) : str := replace_go old new O s.

(** [strings.Contains(s, c)] for a one-byte needle. *)
Definition contains (c : ascii) (s : str) : bool := existsb (fun x => bool_decide (x = c)) s.

(** ** strconv.ParseInt(s, 10, 64) *)
Definition digit_val (c : ascii) : option Z :=
  let n := Z.of_N (N_of_ascii c) in
  if (48 <=? n) && (n <=? 57) then Some (n - 48) else None.

(** Digits, most significant first; [None] on a non-digit. Out-of-range values are
    kept exact here and rejected by [parse_int]. *)
Fixpoint digits_go (acc : Z) (s : str) : option Z :=
  match s with
  | [] => Some acc
  | c :: s' => match digit_val c with
               | Some d => digits_go (acc * 10 + d) s'
               | None => None
               end
  end.
Definition digits (s : str) : option Z :=
  match s with [] => None | _ => digits_go 0 s end.

(** Optional sign, at least one digit, value in the int64 range. *)
Definition parse_int (s : str) : option Z :=
  let r := match s with
           | c :: s' =>
               if bool_decide (c = "-"%char) then option_map Z.opp (digits s')
               else if bool_decide (c = "+"%char) then digits s'
               else digits s
           | [] => None
           end in
  match r with
  | Some z => if in_int64 z then Some z else None
  | None => None
  end.
