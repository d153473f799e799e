(** * Slices with backing arrays
    The cache of roles holds Go slices, and filling it appends to slices read from the cache
    (policy/daemon.go:368-379).  The machine of [PolicySimplify] treats them as values; here is the
    same machine with the arrays behind the slices, so that two goroutines may write to one array.

    Simplifications: reading or writing a cell, and copying an array when it grows, are atomic. *)
From Verif Require Export PolicySimplify.

(** An array: the cells written so far and how many it can hold. *)
Record arr := Arr { ar_cells : list assertion; ar_cap : nat }.
(** A slice: the array it points into (always from its first cell) and its length. *)
Notation slice := (nat * nat)%type.
Definition cells (h : list arr) (id : nat) : list assertion := match h !! id with Some x => ar_cells x | None => [] end.
Definition room (h : list arr) (id : nat) : nat := match h !! id with Some x => ar_cap x | None => 0 end.
Definition contents (h : list arr) (sl : slice) : list assertion := take sl.2 (cells h sl.1).
Definition write_cell (n : nat) (a : assertion) (l : list assertion) : list assertion := take n l ++ a :: drop (S n) l.
(** append(asss, a), policy/daemon.go:372: in place if there is room, else into a new array with
    [extra] cells to spare. *)
Definition append_to (extra : nat) (h : list arr) (sl : slice) (a : assertion) : list arr * slice :=
  if (sl.2 <? room h sl.1)%nat
  then (<[sl.1 := Arr (write_cell sl.2 a (cells h sl.1)) (room h sl.1)]> h, (sl.1, S sl.2))
  else (h ++ [Arr (contents h sl ++ [a]) (S sl.2 + extra)], (length h, S sl.2)).
(** policy/daemon.go:368-378; append([]*Assertion{a}, asss...) and the literal make new arrays. *)
Definition add_slice (extra : nat) (a : assertion) (cur : option slice) (h : list arr) : list arr * slice :=
  match cur with
  | Some sl =>
      match a_effect a with
      | None => append_to extra h sl a
      | Some _ => (h ++ [Arr (a :: contents h sl) (S (length (contents h sl)) + extra)], (length h, S (length (contents h sl))))
      end
  | None => (h ++ [Arr [a] 1], (length h, 1%nat))
  end.

Inductive hw :=
| HIdle
| HCache (j : job) (rest : list raw)
| HGot (j : job) (role : str) (a : assertion) (cur : option slice) (rest : list raw) (* after rp.Get, :368 *)
| HSet (j : job) (role : str) (sl : slice) (rest : list raw)                         (* before SetWithExpire, :379 *)
| HEnd (j : option job) (e : option error).
Record hst := HSt { h_heap : list arr; h_g : gache slice; h_work : list hw }.
Inductive hlabel :=
| HWork (i : nat) (inp : cinput)
| HAppend (i extra : nat)
| HDrop (key : str).

Definition hstep (U : unicode) (l : hlabel) (s : hst) : option hst :=
  match l with
  | HDrop key => Some (HSt (h_heap s) (delete key (h_g s)) (h_work s))
  | HAppend i extra =>
      match h_work s !! i with
      | Some (HGot j role a cur rest) =>
          let '(h, sl) := add_slice extra a cur (h_heap s) in
          Some (HSt h (h_g s) (<[i := HSet j role sl rest]> (h_work s)))
      | _ => None
      end
  | HWork i inp =>
      match h_work s !! i, inp with
      | Some HIdle, IFetch (Ok j) => Some (HSt (h_heap s) (h_g s) (<[i := HCache j (j_script j)]> (h_work s)))
      | Some HIdle, IFetch (Err e) => Some (HSt (h_heap s) (h_g s) (<[i := HEnd None (Some e)]> (h_work s)))
      | Some (HCache j []), ITime _ => Some (HSt (h_heap s) (h_g s) (<[i := HEnd (Some j) None]> (h_work s)))
      | Some (HCache j (r :: rest)), ITime t =>
          match new_assertion U (r_action r) (r_resource r) (r_effect r) with
          | Ok a => Some (HSt (h_heap s) (h_g s) (<[i := HGot j (r_role r) a (g_get t (r_role r) (h_g s)) rest]> (h_work s)))
          | Err e => Some (HSt (h_heap s) (h_g s) (<[i := HEnd (Some j) (Some e)]> (h_work s)))
          | Panic => None
          end
      | Some (HSet j role sl rest), ITime t =>
          Some (HSt (h_heap s) (g_set t role sl (time_sub (j_exp j) (j_now j)) (h_g s)) (<[i := HCache j rest]> (h_work s)))
      | _, _ => None
      end
  end.
Fixpoint hrun (U : unicode) (ls : list hlabel) (s : hst) : option hst :=
  match ls with
  | [] => Some s
  | l :: ls => match hstep U l s with Some s' => hrun U ls s' | None => None end
  end.
(** A new cache and the goroutines that will fill it: those of Update, and those the expired hook
    starts on it later. *)
Definition hinit (n : nat) : hst := HSt [] ∅ (replicate n HIdle).
